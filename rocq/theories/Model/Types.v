(** Rust types as far as the auto traits go. *)
From Verif.Model Require Import Base.

Inductive auto := Send | Sync | Unpin | UnwindSafe | RefUnwindSafe.

(** Lifetimes play no role.  [TDyn b] is [dyn Trait + b], [TStd] a type of the standard library,
    [TCrate] one declared in the crate. *)
Inductive ty :=
| TParam (n : nat)
| TRef (t : ty)
| TMut (t : ty)
| TDyn (bounds : list auto)
| TStd (name : str) (args : list ty)
| TCrate (name : str) (args : list ty).
