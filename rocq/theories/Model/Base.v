(** Basic types shared by the whole model.

    A Rust [str], [String], [OsStr], [OsString], [Path] or [PathBuf] (on Unix)
    is modelled as the list of its bytes. *)
From Coq Require Export Ascii String.
From Coq Require Export List Bool NArith ZArith Lia.
Export ListNotations.
#[global] Open Scope list_scope.

Definition str := list ascii.

(** Literal byte strings. *)
Definition B (s : string) : str := list_ascii_of_string s.
Arguments B s%string_scope.

(** Numeric value of a byte. *)
Definition nb (c : ascii) : N := N_of_ascii c.

(** A byte from its numeric value (used for the non-printing literals). *)
Definition byte_of (n : N) : ascii := ascii_of_N n.

(** Reasons for which the code can panic. *)
Inductive panic :=
| PUnwrapNone          (* Option::unwrap on None *)
| POverflow            (* arithmetic overflow with overflow checks enabled *)
| PSlice               (* str slice out of range or not on a char boundary *)
| PDebugAssert         (* debug_assert! failure *)
| PNoEntry             (* map[key] with a missing key *)
| PFuel.               (* model artefact: fuel exhausted; proved unreachable *)

(** Outcome of a Rust call returning [Result<A, E>], with panics explicit. *)
Inductive res (E A : Type) :=
| Ok (a : A)
| Err (e : E)
| Panic (p : panic).
Arguments Ok {E A} a.
Arguments Err {E A} e.
Arguments Panic {E A} p.

Definition bind {E A A'} (m : res E A) (f : A -> res E A') : res E A' :=
  match m with
  | Ok a => f a
  | Err e => Err e
  | Panic p => Panic p
  end.

Definition map_err {E E' A} (f : E -> E') (m : res E A) : res E' A :=
  match m with
  | Ok a => Ok a
  | Err e => Err (f e)
  | Panic p => Panic p
  end.

Definition map_ok {E A A'} (f : A -> A') (m : res E A) : res E A' :=
  match m with
  | Ok a => Ok (f a)
  | Err e => Err e
  | Panic p => Panic p
  end.

Declare Scope res_scope.
Notation "x <- e ;; k" := (bind e (fun x => k))
  (at level 61, e at next level, right associativity) : res_scope.
#[global] Open Scope res_scope.

Definition is_ok {E A} (m : res E A) : bool :=
  match m with Ok _ => true | _ => false end.
Definition is_err {E A} (m : res E A) : bool :=
  match m with Err _ => true | _ => false end.
Definition is_panic {E A} (m : res E A) : bool :=
  match m with Panic _ => true | _ => false end.

(** Collecting an iterator of results into a vector, left to right. *)
Fixpoint traverse {E A A'} (f : A -> res E A') (l : list A) : res E (list A') :=
  match l with
  | [] => Ok []
  | a :: t => b <- f a ;; bs <- traverse f t ;; Ok (b :: bs)
  end.

(** The same for an [Option]: [o.map(f)] where [f] may panic. *)
Definition opt_traverse {E A A'} (f : A -> res E A') (o : option A) : res E (option A') :=
  match o with
  | None => Ok None
  | Some a => b <- f a ;; Ok (Some b)
  end.

Definition is_none {A} (o : option A) : bool :=
  match o with None => true | Some _ => false end.
Definition is_some {A} (o : option A) : bool :=
  match o with None => false | Some _ => true end.

(** Build profile switches that change the behaviour of the crate. *)
Record profile := mkProfile {
  overflow_checks : bool;
  debug_assertions : bool
}.
Definition release : profile := mkProfile false false.
Definition debug : profile := mkProfile true true.
