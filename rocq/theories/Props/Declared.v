(** C43: the keys are those declared. *)
From Verif.Model Require Import Base Str BMap Value De Serde Types Codegen Generated CrateTypes.
From Verif.Spec Require Import StrSpec SerdeSpec SerdeFormsSpec DeclaredSpec.
From Verif.Proof Require Import StrFacts CodegenProof DeclaredProof.

(** The layout by which documents are read (C43_other_forms, C43_any_document) is that of the
    declarations in src/de.rs, and no other. *)
Theorem C43_declared s : laid (TCrate (B "de::Config") []) s <-> s = reading_order.
Proof. apply (laid_lay 10). vm_compute. reflexivity. Qed.
Print Assumptions C43_declared.

(** The documented keys are those of this layout, and for [env] those of the table form. *)
Fixpoint keys_of (s : layout) : schema :=
  match s with
  | Single => Leaf
  | SerdeFormsSpec.Struct _ l => Fields (map (fun x => (fst x, keys_of (snd x))) l)
  | SerdeFormsSpec.Named s => Entries (keys_of s)
  end.
Definition table_form : list str :=
  flat_map (fun i => match i with
    | Enum _ n vs => if str_eqb n (B "EnvConfigValue")
        then flat_map (fun v => match snd v with Codegen.Named l => map fd_name l | _ => [] end) vs else []
    | _ => [] end) de_items.
Theorem C43_documented :
  documented = match keys_of reading_order with
    | Fields l => Fields (map (fun x => if str_eqb (fst x) (B "env") then (fst x, Entries (Fields (map (fun k => (k, Leaf)) table_form))) else x) l)
    | s => s end.
Proof. vm_compute. reflexivity. Qed.
Print Assumptions C43_documented.

(** ** Examples *)
Example C43_ex_layout :
  laid (TStd (B "BTreeMap") [TStd (B "String") []; TCrate (B "de::RegistriesConfigValue") []])
    (SerdeFormsSpec.Named (SerdeFormsSpec.Struct 3 [(B "index", Single); (B "token", Single); (B "protocol", Single)]))
  /\ (forall s, ~ laid (TCrate (B "easy::Config") []) s)
  /\ hyphens (B "low_speed_limit") = B "low-speed-limit".
Proof.
  split; [apply (lay_laid 10); vm_compute; reflexivity|]. split; [|reflexivity].
  intros s H. inversion H; discriminate.
Qed.
