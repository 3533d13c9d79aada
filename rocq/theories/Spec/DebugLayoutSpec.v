(** How Debug output is laid out on one line, as documented for [DebugStruct], [DebugTuple],
    [DebugList], [DebugSet] and [DebugMap] of [std::fmt]. *)
From Verif.Model Require Import Base Error.
From Verif.Spec Require Import DebugTextSpec.

(** Decimal, without leading zeros. *)
Definition number_shown (z : Z) (t : str) : Prop :=
  exists ds, Forall (fun d => d < 10)%N ds /\ (ds = [0%N] \/ exists d r, ds = d :: r /\ d <> 0%N)
  /\ fold_left (fun a d => 10 * a + d)%N ds 0%N = Z.abs_N z
  /\ t = (if Z.ltb z 0 then B "-" else []) ++ map (fun d => nth (N.to_nat d) (B "0123456789") " "%char) ds.

(** The texts with a comma and a space between any two. *)
Inductive with_commas : list str -> str -> Prop :=
| no_texts : with_commas [] []
| some_texts x l : with_commas (x :: l) (x ++ concat (map (fun y => B ", " ++ y) l)).

Section Shown.
Variable plain : N -> bool.
Variable quote : bool.

Inductive tree_shown : dbg -> str -> Prop :=
| shown_str s t : text_shown plain quote false s t -> tree_shown (DStr s) (B """" ++ t ++ B """")
| shown_os s t : text_shown plain quote true s t -> tree_shown (DOs s) (B """" ++ t ++ B """")
| shown_num z t : number_shown z t -> tree_shown (DNum z) t
| shown_true : tree_shown (DBool true) (B "true")
| shown_false : tree_shown (DBool false) (B "false")
| shown_unit n : tree_shown (DUnit n) (B n)
| shown_tuple_empty n : tree_shown (DTuple n []) (B n)
| shown_tuple n l ts x : l <> [] -> Forall2 tree_shown l ts -> with_commas ts x ->
    tree_shown (DTuple n l) (B n ++ B "(" ++ x ++ B ")")
| shown_struct_empty n : tree_shown (DStruct n []) (B n)
| shown_struct n l ts x : l <> [] -> Forall2 field_shown l ts -> with_commas ts x ->
    tree_shown (DStruct n l) (B n ++ B " { " ++ x ++ B " }")
| shown_list l ts x : Forall2 tree_shown l ts -> with_commas ts x -> tree_shown (DList l) (B "[" ++ x ++ B "]")
| shown_map l ts x : Forall2 entry_shown l ts -> with_commas ts x -> tree_shown (DMap l) (B "{" ++ x ++ B "}")
| shown_set l ts x : Forall2 tree_shown l ts -> with_commas ts x -> tree_shown (DSet l) (B "{" ++ x ++ B "}")
with field_shown : string * dbg -> str -> Prop :=
| shown_field k v t : tree_shown v t -> field_shown (k, v) (B k ++ B ": " ++ t)
with entry_shown : dbg * dbg -> str -> Prop :=
| shown_entry k v s t : tree_shown k s -> tree_shown v t -> entry_shown (k, v) (s ++ B ": " ++ t).
End Shown.
