(** Model of [BTreeMap<String, V>]: an association list kept sorted by key.
    (Sortedness is an invariant proved in [Proof.BMapFacts].) *)
From Verif.Model Require Import Base Str.

Definition bmap (V : Type) := list (str * V).

Fixpoint bget {V} (k : str) (m : bmap V) : option V :=
  match m with
  | [] => None
  | (k', v) :: t => if str_eqb k k' then Some v else bget k t
  end.

Fixpoint binsert {V} (k : str) (v : V) (m : bmap V) : bmap V :=
  match m with
  | [] => [(k, v)]
  | (k', v') :: t =>
      match str_cmp k k' with
      | Lt => (k, v) :: m
      | Eq => (k, v) :: t
      | Gt => (k', v') :: binsert k v t
      end
  end.

(** Mapping over the values in key order ([values_mut], [for (k, v) in map]). *)
Definition bmapv {V W} (f : V -> W) (m : bmap V) : bmap W :=
  map (fun kv => (fst kv, f (snd kv))) m.

Definition bkeys {V} (m : bmap V) : list str := map fst m.

(** Building a map by successive insertions (deserialization, [collect]). *)
Definition bfrom_list {V} (l : list (str * V)) : bmap V :=
  fold_left (fun m kv => binsert (fst kv) (snd kv) m) l [].
