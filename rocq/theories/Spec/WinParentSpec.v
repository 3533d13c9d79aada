(** The text of the parent of a path on Windows. *)
From Verif.Model Require Import Base.
From Verif.Spec Require Import StrSpec WinSpec WinAnySpec.

(** What is in front of all words: the start, and one separator, or the dot after a drive. *)
Inductive begun : str -> str -> Prop :=
| begun_root p s u k t : starts p s (k :: t) -> separates k -> p = u ++ k :: t -> begun p (u ++ [k])
| begun_drive p c u t : starts p (AtDrive c) t -> ~ leads t -> p = u ++ t -> begun p (u ++ concat (first_dot t))
| begun_top k t : (forall s u, ~ starts (k :: t) s u) -> separates k -> begun (k :: t) [k]
| begun_here p : (forall s u, ~ starts p s u) -> ~ leads p -> begun p [].

(** That beginning where there is one word; otherwise the shortest beginning that has all words but the last. *)
Inductive parent_text (p : str) : str -> Prop :=
| parent_first v r w q : reads p v r [w] -> begun p q -> parent_text p q
| parent_further v r l x w q t : reads p v r (l ++ [x; w]) -> p = q ++ t -> reads q v r (l ++ [x]) ->
    (forall q' t', q = q' ++ t' -> reads q' v r (l ++ [x]) -> t' = []) -> parent_text p q.
