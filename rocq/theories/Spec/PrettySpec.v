(** How Debug output is laid out on several lines ([{:#?}]). *)
From Verif.Model Require Import Base Error.
From Verif.Spec Require Import DebugTextSpec DebugLayoutSpec.

Definition newline : str := [ascii_of_N 10].
Definition margin (depth : nat) : str := repeat " "%char (4 * depth).
(** A line, or several, of an entry at the given depth. *)
Definition entry_at (depth : nat) (t : str) : str := margin depth ++ t ++ B "," ++ newline.
(** What is between two brackets: nothing, or the entries one level deeper and the margin
    before the closing bracket. *)
Definition body (depth : nat) (ts : list str) : str :=
  match ts with
  | [] => []
  | _ => newline ++ concat (map (entry_at (S depth)) ts) ++ margin depth
  end.

Section Shown.
Variable plain : N -> bool.
Variable quote : bool.

(** Strings, numbers, truth values and names: on one line. *)
Definition atom (t : dbg) : Prop :=
  match t with DStr _ | DOs _ | DNum _ | DBool _ | DUnit _ | DTuple _ [] | DStruct _ [] => True | _ => False end.

Inductive laid_out : nat -> dbg -> str -> Prop :=
| laid_atom d t x : atom t -> tree_shown plain quote t x -> laid_out d t x
| laid_tuple d n l ts : l <> [] -> Forall2 (laid_out (S d)) l ts ->
    laid_out d (DTuple n l) (B n ++ B "(" ++ body d ts ++ B ")")
| laid_struct d n l ts : l <> [] -> Forall2 (field_laid (S d)) l ts ->
    laid_out d (DStruct n l) (B n ++ B " {" ++ body d ts ++ B "}")
| laid_list d l ts : Forall2 (laid_out (S d)) l ts -> laid_out d (DList l) (B "[" ++ body d ts ++ B "]")
| laid_map d l ts : Forall2 (pair_laid (S d)) l ts -> laid_out d (DMap l) (B "{" ++ body d ts ++ B "}")
| laid_set d l ts : Forall2 (laid_out (S d)) l ts -> laid_out d (DSet l) (B "{" ++ body d ts ++ B "}")
with field_laid : nat -> string * dbg -> str -> Prop :=
| laid_field d k v t : laid_out d v t -> field_laid d (k, v) (B k ++ B ": " ++ t)
with pair_laid : nat -> dbg * dbg -> str -> Prop :=
| laid_pair d k v s t : laid_out d k s -> laid_out d v t -> pair_laid d (k, v) (s ++ B ": " ++ t).
End Shown.

(** All names in a tree. *)
Fixpoint names (t : dbg) : list string :=
  match t with
  | DUnit n => [n]
  | DTuple n l => n :: flat_map names l
  | DStruct n l => n :: flat_map (fun kv => fst kv :: names (snd kv)) l
  | DList l | DSet l => flat_map names l
  | DMap l => flat_map (fun kv => names (fst kv) ++ names (snd kv)) l
  | _ => []
  end.

(** Printable text on one or several lines. *)
Definition in_lines (s : str) : Prop :=
  Forall (fun c => N_of_ascii c = 10 \/ (32 <= N_of_ascii c /\ N_of_ascii c <> 127))%N s.
