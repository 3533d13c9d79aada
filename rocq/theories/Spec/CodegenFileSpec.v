(** What formatting the macro calls of generated code does to the text (C80). *)
From Verif.Model Require Import Base Str.

Definition begins (w s : str) : Prop := exists t, s = w ++ t.
(** [w] is somewhere in [s]. *)
Definition within (w s : str) : Prop := exists a b, s = a ++ w ++ b.

(** A text with its parentheses matched. *)
Inductive balanced : str -> Prop :=
| balanced_nil : balanced []
| balanced_char c s : c <> "("%char -> c <> ")"%char -> balanced s -> balanced (c :: s)
| balanced_pair s t : balanced s -> balanced t -> balanced ("("%char :: s ++ ")"%char :: t).

(** The spaces of [crate ::], of [ < ] and of [ >] go. *)
Definition tightened (w w' : str) : Prop :=
  w = B "crate ::" /\ w' = B "crate::" \/ w = B " < " /\ w' = B "<" \/ w = B " >" /\ w' = B ">".
Inductive tight : str -> str -> Prop :=
| tight_nil : tight [] []
| tight_word w w' s s' : tightened w w' -> tight s s' -> tight (w ++ s) (w' ++ s')
| tight_char c s s' : (forall w w', tightened w w' -> ~ begins w (c :: s)) -> tight s s' -> tight (c :: s) (c :: s').

(** What is before the first macro call, the call, and the rest. *)
Inductive formatted : str -> str -> Prop :=
| formatted_plain s : ~ within (B "!(") s -> formatted s s
| formatted_call a body body' s s' : ~ within (B "!(") a -> balanced body -> tight body body' -> formatted s s' ->
    formatted (a ++ B "!(" ++ body ++ B ")" ++ s) (a ++ B "!(" ++ body' ++ B ")" ++ s')
(** A call that does not end. *)
| formatted_open a body body' : ~ within (B "!(") a ->
    (forall b t, body = b ++ B ")" ++ t -> ~ balanced b) -> tight body body' ->
    formatted (a ++ B "!(" ++ body) (a ++ B "!(" ++ body').

Definition no_spaces (s : str) : str := filter (fun c => negb (Ascii.eqb c " ")) s.

(** The module of a file: [dirs/name.rs] below the source directory. *)
Definition module_path (dirs : list str) (name : str) : list str :=
  if str_eqb name (B "mod") then dirs
  else match dirs with
       | [] => if str_eqb name (B "lib") then [] else [name]
       | _ => dirs ++ [name]
       end.
