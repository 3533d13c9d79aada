(** What the text forms of a flag list mean. *)
From Verif.Model Require Import Base.
From Verif.Spec Require Import StrSpec.

Definition unit_separator : ascii := ascii_of_nat 31.
Definition space : ascii := ascii_of_nat 32.

Definition free_of (c : ascii) (w : str) : Prop := ~ In c w.

(** The flags after the leading empty ones. *)
Fixpoint drop_leading_empty (l : list str) : list str :=
  match l with
  | [] :: rest => drop_leading_empty rest
  | _ => l
  end.

(** The lists that survive being written and read back. *)
Definition starts_with_text (l : list str) : Prop :=
  match l with
  | [] => False
  | w :: ws => w <> [] \/ ws = []
  end.

(** Relation "[t] is the list [l] with outer white space removed from every word and
    the words that become empty left out". *)
Inductive words_of : list str -> list str -> Prop :=
| words_nil : words_of [] []
| words_skip w l t : trimmed_of w [] -> words_of l t -> words_of (w :: l) t
| words_keep w v l t : trimmed_of w v -> v <> [] -> words_of l t -> words_of (w :: l) (v :: t).
