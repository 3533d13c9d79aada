(** How a shell reads assignments (POSIX.1-2017, volume 3, sections 2.2 and 2.9.1), without
    what the texts here do not use: double quotes, expansions, comments, several words. *)
From Verif.Model Require Import Base.

Definition quote : ascii := "'".
Definition escape_sign : ascii := "\".
Definition line_end : ascii := ascii_of_N 10.
Definition small : str := B "abcdefghijklmnopqrstuvwxyz".
Definition large : str := B "ABCDEFGHIJKLMNOPQRSTUVWXYZ".
Definition digits : str := B "0123456789".
(** Characters that stand for themselves wherever they are in the value of an assignment. *)
Definition ordinary (c : ascii) : Prop := In c (small ++ large ++ digits ++ B "_-=/,.+:@%^").

(** [word w v]: [w], up to a blank or the end of the line, stands for [v]. *)
Inductive word : str -> str -> Prop :=
| word_end : word [] []
| word_plain c w v : ordinary c -> word w v -> word (c :: w) (c :: v)
| word_escaped c w v : c <> line_end -> word w v -> word (escape_sign :: c :: w) (c :: v)
| word_quoted q w v : ~ In quote q -> word w v -> word (quote :: q ++ quote :: w) (q ++ v).

(** A name: letters, digits and underscores, not starting with a digit. *)
Definition identifier (n : str) : Prop :=
  exists c t, n = c :: t /\ In c (small ++ large ++ B "_") /\ Forall (fun c => In c (small ++ large ++ digits ++ B "_")) t.

(** A script of assignments, one after the other. *)
Inductive script : str -> list (str * str) -> Prop :=
| script_end : script [] []
| script_line n w v rest l : identifier n -> word w v -> script rest l ->
    script (n ++ "="%char :: w ++ line_end :: rest) ((n, v) :: l).
