(** Targets: triples and paths of specification files. *)
From Verif.Model Require Import Base Error Value Triple.
From Verif.Spec Require Import StrSpec PathSpec.

(** The last name in a path. *)
Definition last_name (p n : str) : Prop :=
  (exists a l, reads_as p a (l ++ [n])) /\ n <> B "..".

Definition dot : ascii := "."%char.
(** A name is its stem, or its stem, a dot and an extension. *)
Definition stem_of (n st : str) : Prop :=
  (exists e, n = st ++ dot :: e /\ ~ In dot e /\ st <> [])
  \/ (st = n /\ forall a e, n = a ++ dot :: e -> ~ In dot e -> a = []).

(** What is taken for the path of a specification file. *)
Definition spec_like (s : str) : Prop :=
  (exists st, last_name s (st ++ B ".json") /\ st <> [])
  \/ In "/"%char s \/ In "\"%char s.

(** Targets that can be made from text. *)
Definition made (t : triple) : Prop :=
  exists s d cwd, triple_new (E := error) s d cwd = Ok t.
