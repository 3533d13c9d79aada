(** What the failures of C90 are said with. *)
From Verif.Model Require Import Base.
From Verif.Spec Require WinAnySpec.
From Verif.Spec Require Import ConfigSpec WinAnyLoadSpec.

(** A directory below the root of a volume that has a name. *)
Definition roomy (h : str) : Prop := exists v r ws, read_as h (Some v, r, ws) /\ sturdy v /\ ws <> [].
(** A list that is not set, or set to nothing. *)
Definition none_set (ws : option (form * list word)) : Prop := match ws with Some ws => snd ws = [] | None => True end.
