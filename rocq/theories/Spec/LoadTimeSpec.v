(** What a changing file system was asked and what it answered. *)
From Verif.Model Require Import Base Str Path Load LoadTime.
From Verif.Spec Require Import StrSpec PathSpec.

(** The questions of [tr] (newest first) were answered as [f] answers them. *)
Definition answered (F : nat -> fs) (f : fs) (tr : list fs_op) : Prop :=
  forall newer op older, tr = newer ++ op :: older ->
    match op with
    | OExists p => fs_exists f p = fs_exists (F (length older)) p
    | ORead p => fs_read f p = fs_read (F (length older)) p
    end.

(** Whatever [f] says has been so at some time. *)
Definition was_so (F : nat -> fs) (f : fs) : Prop :=
  (forall p, exists t, fs_exists f p = fs_exists (F t) p) /\
  (forall p, exists t, fs_read f p = fs_read (F t) p).

(** The configuration files of a directory. *)
Definition about (dirs : list str) (op : fs_op) : Prop :=
  exists d n, In d dirs /\ (n = B "config" \/ n = B "config.toml") /\
    (op = OExists (child d n) \/ op = ORead (child d n)).
