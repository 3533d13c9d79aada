(** Questions about targets, for both families of systems. *)
From Verif.Model Require Import Base Str StdPath OsPaths Error Triple EasyTypes Process Resolve Easy OsLoad.

(** Targets are given by texts, or by triples that were made of a text. *)
Definition plain_made (os : system) (t : triple) : Prop := exists s, os_triple (E := error) os s None None = Ok t.
Definition os_real_arg (os : system) (a : target_arg) : Prop :=
  match a with ArgText _ => True | ArgTriple t => plain_made os t end.
Definition os_real_query (os : system) (q : query) : Prop :=
  match q with
  | QTarget a | QLinker a | QRunner a | QRustflags a | QRustdocflags a => os_real_arg os a
  | _ => True
  end.
(** The cells after some calls on a new configuration. *)
Fixpoint os_run_queries (os : system) (suffix : str) (pr : profile) (w : world) (c : econfig) (qs : list query) (s : state) : state :=
  match qs with
  | [] => s
  | q :: rest => os_run_queries os suffix pr w c rest (snd (os_run_query os suffix pr w c q s))
  end.
Definition os_reached (os : system) (suffix : str) (pr : profile) (w : world) (c : econfig) (s : state) : Prop :=
  exists qs, Forall (os_real_query os) qs /\ s = os_run_queries os suffix pr w c qs (state_init (ec_cx c)).
