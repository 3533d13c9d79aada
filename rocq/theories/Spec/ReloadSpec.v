(** Loading again what was written of a resolved configuration. *)
From Verif.Model Require Import Base Str BMap Error Value De Serde Triple EasyTypes Context Load Resolve Easy.
From Verif.Spec Require Import StrSpec Utf8Spec PathSpec WalkSpec ConfigSpec LoadSpec EnvSpec TripleSpec RootSpec
  TargetSpec FinalSpec EasySerdeSpec.

(** Paths that mean the same from wherever they are read. *)
Definition settled_program (p : str) : Prop := absolute p \/ ~ has_separator p.
Definition settled {A} (k : scalar_key A) : A -> Prop :=
  match k in scalar_key A return A -> Prop with
  | BuildRustc | BuildRustcWrapper | BuildRustcWorkspaceWrapper | BuildRustdoc => settled_program
  | BuildTargetDir | BuildDepInfoBasedir => absolute
  | _ => fun _ => True
  end.
Definition all_settled (c : econfig) : Prop :=
  (forall A (k : scalar_key A) a, easy_look k c = Some a -> settled k a)
  /\ (forall ts t, easy_words BuildTarget c = Some ts -> In t ts -> spec_like t -> absolute t)
  /\ (forall b, ed_browser (ec_doc c) = Some b -> settled_program (epa_path b))
  /\ (forall n e, bget n (ec_env c) = Some e -> ee_relative e = false).

(** What is shown repaired needs no repair. *)
Definition all_text (c : econfig) : Prop :=
  (forall ts t, easy_words BuildTarget c = Some ts -> In t ts -> utf8 t)
  /\ (forall b x, ed_browser (ec_doc c) = Some b -> In x (command_words b) -> utf8 x)
  /\ (forall n e, bget n (ec_env c) = Some e -> utf8 (ee_value e)).

(** The file [q] with contents [t] is the only one found, it is below some directory, and no
    variable is set. *)
Definition only_file (f : fs) (p : process_env) (cwd : str) (o : options) (q : str) (t : toml) : Prop :=
  environment p o []
  /\ (exists home, home_of p o cwd home /\ visited f cwd home [q])
  /\ fs_read f q = ReadTree t
  /\ (exists r, root_of cwd (DefPath q) r).

(** ** Targets *)
(** The settings of a target do not depend on where they are read, and say all. *)
Definition target_settled (c : econfig) (e : etarget) : Prop :=
  (forall p, et_linker e = Some p -> settled_program p)
  /\ (forall r, et_runner e = Some r -> settled_program (epa_path r))
  /\ (et_rustflags e = None -> easy_words BuildRustflags c = None)
  /\ (et_rustdocflags e = None -> easy_words BuildRustdocflags c = None).
Definition runner_text (e : etarget) : Prop :=
  forall r x, et_runner e = Some r -> In x (command_words r) -> utf8 x.
(** The names of targets that can be found again. *)
Definition names_plain (targets : bmap etarget) : Prop :=
  forall t e, In (t, e) targets -> utf8 t /\ is_cfg t = false.
(** What there is for a target that nothing is known of. *)
Definition general_settings (c : econfig) : etarget :=
  mkEtarget None None (eb_rustflags (ec_build c)) (eb_rustdocflags (ec_build c)).
