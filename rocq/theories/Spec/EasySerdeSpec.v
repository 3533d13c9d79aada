(** What is written of a resolved configuration. *)
From Verif.Model Require Import Base Str BMap Value De Triple EasyTypes Context Resolve Easy.
From Verif.Spec Require Import StrSpec Utf8Spec ConfigSpec RootSpec SerdeSpec FinalSpec.

(** A value that is a path must be text. *)
Definition writable {A} (k : scalar_key A) : A -> Prop :=
  match k in scalar_key A return A -> Prop with
  | BuildRustc | BuildRustcWrapper | BuildRustcWorkspaceWrapper | BuildRustdoc | BuildTargetDir
  | BuildDepInfoBasedir => utf8
  | _ => fun _ => True
  end.
(** [targets] are the targets that were asked about. *)
Definition paths_are_text (c : econfig) (targets : bmap etarget) : Prop :=
  (forall A (k : scalar_key A) a, easy_look k c = Some a -> writable k a)
  /\ (forall t e p, In (t, e) targets -> et_linker e = Some p -> utf8 p).

(** Numbers are within the bounds of their type. *)
Definition fits (c : econfig) : Prop :=
  forall A (k : scalar_key A) a, easy_look k c = Some a -> in_bounds k a.
(** Two targets have different names, even when repaired. *)
Definition told_apart (targets : bmap etarget) : Prop :=
  forall a t e b u e' d n, targets = a ++ (t, e) :: b ++ (u, e') :: d -> repaired t n -> ~ repaired u n.

(** Words, in an array. *)
Definition array_of (R : str -> str -> Prop) (ws : list str) (w : form * list word) : Prop :=
  exists ts, Forall2 R ws ts /\ w = (AsArray, map unlabelled ts).
Definition command_words (p : epath_and_args) : list str := epa_path p :: epa_args p.
Definition flag (b : bool) : option (value bool) := if b then Some (unlabelled true) else None.

(** What a configuration says is what the resolved one says, without definitions: *)
Definition says_settings (c : econfig) (c' : config) : Prop :=
  (forall A (k : scalar_key A), field k = true -> look k c' = option_map unlabelled (easy_look k c))
  /\ (forall k, list_field k = true ->
        both (array_of (match k with BuildTarget => repaired | _ => eq end)) (easy_words k c) (look_list k c'))
  /\ both (fun p => array_of repaired (command_words p)) (ed_browser (ec_doc c)) (look_program DocBrowser c')
  /\ (forall n, both (fun e v => exists t, repaired (ee_value e) t /\ v = unlabelled t)
                  (bget n (ec_env c)) (look (EnvVarValue n) c'))
  /\ (forall n, look (EnvVarForce n) c' = under (ec_env c) n (fun e => flag (ee_force e))
             /\ look (EnvVarRelative n) c' = under (ec_env c) n (fun e => flag (ee_relative e)))
  /\ (forall n, has_entry (AliasEntry n) c' = easy_entry (AliasEntry n) c
             /\ has_entry (EnvEntry n) c' = easy_entry (EnvEntry n) c
             /\ has_entry (RegistriesEntry n) c' = easy_entry (RegistriesEntry n) c).
(** ... and the settings of the targets under their names. *)
Definition says_target (e : etarget) (n : str) (c' : config) : Prop :=
  has_entry (TargetEntry n) c' = true
  /\ look (TargetLinker n) c' = option_map unlabelled (et_linker e)
  /\ both (fun p => array_of repaired (command_words p)) (et_runner e) (look_program (TargetRunner n) c')
  /\ both (fun f => array_of eq (ef_flags f)) (et_rustflags e) (look_list (TargetRustflags n) c')
  /\ both (fun f => array_of eq (ef_flags f)) (et_rustdocflags e) (look_list (TargetRustdocflags n) c').
Definition says_targets (targets : bmap etarget) (c' : config) : Prop :=
  (forall t e n, In (t, e) targets -> repaired t n -> says_target e n c')
  /\ (forall n, has_entry (TargetEntry n) c' = true -> exists t e, In (t, e) targets /\ repaired t n).

(** Nothing is configured. *)
Definition blank_settings (c : econfig) : Prop :=
  (forall A (k : scalar_key A), easy_look k c = None) /\ (forall k, easy_words k c = None)
  /\ ed_browser (ec_doc c) = None
  /\ (forall n, easy_entry (AliasEntry n) c = false /\ easy_entry (EnvEntry n) c = false
             /\ easy_entry (RegistriesEntry n) c = false).
(** The same as far as it is written. *)
Definition same_shown (a b : econfig) : Prop :=
  (forall A (k : scalar_key A), easy_look k a = easy_look k b)
  /\ (forall k, easy_words k a = easy_words k b)
  /\ ed_browser (ec_doc a) = ed_browser (ec_doc b)
  /\ (forall n, bget n (ec_env a) = bget n (ec_env b))
  /\ (forall n, easy_entry (RegistriesEntry n) a = easy_entry (RegistriesEntry n) b).
