(** Each setting depends on its own keys and variables only. *)
From Verif.Model Require Import Base Str BMap Error Value De EasyTypes Triple Context Resolve Easy.
From Verif.Spec Require Import ConfigSpec LoadSpec EnvSpec TargetSpec FinalSpec OptionsSpec.

(** ** What two runs say of a key

    [env] and [l] are the variables and the files of one run (see [sources]), [env'] and [l']
    those of the other. *)
Section Agree.
Context (env env' : env_map) (l l' : files).

Definition vars_agree {A} (vars : list (reader A)) : Prop :=
  forall r, In r vars -> env_get (fst r) env = env_get (fst r) env'.
Definition agree_scalar {A} (k : scalar_key A) : Prop :=
  vars_agree (variables k)
  /\ first_defined (map (scalar_in k) l) = first_defined (map (scalar_in k) l').
Definition agree_list (k : list_key) : Prop :=
  vars_agree (list_variables k)
  /\ join_lists (defined (map (list_in k) l)) = join_lists (defined (map (list_in k) l')).
Definition agree_program (k : program_key) : Prop :=
  (match k with DocBrowser => vars_agree [browser] | TargetRunner _ => True end)
  /\ join_programs (defined (map (program_in k) l)) = join_programs (defined (map (program_in k) l')).
Definition agree_entry (k : entry_key) : Prop :=
  existsb (fun x => has_entry k (snd x)) l = existsb (fun x => has_entry k (snd x)) l'.

(** The tables that matter for a target: its own and the [cfg(..)] tables. *)
Definition agree_table (name : str) : Prop :=
  agree_entry (TargetEntry name) /\ agree_scalar (TargetLinker name) /\ agree_program (TargetRunner name)
  /\ agree_list (TargetRustflags name) /\ agree_list (TargetRustdocflags name).
(** What matters for the program [rustc], besides the program [cargo]. *)
Definition agree_rustc : Prop :=
  agree_scalar BuildRustc /\ agree_scalar BuildRustcWrapper /\ agree_scalar BuildRustcWorkspaceWrapper.
(** What matters for a target. *)
Definition agree_target (triple : str) : Prop :=
  agree_rustc /\ agree_list BuildRustflags /\ agree_list BuildRustdocflags
  /\ (forall key, In key [B "LINKER"; B "RUNNER"; B "RUSTFLAGS"; B "RUSTDOCFLAGS"] ->
        env_get (target_variable triple key) env = env_get (target_variable triple key) env')
  /\ (forall name, name = triple \/ is_cfg name = true -> agree_table name).
End Agree.

(** What matters for a query, besides the program [cargo]. *)
Definition agree_query (env env' : env_map) (l l' : files) (q : query) : Prop :=
  match q with
  | QTarget a | QLinker a | QRunner a | QRustflags a | QRustdocflags a =>
      forall t, to_triple a = Ok t -> agree_target env env' l l' (tt_triple t)
  | QBuildTargetForConfig _ => agree_rustc env env' l l' /\ agree_list env env' l l' BuildTarget
  | QBuildTargetForCli _ => agree_list env env' l l' BuildTarget
  | QCargo => True
  | QRustc | QHostTriple | QRustcVersion | QCargoVersion => agree_rustc env env' l l'
  end.
