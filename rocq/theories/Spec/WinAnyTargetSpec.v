(** Targets and the compiler on Windows from any directory. *)
From Verif.Model Require Import Base Str StdPath BMap Error Value De Triple EasyTypes Process Resolve Context Load Easy OsLoad.
From Verif.Spec Require WinAnySpec.
From Verif.Spec Require Import StrSpec ConfigSpec LoadSpec EnvSpec TargetSpec FinalSpec WinSpec WinLoadSpec OsTargetSpec
  WinTargetSpec WinPanicSpec WinAnyLoadSpec.

(** As [settings_of] in [FinalSpec], with the paths of [WinAnyLoadSpec]. *)
Definition any_settings_of (env : env_map) (l : LoadSpec.files) (tables : bmap target_config) (cwd : reading)
  (matches : str -> bool) (triple : str) (e : etarget) : Prop :=
  both (any_program_at cwd) (target_linker env tables matches triple) (et_linker e)
  /\ both (any_command_at cwd) (target_runner env tables matches triple)
       (option_map (fun p => (epa_path p, epa_args p)) (et_runner e))
  /\ et_rustflags e = option_map eflags_words
       (target_rustflags env tables matches triple (overrides_target env (B "RUSTFLAGS"))
          (words_of env l BuildRustflags))
  /\ et_rustdocflags e = option_map eflags_words
       (target_rustdocflags env tables triple (overrides_target env (B "RUSTDOCFLAGS"))
          (words_of env l BuildRustdocflags)).
(** A program relative to a directory that is not there. *)
Definition lost (v : Value.value str) : Prop := baseless (def v) /\ ~ complete (val v) /\ has_separator (val v).
Inductive lost_tool (env : env_map) (tables : bmap target_config) (matches : str -> bool) (triple : str) : Prop :=
| lost_linker v : target_linker env tables matches triple = Some v -> lost v -> lost_tool env tables matches triple
| lost_runner fm v args : target_runner env tables matches triple = Some (fm, v :: args) -> lost v -> lost_tool env tables matches triple.

(** [rustc.exe] in the directory of cargo, or in cargo itself where that is no more than a volume. *)
Definition beside (cargo : reading) : reading := into (fst cargo, removelast (snd cargo)) (B "rustc.exe").
(** As [compiler] in [WinTargetSpec], for any text of cargo. *)
Inductive any_compiler (b : ebuild) (cargo : str) (there : str -> bool) : str -> Prop :=
| any_compiler_set r : eb_rustc b = Some r -> any_compiler b cargo there r
| any_compiler_beside m x : eb_rustc b = None -> read_as cargo m -> read_as x (beside m) -> there x = true -> any_compiler b cargo there x
| any_compiler_name m x : eb_rustc b = None -> read_as cargo m -> read_as x (beside m) -> there x = false ->
    any_compiler b cargo there (B "rustc").
Definition any_found (w : world) (b : ebuild) (cargo : str) (now : nat) (p : str) : Prop :=
  exists n, n <= now /\ any_compiler b cargo (w_exists w n) p.
Definition any_loaded (f : fs) (p : process_env) (cwd : str) (o : options) (env : env_map) (cargo : str) (ec : econfig) : Prop :=
  environment p o env /\ os_easy_load windows f p cwd o = Ok ec /\ win_cargo o env cargo
  /\ (eb_rustc (ec_build ec) = None -> forall m, read_as cargo m -> WinAnySpec.solid cargo (fst (fst m))).
