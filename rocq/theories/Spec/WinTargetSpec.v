(** Settings of targets on Windows. *)
From Verif.Model Require Import Base Str StdPath BMap Error Value De Triple EasyTypes Process Resolve Context Easy OsLoad.
From Verif.Spec Require Import StrSpec ConfigSpec LoadSpec EnvSpec TargetSpec FinalSpec WinSpec WinLoadSpec OsTargetSpec.

(** As [settings_of] in [FinalSpec], with the paths of Windows. *)
Definition win_settings_of (env : env_map) (l : files) (tables : bmap target_config) (cwd : place)
  (matches : str -> bool) (triple : str) (e : etarget) : Prop :=
  agrees (win_program_at cwd) (target_linker env tables matches triple) (et_linker e)
  /\ agrees (win_command_at cwd) (target_runner env tables matches triple)
       (option_map (fun p => (epa_path p, epa_args p)) (et_runner e))
  /\ et_rustflags e = option_map eflags_words
       (target_rustflags env tables matches triple (overrides_target env (B "RUSTFLAGS"))
          (words_of env l BuildRustflags))
  /\ et_rustdocflags e = option_map eflags_words
       (target_rustdocflags env tables triple (overrides_target env (B "RUSTDOCFLAGS"))
          (words_of env l BuildRustdocflags)).

(** Cargo: of the options, the variable CARGO, or by name. *)
Inductive win_cargo (o : options) (env : env_map) : str -> Prop :=
| cargo_option c : o_cargo o = Some c -> win_cargo o env c
| cargo_variable c : o_cargo o = None -> env_get (B "CARGO") env = Some c -> win_cargo o env c
| cargo_default : o_cargo o = None -> env_get (B "CARGO") env = None -> win_cargo o env (B "cargo").
(** The compiler: as configured, or [rustc.exe] beside cargo, or by name; in the order the
    wrappers are called. *)
Inductive compiler (b : ebuild) (cargo : str) (there : str -> bool) : str -> Prop :=
| compiler_set r : eb_rustc b = Some r -> compiler b cargo there r
| compiler_beside d n : eb_rustc b = None -> cargo = at_place (in_place d [n]) -> place_ok d -> win_name n ->
    there (at_place (in_place d [B "rustc.exe"])) = true -> compiler b cargo there (at_place (in_place d [B "rustc.exe"]))
| compiler_name d n : eb_rustc b = None -> cargo = at_place (in_place d [n]) -> place_ok d -> win_name n ->
    there (at_place (in_place d [B "rustc.exe"])) = false -> compiler b cargo there (B "rustc")
| compiler_here : eb_rustc b = None -> win_name cargo -> there (B "rustc.exe") = true -> compiler b cargo there (B "rustc.exe")
| compiler_bare : eb_rustc b = None -> win_name cargo -> there (B "rustc.exe") = false -> compiler b cargo there (B "rustc").
Definition with_wrappers (b : ebuild) (rustc : str) (p : epath_and_args) : Prop :=
  epa_path p :: epa_args p
  = (match eb_rustc_wrapper b with Some x => [x] | None => [] end)
    ++ (match eb_rustc_workspace_wrapper b with Some x => [x] | None => [] end) ++ [rustc].

(** What a query about a target needs: an answer of the compiler where there are [cfg(..)] tables,
    and programs that are at some path. *)
Definition win_cfg_available (pr : profile) (w : world) (c : econfig) (s : state) (target : str) : Prop :=
  (exists x, cfg_get target (s_cfg s) = Some x) \/
  (exists rustc s1 out, os_run_query windows (B ".exe") pr w c QRustc s = (Ok (AProgram rustc), s1) /\
     read_outcome (cfg_question rustc target) (w_run w (s_clock s1) (cfg_question rustc target)) = Ok out).
Definition win_target_resolvable (cwd : place) (env : env_map) (tables : bmap target_config) (triple : str) : Prop :=
  forall matches,
    (forall v, target_linker env tables matches triple = Some v -> exists p, win_program_at cwd v p)
    /\ (forall ws, target_runner env tables matches triple = Some ws -> exists p, win_command_at cwd ws p).
