(** What cargo and rustc are asked, for a system on which the compiler is found in some way. *)
From Verif.Model Require Import Base Str StdPath Error EasyTypes Context Process Load Resolve Easy OsLoad.
From Verif.Spec Require Import LoadSpec EnvSpec TargetSpec QuerySpec WinSpec WinLoadSpec WinTargetSpec.

Definition asked_cargo (cargo : str) : command := mkCommand cargo [B "-vV"].

Section Tools.
(** The programs that rustc may have been until some moment; cargo; and the host that was given. *)
Context (found : nat -> str -> Prop) (w : world) (b : ebuild) (cargo : str) (host : option str).

(** The question about the version of rustc; the wrapper of the workspace is left out. *)
Definition asked_rustc (now : nat) (c : command) : Prop :=
  exists p, found now p /\ ask (maybe (eb_rustc_wrapper b) ++ [p; B "-vV"]) c.
(** What [rustc()] answers, without an option for it. *)
Definition wrapped_rustc (now : nat) (r : epath_and_args) : Prop :=
  exists p, found now p
  /\ command_of (maybe (eb_rustc_wrapper b) ++ maybe (eb_rustc_workspace_wrapper b) ++ [p]) r.

(** cargo did not tell the host. *)
Definition cargo_silent (now : nat) : Prop :=
  exists n, n < now /\ forall out v h,
    read_outcome (asked_cargo cargo) (w_run w n (asked_cargo cargo)) = Ok out -> says_cargo out v -> ~ says_host out h.
(** What the answers say; they were given by programs that have been run. *)
Definition cargo_said (s : state) (v : cargo_version) : Prop :=
  exists out, In (asked_cargo cargo) (s_trace s) /\ ran w (s_clock s) (asked_cargo cargo) out /\ says_cargo out v.
Definition rustc_said (s : state) (v : rustc_version) : Prop :=
  exists cmd out, asked_rustc (s_clock s) cmd /\ In cmd (s_trace s) /\ ran w (s_clock s) cmd out /\ says_rustc out v.
(** The host: the option, or what cargo says, or what rustc says where cargo does not. *)
Definition host_said (s : state) (h : str) : Prop :=
  host = Some h
  \/ (host = None /\
      ((exists out v, In (asked_cargo cargo) (s_trace s) /\ ran w (s_clock s) (asked_cargo cargo) out
          /\ says_cargo out v /\ says_host out h)
       \/ (cargo_silent (s_clock s) /\ exists cmd out v, asked_rustc (s_clock s) cmd /\ In cmd (s_trace s)
          /\ ran w (s_clock s) cmd out /\ says_rustc out v /\ says_host out h))).
(** All the programs that are run. *)
Definition program_of (s : state) (cmd : command) : Prop :=
  cmd = asked_cargo cargo \/ asked_rustc (s_clock s) cmd
  \/ exists rustc T, s_rustc s = Some rustc /\ cmd = cfg_question rustc T.

(** Whatever tells a version tells the host, too. *)
Definition tell_all : Prop :=
  (forall n out v, read_outcome (asked_cargo cargo) (w_run w n (asked_cargo cargo)) = Ok out ->
     says_cargo out v -> exists h, says_host out h)
  /\ (forall n c out v, asked_rustc n c -> read_outcome c (w_run w n c) = Ok out ->
     says_rustc out v -> exists h, says_host out h).

(** Tools that do not change: what they print at any time. *)
Definition prints (c : command) (out : str) : Prop := read_outcome c (w_run w 0 c) = Ok out.
Definition steady_host (h : str) : Prop :=
  host = Some h
  \/ (host = None /\
      ((exists out v, prints (asked_cargo cargo) out /\ says_cargo out v /\ says_host out h)
       \/ ((forall out v h', prints (asked_cargo cargo) out -> says_cargo out v -> ~ says_host out h')
           /\ exists cmd out v, asked_rustc 0 cmd /\ prints cmd out /\ says_rustc out v /\ says_host out h))).
End Tools.

(** The compiler on Windows, as it was at some moment until [now]. *)
Definition win_found (w : world) (b : ebuild) (cargo : str) (now : nat) (p : str) : Prop :=
  exists n, n <= now /\ WinTargetSpec.compiler b cargo (w_exists w n) p.
(** Where cargo can be: a name, or a name in a directory. *)
Definition cargo_placed (cargo : str) : Prop :=
  win_name cargo \/ (exists d x, cargo = at_place (in_place d [x]) /\ place_ok d /\ win_name x).
(** A configuration loaded on Windows, and the cargo of its environment.  Only where no compiler is
    configured does it matter where cargo is. *)
Definition win_loaded (f : fs) (p : process_env) (cwd : place) (o : options) (env : env_map) (l : LoadSpec.files)
  (cargo : str) (ec : econfig) : Prop :=
  win_sources f p cwd o env l /\ os_easy_load windows f p (at_place cwd) o = Ok ec /\ win_cargo o env cargo
  /\ (eb_rustc (ec_build ec) = None -> cargo_placed cargo).
