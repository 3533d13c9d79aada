(** The resolved configuration as a whole, from the files, the environment and the options. *)
From Verif.Model Require Import Base Str BMap Error Value De Triple EasyTypes Context Load Easy.
From Verif.Spec Require Import StrSpec PathSpec WalkSpec ConfigSpec LoadSpec EnvSpec TripleSpec RootSpec TargetSpec.

(** The variables: those given as an option, or those of the process that are kept. *)
Definition environment (p : process_env) (o : options) (env : env_map) : Prop :=
  match o_env o with
  | Some e => one_value_each e /\ forall n, env_get n env = env_get n e
  | None => forall n v, env_get n env = Some v <-> kept n /\ last_setting n (p_vars p) v
  end.

(** CARGO_HOME: given as an option, or the variable of the process, or [.cargo] in the home
    directory. *)
Inductive home_of (p : process_env) (o : options) (cwd : str) : option str -> Prop :=
| home_option h : o_cargo_home o = Some h -> home_of p o cwd h
| home_absolute v :
    o_cargo_home o = None -> env_get (B "CARGO_HOME") (p_vars p) = Some v -> absolute v ->
    home_of p o cwd (Some v)
| home_relative v :
    o_cargo_home o = None -> env_get (B "CARGO_HOME") (p_vars p) = Some v -> v <> [] -> ~ absolute v ->
    home_of p o cwd (Some (child cwd v))
| home_default :
    o_cargo_home o = None ->
    env_get (B "CARGO_HOME") (p_vars p) = None \/ env_get (B "CARGO_HOME") (p_vars p) = Some [] ->
    home_of p o cwd (option_map (fun d => child d (B ".cargo")) (p_home_dir p)).

(** The variables and the files with their contents, closest first. *)
Definition sources (f : fs) (p : process_env) (cwd : str) (o : options) (env : env_map) (l : files) : Prop :=
  environment p o env /\
  exists home ps, home_of p o cwd home /\ visited f cwd home ps /\ reads f ps l.

(** ** Keys of the resolved configuration *)
Definition easy_look {A} (k : scalar_key A) (c : econfig) : option A :=
  match k with
  | BuildJobs => eb_jobs (ec_build c)
  | BuildRustc => eb_rustc (ec_build c)
  | BuildRustcWrapper => eb_rustc_wrapper (ec_build c)
  | BuildRustcWorkspaceWrapper => eb_rustc_workspace_wrapper (ec_build c)
  | BuildRustdoc => eb_rustdoc (ec_build c)
  | BuildTargetDir => eb_target_dir (ec_build c)
  | BuildIncremental => eb_incremental (ec_build c)
  | BuildDepInfoBasedir => eb_dep_info_basedir (ec_build c)
  | EnvVarValue _ | EnvVarForce _ | EnvVarRelative _ => None      (* see [env_at] *)
  | FutureFrequency => efr_frequency (ec_future_incompat_report c)
  | CargoNewVcs => ecn_vcs (ec_cargo_new c)
  | HttpDebug => eh_debug (ec_http c)
  | HttpProxy => eh_proxy (ec_http c)
  | HttpTimeout => eh_timeout (ec_http c)
  | HttpCainfo => eh_cainfo (ec_http c)
  | HttpCheckRevoke => eh_check_revoke (ec_http c)
  | HttpLowSpeedLimit => eh_low_speed_limit (ec_http c)
  | HttpMultiplexing => eh_multiplexing (ec_http c)
  | HttpUserAgent => eh_user_agent (ec_http c)
  | NetRetry => en_retry (ec_net c)
  | NetGitFetchWithCli => en_git_fetch_with_cli (ec_net c)
  | NetOffline => en_offline (ec_net c)
  | RegistriesIndex n => under (ec_registries c) n er_index
  | RegistriesToken n => under (ec_registries c) n er_token
  | RegistriesProtocol n => under (ec_registries c) n er_protocol
  | RegistryDefault => erg_default (ec_registry c)
  | RegistryToken => erg_token (ec_registry c)
  | TargetLinker _ => None      (* not a field: asked for by [linker] *)
  | TermQuiet => etm_quiet (ec_term c)
  | TermVerbose => etm_verbose (ec_term c)
  | TermColor => etm_color (ec_term c)
  | TermProgressWhen => epr_when (etm_progress (ec_term c))
  | TermProgressWidth => epr_width (etm_progress (ec_term c))
  end.
(** The keys that are fields on their own (the [env] table is treated as a whole). *)
Definition field {A} (k : scalar_key A) : bool :=
  match k with
  | EnvVarValue _ | EnvVarForce _ | EnvVarRelative _ | TargetLinker _ => false
  | _ => true
  end.
(** What becomes of a value. *)
Definition final_at {A} (cwd : str) (k : scalar_key A) : value A -> A -> Prop :=
  match k in scalar_key A return value A -> A -> Prop with
  | BuildRustc | BuildRustcWrapper | BuildRustcWorkspaceWrapper | BuildRustdoc => program_at cwd
  | BuildTargetDir | BuildDepInfoBasedir => path_at cwd
  | _ => fun v a => a = val v
  end.

Definition easy_words (k : list_key) (c : econfig) : option (list str) :=
  match k with
  | Alias n => option_map esl_list (bget n (ec_alias c))
  | BuildRustflags => option_map ef_flags (eb_rustflags (ec_build c))
  | BuildRustdocflags => option_map ef_flags (eb_rustdocflags (ec_build c))
  | BuildTarget => option_map (map cli_target) (eb_target (ec_build c))
  | TargetRustflags _ | TargetRustdocflags _ => None   (* asked for by [rustflags] .. *)
  end.
Definition list_field (k : list_key) : bool :=
  match k with TargetRustflags _ | TargetRustdocflags _ => false | _ => true end.
Definition final_words (cwd : str) (k : list_key) (ws : form * list word) (l : list str) : Prop :=
  match k with
  | BuildTarget => Forall2 (target_at cwd) (snd ws) l
  | _ => l = map val (snd ws)
  end.

Definition easy_entry (k : entry_key) (c : econfig) : bool :=
  match k with
  | AliasEntry n => is_some (bget n (ec_alias c))
  | EnvEntry n => is_some (bget n (ec_env c))
  | RegistriesEntry n => is_some (bget n (ec_registries c))
  | TargetEntry n => is_some (bget n (ec_de_target c))
  end.

(** An entry of the [env] table: its value or its path, and never relative any more. *)
Definition on (o : option (value bool)) : bool := match o with Some b => val b | None => false end.
Definition env_at (cwd : str) (force relative : option (value bool)) (v : value str) (x : eenv) : Prop :=
  ee_relative x = false /\ ee_force x = on force
  /\ (if on relative then path_at cwd v (ee_value x) else ee_value x = val v).

(** Every key, from files and variables, before paths are resolved. *)
Definition scalar_of {A} (env : env_map) (l : files) (k : scalar_key A) : option (value A) :=
  scalar_after k env (first_defined (map (scalar_in k) l)).
Definition words_of (env : env_map) (l : files) (k : list_key) : option (form * list word) :=
  words_after (list_variables k) env (join_lists (defined (map (list_in k) l))).
Definition program_in_all (env : env_map) (l : files) (k : program_key) : option (form * list word) :=
  program_after k env (join_programs (defined (map (program_in k) l))).
Definition entry_of (env : env_map) (l : files) (k : entry_key) : bool :=
  entry_after k env (existsb (fun x => has_entry k (snd x)) l).

(** The tables of targets that the files say. *)
Definition tables_of (l : files) (tables : bmap target_config) : Prop :=
  in_order tables
  /\ (forall t, is_some (bget t tables) = existsb (fun x => has_entry (TargetEntry t) (snd x)) l)
  /\ (forall t, under tables t t_linker = first_defined (map (scalar_in (TargetLinker t)) l))
  /\ (forall t, under tables t runner_words = join_programs (defined (map (program_in (TargetRunner t)) l)))
  /\ (forall t, under tables t rustflags_words = join_lists (defined (map (list_in (TargetRustflags t)) l)))
  /\ (forall t, under tables t rustdocflags_words
                = join_lists (defined (map (list_in (TargetRustdocflags t)) l))).

(** ** When there is a resolved configuration *)
Definition variables_readable (env : env_map) (l : files) : Prop :=
  (forall A (k : scalar_key A), readable (variables k) env)
  /\ (forall k, readable (list_variables k) env)
  /\ (Forall (fun x => look_program DocBrowser (snd x) = None) l -> readable [browser] env).

(** There is a directory to be relative to. *)
Definition has_root {A} (cwd : str) (v : value A) : Prop :=
  forall d, def v = Some d -> exists r, root_of cwd d r.
(** Every path that is relative has such a directory; the specification files of targets have
    a name in Unicode. These and the entries of [env] need the directory even if absolute. *)
Definition resolvable (cwd : str) (env : env_map) (l : files) : Prop :=
  (forall (k : scalar_key str) v, field k = true -> scalar_of env l k = Some v -> exists p, final_at cwd k v p)
  /\ (forall ws v, words_of env l BuildTarget = Some ws -> In v (snd ws) -> spec_like (val v) ->
        has_root cwd v /\ exists n st, last_name (val v) n /\ stem_of n st /\ utf8_valid st = true)
  /\ (forall ws, program_in_all env l DocBrowser = Some ws -> exists p, command_at cwd ws p)
  /\ (forall n v, scalar_of env l (EnvVarValue n) = Some v -> on (scalar_of env l (EnvVarRelative n)) = true ->
        has_root cwd v).

(** ** Settings of a target *)
Definition settings_of (env : env_map) (l : files) (tables : bmap target_config) (cwd : str)
  (matches : str -> bool) (triple : str) (e : etarget) : Prop :=
  both (program_at cwd) (target_linker env tables matches triple) (et_linker e)
  /\ both (command_at cwd) (target_runner env tables matches triple)
       (option_map (fun p => (epa_path p, epa_args p)) (et_runner e))
  /\ et_rustflags e = option_map eflags_words
       (target_rustflags env tables matches triple (overrides_target env (B "RUSTFLAGS"))
          (words_of env l BuildRustflags))
  /\ et_rustdocflags e = option_map eflags_words
       (target_rustdocflags env tables triple (overrides_target env (B "RUSTDOCFLAGS"))
          (words_of env l BuildRustdocflags)).
(** The part of the settings that is asked for. *)
Definition part_of (q : query) (e : etarget) : answer :=
  match q with
  | QLinker _ => APath (et_linker e)
  | QRunner _ => APa (et_runner e)
  | QRustflags _ | QRustdocflags _ =>
      AFlags (match q with QRustflags _ => et_rustflags e | _ => et_rustdocflags e end)
  | _ => ATarget e
  end.

(** ** Comparing results *)

(** The same but for the context (which keeps the variables, the options and the directory). *)
Definition in_context (c : econfig) (cx : context) : econfig :=
  mkEconfig (ec_alias c) (ec_build c) (ec_doc c) (ec_env c) (ec_future_incompat_report c) (ec_cargo_new c)
    (ec_http c) (ec_net c) (ec_registries c) (ec_registry c) (ec_de_target c) (ec_term c) cx.
Definition alike (x y : result econfig) : Prop :=
  match x, y with
  | Ok a, Ok b => b = in_context a (ec_cx b)
  | Err _, Err _ => True
  | Panic p, Panic p' => p = p'
  | _, _ => False
  end.
(** Everything that can be read off a resolved configuration. *)
Definition same_settings (a b : econfig) : Prop :=
  (forall A (k : scalar_key A), easy_look k a = easy_look k b)
  /\ (forall k, easy_words k a = easy_words k b)
  /\ ed_browser (ec_doc a) = ed_browser (ec_doc b)
  /\ (forall n, bget n (ec_env a) = bget n (ec_env b))
  /\ (forall k, easy_entry k a = easy_entry k b).
(** The parts that only [rustflags], [target] and so on use. *)
Definition same_hidden (a b : econfig) : Prop :=
  eb_override_target_rustflags (ec_build a) = eb_override_target_rustflags (ec_build b)
  /\ eb_de_rustflags (ec_build a) = eb_de_rustflags (ec_build b)
  /\ eb_override_target_rustdocflags (ec_build a) = eb_override_target_rustdocflags (ec_build b)
  /\ eb_de_rustdocflags (ec_build a) = eb_de_rustdocflags (ec_build b)
  /\ ec_de_target a = ec_de_target b /\ ec_cx a = ec_cx b.
Definition well_formed (c : econfig) : Prop :=
  in_order (ec_alias c) /\ in_order (ec_env c) /\ in_order (ec_registries c)
  /\ forall ts, eb_target (ec_build c) = Some ts -> Forall made ts.
