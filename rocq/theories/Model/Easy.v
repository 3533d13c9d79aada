(** The resolved configuration and its queries: src/easy.rs. *)
From Verif.Model Require Import Base Str Path BMap Error Value De Triple EasyTypes
  Context ApplyEnv Walk Load Resolve.

(** src/easy.rs:33-119 [Config], without the cells ([target] and those of [cx]),
    which are in [state]. *)
Record econfig := mkEconfig {
  ec_alias : bmap estring_list;
  ec_build : ebuild;
  ec_doc : edoc;
  ec_env : bmap eenv;
  ec_future_incompat_report : efuture;
  ec_cargo_new : ecargo_new;
  ec_http : ehttp;
  ec_net : enet;
  ec_registries : bmap eregistries;
  ec_registry : eregistry;
  ec_de_target : bmap target_config;
  ec_term : eterm;
  ec_cx : context
}.

Definition oval {T} (o : option (value T)) : option T := option_map val o.

(** ** [from_unresolved] *)

(** src/easy.rs:1261-1263 *)
Definition esl_of (s : string_list) : estring_list := mkEsl (map val (sl_list s)).
(** src/easy.rs:554, 557, 623, 625 *)
Definition eflags_of (f : flags) : eflags := mkEflags (map val (fl_flags f)).
(** src/easy.rs:616-619, 647-650 *)
Definition epa_of {E} (cwd : path) (p : path_and_args) : res E epath_and_args :=
  prog <- resolve_program (pa_path p) cwd ;;
  Ok (mkEpa prog (map val (pa_args p))).

(** src/easy.rs:539-550 *)
Definition targets_of {E} (cwd : path) (t : string_or_array) : res E (list triple) :=
  traverse (fun v => triple_new (val v) (def v) (Some cwd)) (as_array_no_split t).

(** src/easy.rs:530-581 [BuildConfig::from_unresolved]. *)
Definition ebuild_of (cwd : path) (b : build_config) : result ebuild :=
  let prog o := opt_traverse (fun v => resolve_as_program_path v cwd) o in
  let pth o := opt_traverse (fun v => resolve_as_path v cwd) o in
  rustc <- prog (b_rustc b) ;;
  rustc_wrapper <- prog (b_rustc_wrapper b) ;;
  rustc_workspace_wrapper <- prog (b_rustc_workspace_wrapper b) ;;
  rustdoc <- prog (b_rustdoc b) ;;
  target <- opt_traverse (targets_of cwd) (b_target b) ;;
  target_dir <- pth (b_target_dir b) ;;
  dep_info_basedir <- pth (b_dep_info_basedir b) ;;
  Ok (mkEbuild (oval (b_jobs b)) rustc rustc_wrapper rustc_workspace_wrapper rustdoc target
        target_dir (option_map eflags_of (b_rustflags b))
        (option_map eflags_of (b_rustdocflags b)) (oval (b_incremental b)) dep_info_basedir
        (b_override_target_rustflags b) (b_rustflags b)
        (b_override_target_rustdocflags b) (b_rustdocflags b)).

(** src/easy.rs:612-628 [TargetConfig::from_unresolved]. *)
Definition etarget_of (cwd : path) (t : target_config) : result etarget :=
  linker <- opt_traverse (fun v => resolve_as_program_path v cwd) (t_linker t) ;;
  runner <- opt_traverse (epa_of cwd) (t_runner t) ;;
  Ok (mkEtarget linker runner (option_map eflags_of (t_rustflags t))
        (option_map eflags_of (t_rustdocflags t))).

(** src/easy.rs:645-653 *)
Definition edoc_of (cwd : path) (d : doc_config) : result edoc :=
  browser <- opt_traverse (epa_of cwd) (d_browser d) ;;
  Ok (mkEdoc browser).

Definition is_true (o : option (value bool)) : bool :=
  match o with Some v => val v | None => false end.

(** src/easy.rs:666-690 [EnvConfigValue::from_unresolved]. *)
Definition eenv_of (cwd : path) (e : env_config_value) : result eenv :=
  match e with
  | EnvTable v f r =>
      if is_true r
      then s <- env_resolve e cwd ;; Ok (mkEenv s (is_true f) false)
      else Ok (mkEenv (val v) (is_true f) false)
  | EnvValue v => Ok (mkEenv (val v) false false)
  end.

(** src/easy.rs:737-742 *)
Definition efuture_of (f : future_incompat) : efuture := mkEfuture (oval (f_frequency f)).
(** src/easy.rs:758-762 *)
Definition ecargo_new_of (c : cargo_new) : ecargo_new := mkEcargoNew (oval (cn_vcs c)).
(** src/easy.rs:826-839 *)
Definition ehttp_of (h : http_config) : ehttp :=
  mkEhttp (oval (h_debug h)) (oval (h_proxy h)) (oval (h_timeout h)) (oval (h_cainfo h))
    (oval (h_check_revoke h)) (oval (h_low_speed_limit h)) (oval (h_multiplexing h))
    (oval (h_user_agent h)).
(** src/easy.rs:870-877 *)
Definition enet_of (n : net_config) : enet :=
  mkEnet (oval (n_retry n)) (oval (n_git_fetch_with_cli n)) (oval (n_offline n)).
(** src/easy.rs:908-918 *)
Definition eregistries_of (r : registries_value) : eregistries :=
  mkEregistries (oval (r_index r)) (oval (r_token r)) (oval (r_protocol r)).
(** src/easy.rs:958-964 *)
Definition eregistry_of (r : registry_config) : eregistry :=
  mkEregistry (oval (rg_default r)) (oval (rg_token r)).
(** src/easy.rs:1030-1036 *)
Definition eprogress_of (p : term_progress) : eprogress :=
  mkEprogress (oval (p_when p)) (oval (p_width p)).
(** src/easy.rs:1004-1012 *)
Definition eterm_of (t : term_config) : eterm :=
  mkEterm (oval (tm_quiet t)) (oval (tm_verbose t)) (oval (tm_color t))
    (eprogress_of (tm_progress t)).

(** [for (k, v) in m { out.insert(k, f(v)) }] where [f] may panic. *)
Fixpoint btraverse {E V W} (f : V -> res E W) (m : bmap V) : res E (bmap W) :=
  match m with
  | [] => Ok []
  | (k, v) :: t => w <- f v ;; r <- btraverse f t ;; Ok ((k, w) :: r)
  end.

(** src/easy.rs:146-187 [from_unresolved]. *)
Definition from_unresolved (c : config) (cx : context) : result econfig :=
  de <- apply_env (cx_env cx) c ;;
  let cwd := cx_current_dir cx in
  build <- ebuild_of cwd (c_build de) ;;
  doc <- edoc_of cwd (c_doc de) ;;
  env <- btraverse (eenv_of cwd) (c_env de) ;;
  Ok (mkEconfig (bmapv esl_of (c_alias de)) build doc env
        (efuture_of (c_future_incompat_report de)) (ecargo_new_of (c_cargo_new de))
        (ehttp_of (c_http de)) (enet_of (c_net de))
        (bmapv eregistries_of (c_registries de)) (eregistry_of (c_registry de))
        (c_target de) (eterm_of (c_term de)) cx).

(** src/easy.rs:138-144 [load_with_options]. *)
Definition easy_load_with_options (f : fs) (p : process_env) (cwd : path) (o : options)
  : result econfig :=
  let cx := into_context p o cwd in
  de <- load_with_options f (cx_current_dir cx) (cx_cargo_home p cx cwd) ;;
  from_unresolved de cx.

(** src/easy.rs:132-135 [load_with_cwd]. *)
Definition easy_load_with_cwd (f : fs) (p : process_env) (cwd : path) : result econfig :=
  easy_load_with_options f p cwd options_default.

(** src/easy.rs:127-129 [load]; [cwd] is the result of [std::env::current_dir]. *)
Definition easy_load (f : fs) (p : process_env) (cwd : path + io_kind) : result econfig :=
  match cwd with
  | inl d => easy_load_with_cwd f p d
  | inr k => Err (EWithContext (MText (B "failed to get current directory")) (Some (SIo k)))
  end.

(** ** Queries *)

(** src/easy.rs:313-333 [init_target_config], followed by the lookup
    [self.target.borrow()[target.cli_target()]]. *)
Definition init_target_config (pr : profile) (w : world) (c : econfig) (t : triple)
  : M unit :=
  s <~ get ;;
  match bget (cli_target t) (s_target s) with
  | Some _ => ret tt
  | None =>
      de <~ resolve_target pr w (ec_cx c) (ec_build c) (ec_de_target c) t ;;
      e <~ lift (etarget_of (cx_current_dir (ec_cx c)) de) ;;
      add_target (cli_target t) e
  end.
Definition q_target_of (pr : profile) (w : world) (c : econfig) (t : triple) : M etarget :=
  _ <~ init_target_config pr w c t ;;
  s <~ get ;;
  match bget (cli_target t) (s_target s) with
  | Some e => ret e
  | None => lift (Panic PNoEntry)
  end.

(** What callers pass where [Into<TargetTripleRef>] is expected: text or a triple. *)
Inductive target_arg :=
| ArgText (s : str)
| ArgTriple (t : triple).
(** src/resolve.rs:517-539 *)
Definition to_triple (a : target_arg) : result triple :=
  match a with
  | ArgText s => triple_from s
  | ArgTriple t => Ok t
  end.

(** src/easy.rs:335-339 [target]; 341-345, 347-354, 356-360, 362-369. *)
Definition q_target (pr : profile) (w : world) (c : econfig) (a : target_arg) : M etarget :=
  t <~ lift (to_triple a) ;; q_target_of pr w c t.
Definition q_linker pr w c a : M (option path) :=
  e <~ q_target pr w c a ;; ret (et_linker e).
Definition q_runner pr w c a : M (option epath_and_args) :=
  e <~ q_target pr w c a ;; ret (et_runner e).
Definition q_rustflags pr w c a : M (option eflags) :=
  e <~ q_target pr w c a ;; ret (et_rustflags e).
Definition q_rustdocflags pr w c a : M (option eflags) :=
  e <~ q_target pr w c a ;; ret (et_rustdocflags e).

(** src/easy.rs:267-280 [build_target_for_config]. *)
Definition q_build_target_for_config (pr : profile) (w : world) (c : econfig)
  (targets : list target_arg) : M (list triple) :=
  ts <~ lift (traverse to_triple targets) ;;
  match ts with
  | _ :: _ => ret ts
  | [] =>
      match eb_target (ec_build c) with
      | Some (t :: rest) => ret (t :: rest)
      | _ =>
          h <~ cx_host_triple pr w (ec_cx c) (ec_build c) ;;
          t <~ lift (triple_from h) ;;
          ret [t]
      end
  end.

(** src/easy.rs:298-311 [build_target_for_cli]. *)
Definition q_build_target_for_cli (c : econfig) (targets : list str) : list str :=
  match targets with
  | _ :: _ => targets
  | [] =>
      match eb_target (ec_build c) with
      | Some ts => map cli_target_string ts
      | None => []
      end
  end.

(** src/easy.rs:379-416 *)
Definition q_rustc (w : world) (c : econfig) : M epath_and_args :=
  cx_rustc w (ec_cx c) (ec_build c).
Definition q_cargo (c : econfig) : str := cx_cargo (ec_cx c).
Definition q_host_triple (pr : profile) (w : world) (c : econfig) : M str :=
  cx_host_triple pr w (ec_cx c) (ec_build c).
Definition q_rustc_version (pr : profile) (w : world) (c : econfig) : M rustc_version :=
  cx_rustc_version pr w (ec_cx c) (ec_build c).
Definition q_cargo_version (pr : profile) (w : world) (c : econfig) : M cargo_version :=
  cx_cargo_version pr w (ec_cx c) (ec_build c).

(** ** All query methods as one type, to talk about arbitrary call sequences. *)
Inductive query :=
| QTarget (a : target_arg)
| QLinker (a : target_arg)
| QRunner (a : target_arg)
| QRustflags (a : target_arg)
| QRustdocflags (a : target_arg)
| QBuildTargetForConfig (l : list target_arg)
| QBuildTargetForCli (l : list str)
| QRustc
| QCargo
| QHostTriple
| QRustcVersion
| QCargoVersion.

Inductive answer :=
| ATarget (e : etarget)
| APath (o : option path)
| APa (o : option epath_and_args)
| AFlags (o : option eflags)
| ATriples (l : list triple)
| AStrs (l : list str)
| AProgram (e : epath_and_args)
| AStr (s : str)
| ARustcVersion (v : rustc_version)
| ACargoVersion (v : cargo_version).

Definition mapM {A A'} (f : A -> A') (m : M A) : M A' := a <~ m ;; ret (f a).

Definition run_query (pr : profile) (w : world) (c : econfig) (q : query) : M answer :=
  match q with
  | QTarget a => mapM ATarget (q_target pr w c a)
  | QLinker a => mapM APath (q_linker pr w c a)
  | QRunner a => mapM APa (q_runner pr w c a)
  | QRustflags a => mapM AFlags (q_rustflags pr w c a)
  | QRustdocflags a => mapM AFlags (q_rustdocflags pr w c a)
  | QBuildTargetForConfig l => mapM ATriples (q_build_target_for_config pr w c l)
  | QBuildTargetForCli l => ret (AStrs (q_build_target_for_cli c l))
  | QRustc => mapM AProgram (q_rustc w c)
  | QCargo => ret (AStr (q_cargo c))
  | QHostTriple => mapM AStr (q_host_triple pr w c)
  | QRustcVersion => mapM ARustcVersion (q_rustc_version pr w c)
  | QCargoVersion => mapM ACargoVersion (q_cargo_version pr w c)
  end.

(** The state after a sequence of calls whose results the caller ignores (the
    caller may catch a panic). *)
Fixpoint run_queries (pr : profile) (w : world) (c : econfig) (qs : list query) (s : state)
  : state :=
  match qs with
  | [] => s
  | q :: rest => run_queries pr w c rest (snd (run_query pr w c q s))
  end.
