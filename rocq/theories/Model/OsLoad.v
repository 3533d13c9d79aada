(** Loading and resolving, for both families of systems.

    The same code as in [Model/Load.v], [Model/Context.v], [Model/Easy.v] and [Model/Resolve.v],
    over the functions of [Model/OsPaths.v]; what does not handle paths is taken from there.
    [suffix] is [std::env::consts::EXE_SUFFIX].  That the instance for Unix is what the rest of
    the model uses is part of C71; the instance for Windows is the subject of C78. *)
From Verif.Model Require Import Base Str Path StdPath OsPaths BMap Error Value De CfgExpr Triple EasyTypes
  Context ApplyEnv Process Walk Load Resolve Easy.

Section Os.
Context (os : system) (suffix : str).

(** src/de.rs:130-155 [load_with_options]. *)
Definition os_load_with_options (f : fs) (current_dir : str) (cargo_home : option str) : result config :=
  load_files f (os_walk os (fs_exists f) current_dir cargo_home).

(** [std::env::var_os]: on Windows the case of a name does not matter (and there are no two
    variables that differ only in it).  Only for names in ASCII. *)
Fixpoint os_var (name : str) (vars : list (str * str)) : option str :=
  match vars with
  | [] => None
  | (k, v) :: rest =>
      if (if os_needs_prefix os then str_eqb (ascii_uppercase name) (ascii_uppercase k) else str_eqb name k)
      then Some v else os_var name rest
  end.
(** src/resolve.rs:189-191 [cargo_home]; on Windows [p_home_dir] is that of the crate [home]
    (src/walk.rs:41-44). *)
Definition os_cx_cargo_home (p : process_env) (cx : context) (cwd : str) : option str :=
  match cx_cargo_home0 cx with
  | Some h => h
  | None => os_cargo_home os (os_var (B "CARGO_HOME") (p_vars p)) (p_home_dir p) cwd
  end.

(** src/value.rs:33-45 for a path and its arguments; src/easy.rs:616-619, 647-650 *)
Definition os_epa_of {E} (cwd : str) (p : path_and_args) : res E epath_and_args :=
  prog <- os_program_path os (pa_path p) cwd ;;
  Ok (mkEpa prog (map val (pa_args p))).
(** src/easy.rs:539-550 *)
Definition os_targets_of {E} (cwd : str) (t : string_or_array) : res E (list triple) :=
  traverse (fun v => os_triple os (val v) (def v) (Some cwd)) (as_array_no_split t).
(** src/easy.rs:530-581 [BuildConfig::from_unresolved]. *)
Definition os_ebuild_of (cwd : str) (b : build_config) : result ebuild :=
  let prog o := opt_traverse (fun v => os_program_path os v cwd) o in
  let pth o := opt_traverse (fun v => os_path os v cwd) o in
  rustc <- prog (b_rustc b) ;;
  rustc_wrapper <- prog (b_rustc_wrapper b) ;;
  rustc_workspace_wrapper <- prog (b_rustc_workspace_wrapper b) ;;
  rustdoc <- prog (b_rustdoc b) ;;
  target <- opt_traverse (os_targets_of cwd) (b_target b) ;;
  target_dir <- pth (b_target_dir b) ;;
  dep_info_basedir <- pth (b_dep_info_basedir b) ;;
  Ok (mkEbuild (oval (b_jobs b)) rustc rustc_wrapper rustc_workspace_wrapper rustdoc target
        target_dir (option_map eflags_of (b_rustflags b))
        (option_map eflags_of (b_rustdocflags b)) (oval (b_incremental b)) dep_info_basedir
        (b_override_target_rustflags b) (b_rustflags b)
        (b_override_target_rustdocflags b) (b_rustdocflags b)).
(** src/easy.rs:612-628 [TargetConfig::from_unresolved]. *)
Definition os_etarget_of (cwd : str) (t : target_config) : result etarget :=
  linker <- opt_traverse (fun v => os_program_path os v cwd) (t_linker t) ;;
  runner <- opt_traverse (os_epa_of cwd) (t_runner t) ;;
  Ok (mkEtarget linker runner (option_map eflags_of (t_rustflags t))
        (option_map eflags_of (t_rustdocflags t))).
(** src/easy.rs:645-653 *)
Definition os_edoc_of (cwd : str) (d : doc_config) : result edoc :=
  browser <- opt_traverse (os_epa_of cwd) (d_browser d) ;;
  Ok (mkEdoc browser).
(** src/easy.rs:666-690 [EnvConfigValue::from_unresolved]. *)
Definition os_eenv_of (cwd : str) (e : env_config_value) : result eenv :=
  match e with
  | EnvTable v f r =>
      if is_true r
      then s <- os_env_resolve os e cwd ;; Ok (mkEenv s (is_true f) false)
      else Ok (mkEenv (val v) (is_true f) false)
  | EnvValue v => Ok (mkEenv (val v) false false)
  end.
(** src/easy.rs:146-187 [from_unresolved]. *)
Definition os_from_unresolved (c : config) (cx : context) : result econfig :=
  de <- apply_env (cx_env cx) c ;;
  let cwd := cx_current_dir cx in
  build <- os_ebuild_of cwd (c_build de) ;;
  doc <- os_edoc_of cwd (c_doc de) ;;
  env <- btraverse (os_eenv_of cwd) (c_env de) ;;
  Ok (mkEconfig (bmapv esl_of (c_alias de)) build doc env
        (efuture_of (c_future_incompat_report de)) (ecargo_new_of (c_cargo_new de))
        (ehttp_of (c_http de)) (enet_of (c_net de))
        (bmapv eregistries_of (c_registries de)) (eregistry_of (c_registry de))
        (c_target de) (eterm_of (c_term de)) cx).
(** src/easy.rs:138-144 [load_with_options]. *)
Definition os_easy_load (f : fs) (p : process_env) (cwd : str) (o : options) : result econfig :=
  let cx := into_context p o cwd in
  de <- os_load_with_options f (cx_current_dir cx) (os_cx_cargo_home p cx cwd) ;;
  os_from_unresolved de cx.

(** ** Queries *)

(** src/resolve.rs:637-650 [rustc_path]. *)
Definition os_ask_rustc (w : world) (cargo : str) : M str :=
  let p := std_join os (std_pop os cargo) (B "rustc" ++ suffix) in
  b <~ ask_exists w p ;;
  ret (if b then p else B "rustc").
(** src/resolve.rs:166-167, 180-181 *)
Definition os_base_rustc (w : world) (cx : context) (b : ebuild) : M str :=
  match eb_rustc b with
  | Some r => ret r
  | None => os_ask_rustc w (cx_cargo cx)
  end.
(** src/resolve.rs:162-177 [rustc]. *)
Definition os_cx_rustc (w : world) (cx : context) (b : ebuild) : M epath_and_args :=
  s <~ get ;;
  match s_rustc s with
  | Some r => ret r
  | None =>
      rustc <~ os_base_rustc w cx b ;;
      let r := chain_program (opt_list (eb_rustc_wrapper b)
                                ++ opt_list (eb_rustc_workspace_wrapper b)) rustc in
      _ <~ set_rustc r ;;
      ret r
  end.
(** src/resolve.rs:178-188 [rustc_for_version]. *)
Definition os_rustc_for_version (w : world) (cx : context) (b : ebuild) : M epath_and_args :=
  rustc <~ os_base_rustc w cx b ;;
  ret (chain_program (opt_list (eb_rustc_wrapper b)) rustc).
(** src/resolve.rs:204-207 *)
Definition os_rustc_host (pr : profile) (w : world) (cx : context) (b : ebuild) : M str :=
  p <~ os_rustc_for_version w cx b ;;
  vv <~ verbose_version w p ;;
  v <~ lift (rustc_version_of vv) ;;
  _ <~ store_rustc_version pr v ;;
  lift (host_of vv).
(** src/resolve.rs:192-211 [host_triple]. *)
Definition os_cx_host_triple (pr : profile) (w : world) (cx : context) (b : ebuild) : M str :=
  s <~ get ;;
  match s_host s with
  | Some h => ret h
  | None =>
      h <~ or_else (cargo_host pr w cx) (os_rustc_host pr w cx b) ;;
      _ <~ set_host h ;;
      ret h
  end.
(** src/resolve.rs:212-223 [rustc_version]. *)
Definition os_cx_rustc_version (pr : profile) (w : world) (cx : context) (b : ebuild)
  : M rustc_version :=
  s <~ get ;;
  match s_rustc_version s with
  | Some v => ret v
  | None =>
      _ <~ ignore_err (os_cx_host_triple pr w cx b) ;;
      s <~ get ;;
      match s_rustc_version s with
      | Some v => ret v
      | None =>
          p <~ os_rustc_for_version w cx b ;;
          vv <~ verbose_version w p ;;
          v <~ lift (rustc_version_of vv) ;;
          _ <~ set_rustc_version v ;;
          ret v
      end
  end.
(** src/resolve.rs:224-235 [cargo_version]. *)
Definition os_cx_cargo_version (pr : profile) (w : world) (cx : context) (b : ebuild)
  : M cargo_version :=
  s <~ get ;;
  match s_cargo_version s with
  | Some v => ret v
  | None =>
      _ <~ ignore_err (os_cx_host_triple pr w cx b) ;;
      s <~ get ;;
      match s_cargo_version s with
      | Some v => ret v
      | None =>
          vv <~ verbose_version w (epa_new (cx_cargo cx)) ;;
          v <~ lift (cargo_version_of vv) ;;
          _ <~ set_cargo_version v ;;
          ret v
      end
  end.
(** src/resolve.rs:307-314 *)
Definition os_target_cfg (w : world) (cx : context) (b : ebuild) (t : triple) : M cfg :=
  s <~ get ;;
  match cfg_get (cli_target t) (s_cfg s) with
  | Some c => ret c
  | None =>
      rustc <~ os_cx_rustc w cx b ;;
      list <~ run_read w (cfg_command rustc t) ;;
      let c := cfg_parse list in
      _ <~ add_cfg (cli_target t) c ;;
      ret c
  end.
(** src/resolve.rs:283-292, 301-331 [eval_cfg]. *)
Definition os_eval_cfg (pr : profile) (w : world) (cx : context) (b : ebuild)
  (expr : str) (t : triple) : M bool :=
  e <~ lift (map_err ECfgExprParse (parse_expr pr expr)) ;;
  c <~ os_target_cfg w cx b t ;;
  lift (eval_expr logic_bool (cfg_pred c) e).
(** src/de.rs:245-277 *)
Fixpoint os_resolve_cfgs (pr : profile) (w : world) (cx : context) (b : ebuild) (t : triple)
  (tables : bmap target_config) (acc : option (value str) * option path_and_args * option flags)
  : M (option (value str) * option path_and_args * option flags) :=
  match tables with
  | [] => ret acc
  | (k, v) :: rest =>
      if negb (starts_with (B "cfg(") k) then os_resolve_cfgs pr w cx b t rest acc
      else
        m <~ os_eval_cfg pr w cx b k t ;;
        let '(linker, runner, rustflags) := acc in
        os_resolve_cfgs pr w cx b t rest
          (if m then
             (match linker with Some _ => linker | None => t_linker v end,
              match runner with Some _ => runner | None => t_runner v end,
              match t_rustflags v with
              | Some f => append_flags rustflags f
              | None => rustflags
              end)
           else acc)
  end.
(** src/de.rs:190-312 [resolve_target]. *)
Definition os_resolve_target (pr : profile) (w : world) (cx : context) (b : ebuild)
  (tables : bmap target_config) (t : triple) : M target_config :=
  let target := tt_triple t in
  if starts_with (B "cfg(") target
  then lift (bail (B "'" ++ target ++ B "' is not valid target triple"))
  else
    let base := match bget target tables with Some c => c | None => target_default end in
    let u := target_u_upper target in
    let var suffix := cx_env_var (cx_env cx) (B "CARGO_TARGET_" ++ u ++ suffix) in
    linker <~ lift (var (B "_LINKER")) ;;
    runner_var <~ lift (var (B "_RUNNER")) ;;
    runner <~ lift (opt_traverse pa_of_var runner_var) ;;
    rustflags_var <~ lift (var (B "_RUSTFLAGS")) ;;
    rustdocflags_var <~ lift (var (B "_RUSTDOCFLAGS")) ;;
    let add cur (v : option (value str)) :=
      match v with
      | Some v => append_flags cur (flags_from_space_separated (val v) (def v))
      | None => cur
      end in
    let rustflags := add (t_rustflags base) rustflags_var in
    let rustdocflags := add (t_rustdocflags base) rustdocflags_var in
    r <~ os_resolve_cfgs pr w cx b t tables
           (or_keep linker (t_linker base), or_keep runner (t_runner base), rustflags) ;;
    let '(linker, runner, rustflags) := r in
    ret (mkTarget linker runner
           (if eb_override_target_rustflags b then eb_de_rustflags b
            else match rustflags with Some f => Some f | None => eb_de_rustflags b end)
           (if eb_override_target_rustdocflags b then eb_de_rustdocflags b
            else match rustdocflags with Some f => Some f | None => eb_de_rustdocflags b end)).

(** src/easy.rs:313-333 [init_target_config] and the lookup. *)
Definition os_init_target_config (pr : profile) (w : world) (c : econfig) (t : triple) : M unit :=
  s <~ get ;;
  match bget (cli_target t) (s_target s) with
  | Some _ => ret tt
  | None =>
      de <~ os_resolve_target pr w (ec_cx c) (ec_build c) (ec_de_target c) t ;;
      e <~ lift (os_etarget_of (cx_current_dir (ec_cx c)) de) ;;
      add_target (cli_target t) e
  end.
Definition os_q_target_of (pr : profile) (w : world) (c : econfig) (t : triple) : M etarget :=
  _ <~ os_init_target_config pr w c t ;;
  s <~ get ;;
  match bget (cli_target t) (s_target s) with
  | Some e => ret e
  | None => lift (Panic PNoEntry)
  end.
(** src/resolve.rs:517-539; [From<&str>] has neither a definition nor a directory. *)
Definition os_to_triple (a : target_arg) : result triple :=
  match a with
  | ArgText s => os_triple os s None None
  | ArgTriple t => Ok t
  end.
(** src/easy.rs:335-369 *)
Definition os_q_target (pr : profile) (w : world) (c : econfig) (a : target_arg) : M etarget :=
  t <~ lift (os_to_triple a) ;; os_q_target_of pr w c t.
(** src/easy.rs:267-280 [build_target_for_config]. *)
Definition os_q_build_target_for_config (pr : profile) (w : world) (c : econfig)
  (targets : list target_arg) : M (list triple) :=
  ts <~ lift (traverse os_to_triple targets) ;;
  match ts with
  | _ :: _ => ret ts
  | [] =>
      match eb_target (ec_build c) with
      | Some (t :: rest) => ret (t :: rest)
      | _ =>
          h <~ os_cx_host_triple pr w (ec_cx c) (ec_build c) ;;
          t <~ lift (os_triple os h None None) ;;
          ret [t]
      end
  end.
(** src/easy.rs:267-416 *)
Definition os_run_query (pr : profile) (w : world) (c : econfig) (q : query) : M answer :=
  match q with
  | QTarget a => mapM ATarget (os_q_target pr w c a)
  | QLinker a => mapM APath (e <~ os_q_target pr w c a ;; ret (et_linker e))
  | QRunner a => mapM APa (e <~ os_q_target pr w c a ;; ret (et_runner e))
  | QRustflags a => mapM AFlags (e <~ os_q_target pr w c a ;; ret (et_rustflags e))
  | QRustdocflags a => mapM AFlags (e <~ os_q_target pr w c a ;; ret (et_rustdocflags e))
  | QBuildTargetForConfig l => mapM ATriples (os_q_build_target_for_config pr w c l)
  | QBuildTargetForCli l => ret (AStrs (q_build_target_for_cli c l))
  | QRustc => mapM AProgram (os_cx_rustc w (ec_cx c) (ec_build c))
  | QCargo => ret (AStr (q_cargo c))
  | QHostTriple => mapM AStr (os_cx_host_triple pr w (ec_cx c) (ec_build c))
  | QRustcVersion => mapM ARustcVersion (os_cx_rustc_version pr w (ec_cx c) (ec_build c))
  | QCargoVersion => mapM ACargoVersion (os_cx_cargo_version pr w (ec_cx c) (ec_build c))
  end.
End Os.
