(** [Serialize] and [Debug] of the types of src/easy.rs.  [None] is a serializer
    error: serde refuses a [PathBuf] that is not UTF-8. *)
From Verif.Model Require Import Base Str Path BMap Error Value De Debug Serde Triple
  EasyTypes Context Resolve Easy.

Definition ser_path (p : path) : option toml := option_map TomlStr (to_str p).

Definition epairs := option (list (str * toml)).
Definition eapp (a b : epairs) : epairs :=
  match a, b with Some x, Some y => Some (x ++ y) | _, _ => None end.
Fixpoint econcat (l : list epairs) : epairs :=
  match l with [] => Some [] | a :: t => eapp a (econcat t) end.
(** [skip_serializing_if = "Option::is_none"] *)
Definition esopt {A} (k : str) (f : A -> option toml) (o : option A) : epairs :=
  match o with
  | None => Some []
  | Some a => match f a with Some t => Some [(k, t)] | None => None end
  end.
Definition esskip {A} (k : str) (skip : A -> bool) (f : A -> option toml) (a : A) : epairs :=
  if skip a then Some []
  else match f a with Some t => Some [(k, t)] | None => None end.
Definition tab (p : epairs) : option toml := option_map TomlTab p.
Definition ok1 {A} (f : A -> toml) (a : A) : option toml := Some (f a).

Fixpoint ser_entries {V} (f : V -> option toml) (m : bmap V) : epairs :=
  match m with
  | [] => Some []
  | (k, v) :: t => eapp (match f v with Some x => Some [(k, x)] | None => None end)
                        (ser_entries f t)
  end.
Definition eser_map {V} (f : V -> option toml) (m : bmap V) : option toml :=
  tab (ser_entries f m).

Definition ser_strs (l : list str) : toml := TomlArr (map TomlStr l).
(** src/easy.rs:1039-1044, 1247-1252 *)
Definition eser_flags (f : eflags) : toml := ser_strs (ef_flags f).
Definition eser_string_list (s : estring_list) : toml := ser_strs (esl_list s).
(** src/easy.rs:1214-1226 *)
Definition eser_pa (p : epath_and_args) : toml :=
  ser_strs (lossy (epa_path p) :: map lossy (epa_args p)).
(** src/resolve.rs:541-548 *)
Definition eser_triple (t : triple) : toml := TomlStr (cli_target_string t).
(** src/easy.rs:692-721 *)
Definition eser_env (e : eenv) : toml :=
  if (ee_force e || ee_relative e)%bool
  then TomlTab ((B "value", TomlStr (lossy (ee_value e)))
                  :: (if ee_force e then [(B "force", TomlBool true)] else [])
                  ++ (if ee_relative e then [(B "relative", TomlBool true)] else []))
  else TomlStr (lossy (ee_value e)).

(** src/easy.rs:434-528 *)
Definition eser_build (b : ebuild) : option toml :=
  tab (econcat
    [esopt (B "jobs") (ok1 TomlInt) (eb_jobs b);
     esopt (B "rustc") ser_path (eb_rustc b);
     esopt (B "rustc-wrapper") ser_path (eb_rustc_wrapper b);
     esopt (B "rustc-workspace-wrapper") ser_path (eb_rustc_workspace_wrapper b);
     esopt (B "rustdoc") ser_path (eb_rustdoc b);
     esopt (B "target") (ok1 (fun l => TomlArr (map eser_triple l))) (eb_target b);
     esopt (B "target-dir") ser_path (eb_target_dir b);
     esopt (B "rustflags") (ok1 eser_flags) (eb_rustflags b);
     esopt (B "rustdocflags") (ok1 eser_flags) (eb_rustdocflags b);
     esopt (B "incremental") (ok1 TomlBool) (eb_incremental b);
     esopt (B "dep-info-basedir") ser_path (eb_dep_info_basedir b)]).
(** src/gen/is_none.rs:7-15 *)
Definition ebuild_is_none (b : ebuild) : bool :=
  (is_none (eb_jobs b) && is_none (eb_rustc b) && is_none (eb_rustc_wrapper b)
   && is_none (eb_rustc_workspace_wrapper b) && is_none (eb_rustdoc b)
   && is_none (eb_target b) && is_none (eb_target_dir b) && is_none (eb_rustflags b)
   && is_none (eb_rustdocflags b) && is_none (eb_incremental b)
   && is_none (eb_dep_info_basedir b))%bool.

(** src/easy.rs:587-610 *)
Definition eser_target (t : etarget) : option toml :=
  tab (econcat
    [esopt (B "linker") ser_path (et_linker t);
     esopt (B "runner") (ok1 eser_pa) (et_runner t);
     esopt (B "rustflags") (ok1 eser_flags) (et_rustflags t);
     esopt (B "rustdocflags") (ok1 eser_flags) (et_rustdocflags t)]).

(** src/easy.rs:633-643 *)
Definition eser_doc (d : edoc) : option toml :=
  tab (esopt (B "browser") (ok1 eser_pa) (ed_browser d)).
Definition edoc_is_none (d : edoc) : bool := is_none (ed_browser d).

Definition eser_future (f : efuture) : option toml :=
  tab (esopt (B "frequency") (ok1 (fun x => ser_variant (frequency_variant x))) (efr_frequency f)).
Definition efuture_is_none (f : efuture) : bool := is_none (efr_frequency f).

Definition eser_cargo_new (c : ecargo_new) : option toml :=
  tab (esopt (B "vcs") (ok1 (fun x => ser_variant (vcs_variant x))) (ecn_vcs c)).
Definition ecargo_new_is_none (c : ecargo_new) : bool := is_none (ecn_vcs c).

Definition eser_http (h : ehttp) : option toml :=
  tab (econcat
    [esopt (B "debug") (ok1 TomlBool) (eh_debug h);
     esopt (B "proxy") (ok1 TomlStr) (eh_proxy h);
     esopt (B "timeout") (ok1 ser_n) (eh_timeout h);
     esopt (B "cainfo") (ok1 TomlStr) (eh_cainfo h);
     esopt (B "check-revoke") (ok1 TomlBool) (eh_check_revoke h);
     esopt (B "low-speed-limit") (ok1 ser_n) (eh_low_speed_limit h);
     esopt (B "multiplexing") (ok1 TomlBool) (eh_multiplexing h);
     esopt (B "user-agent") (ok1 TomlStr) (eh_user_agent h)]).
Definition ehttp_is_none (h : ehttp) : bool :=
  (is_none (eh_debug h) && is_none (eh_proxy h) && is_none (eh_timeout h)
   && is_none (eh_cainfo h) && is_none (eh_check_revoke h)
   && is_none (eh_low_speed_limit h) && is_none (eh_multiplexing h)
   && is_none (eh_user_agent h))%bool.

Definition eser_net (n : enet) : option toml :=
  tab (econcat
    [esopt (B "retry") (ok1 ser_n) (en_retry n);
     esopt (B "git-fetch-with-cli") (ok1 TomlBool) (en_git_fetch_with_cli n);
     esopt (B "offline") (ok1 TomlBool) (en_offline n)]).
Definition enet_is_none (n : enet) : bool :=
  (is_none (en_retry n) && is_none (en_git_fetch_with_cli n) && is_none (en_offline n))%bool.

Definition eser_registries (r : eregistries) : option toml :=
  tab (econcat
    [esopt (B "index") (ok1 TomlStr) (er_index r);
     esopt (B "token") (ok1 TomlStr) (er_token r);
     esopt (B "protocol") (ok1 (fun x => ser_variant (protocol_variant x))) (er_protocol r)]).
Definition eser_registry (r : eregistry) : option toml :=
  tab (econcat
    [esopt (B "default") (ok1 TomlStr) (erg_default r);
     esopt (B "token") (ok1 TomlStr) (erg_token r)]).
Definition eregistry_is_none (r : eregistry) : bool :=
  (is_none (erg_default r) && is_none (erg_token r))%bool.

Definition eser_progress (p : eprogress) : option toml :=
  tab (econcat
    [esopt (B "when") (ok1 (fun x => ser_variant (when_variant x))) (epr_when p);
     esopt (B "width") (ok1 ser_n) (epr_width p)]).
Definition eprogress_is_none (p : eprogress) : bool :=
  (is_none (epr_when p) && is_none (epr_width p))%bool.
Definition eser_term (t : eterm) : option toml :=
  tab (econcat
    [esopt (B "quiet") (ok1 TomlBool) (etm_quiet t);
     esopt (B "verbose") (ok1 TomlBool) (etm_verbose t);
     esopt (B "color") (ok1 (fun x => ser_variant (color_variant x))) (etm_color t);
     esskip (B "progress") eprogress_is_none eser_progress (etm_progress t)]).
Definition eterm_is_none (t : eterm) : bool :=
  (is_none (etm_quiet t) && is_none (etm_verbose t) && is_none (etm_color t)
   && eprogress_is_none (etm_progress t))%bool.

(** src/easy.rs:99-102: the resolved target tables, keyed by [cli_target_string]. *)
Definition eser_targets (m : bmap etarget) : option toml :=
  tab (ser_entries eser_target (map (fun kv => (lossy (fst kv), snd kv)) m)).

(** src/easy.rs:30-119; [targets] is the content of the [target] cell. *)
Definition eser_config (c : econfig) (targets : bmap etarget) : option toml :=
  tab (econcat
    [esskip (B "alias") bis_empty (eser_map (ok1 eser_string_list)) (ec_alias c);
     esskip (B "build") ebuild_is_none eser_build (ec_build c);
     esskip (B "doc") edoc_is_none eser_doc (ec_doc c);
     esskip (B "env") bis_empty (eser_map (ok1 eser_env)) (ec_env c);
     esskip (B "future-incompat-report") efuture_is_none eser_future
       (ec_future_incompat_report c);
     esskip (B "cargo-new") ecargo_new_is_none eser_cargo_new (ec_cargo_new c);
     esskip (B "http") ehttp_is_none eser_http (ec_http c);
     esskip (B "net") enet_is_none eser_net (ec_net c);
     esskip (B "registries") bis_empty (eser_map eser_registries) (ec_registries c);
     esskip (B "registry") eregistry_is_none eser_registry (ec_registry c);
     esskip (B "target") bis_empty eser_targets targets;
     esskip (B "term") eterm_is_none eser_term (ec_term c)]).

(** ** [Debug] *)

Definition edbg_redact (t : option str) : dbg :=
  dbg_opt DStr (option_map (fun _ => B "[REDACTED]") t).

(** src/easy.rs:920-930; [finish_non_exhaustive] only adds [..]. *)
Definition edbg_registries (r : eregistries) : dbg :=
  DStruct "RegistriesConfigValue"
    [("index", dbg_opt DStr (er_index r));
     ("token", edbg_redact (er_token r));
     ("protocol", dbg_opt dbg_protocol (er_protocol r))]%string.
(** src/easy.rs:966-975 *)
Definition edbg_registry (r : eregistry) : dbg :=
  DStruct "RegistryConfig"
    [("default", dbg_opt DStr (erg_default r));
     ("token", edbg_redact (erg_token r))]%string.

Definition edbg_strs (name field : string) (l : list str) : dbg :=
  DStruct name [(field, DList (map DStr l))].
Definition edbg_flags (f : eflags) : dbg := edbg_strs "Flags" "flags" (ef_flags f).
Definition edbg_pa (p : epath_and_args) : dbg :=
  DStruct "PathAndArgs" [("path", DOs (epa_path p));
                         ("args", DList (map DOs (epa_args p)))]%string.
(** src/resolve.rs:386 *)
Definition edbg_triple (t : triple) : dbg :=
  DStruct "TargetTripleRef" [("triple", DStr (tt_triple t));
                             ("spec_path", dbg_opt DOs (tt_spec_path t))]%string.
Definition edbg_build (b : ebuild) : dbg :=
  DStruct "BuildConfig"
    [("jobs", dbg_opt DNum (eb_jobs b));
     ("rustc", dbg_opt DOs (eb_rustc b));
     ("rustc_wrapper", dbg_opt DOs (eb_rustc_wrapper b));
     ("rustc_workspace_wrapper", dbg_opt DOs (eb_rustc_workspace_wrapper b));
     ("rustdoc", dbg_opt DOs (eb_rustdoc b));
     ("target", dbg_opt (fun l => DList (map edbg_triple l)) (eb_target b));
     ("target_dir", dbg_opt DOs (eb_target_dir b));
     ("rustflags", dbg_opt edbg_flags (eb_rustflags b));
     ("rustdocflags", dbg_opt edbg_flags (eb_rustdocflags b));
     ("incremental", dbg_opt DBool (eb_incremental b));
     ("dep_info_basedir", dbg_opt DOs (eb_dep_info_basedir b));
     ("override_target_rustflags", DBool (eb_override_target_rustflags b));
     ("de_rustflags", dbg_opt dbg_flags (eb_de_rustflags b));
     ("override_target_rustdocflags", DBool (eb_override_target_rustdocflags b));
     ("de_rustdocflags", dbg_opt dbg_flags (eb_de_rustdocflags b))]%string.
Definition edbg_target (t : etarget) : dbg :=
  DStruct "TargetConfig"
    [("linker", dbg_opt DOs (et_linker t));
     ("runner", dbg_opt edbg_pa (et_runner t));
     ("rustflags", dbg_opt edbg_flags (et_rustflags t));
     ("rustdocflags", dbg_opt edbg_flags (et_rustdocflags t))]%string.
Definition edbg_doc (d : edoc) : dbg :=
  DStruct "DocConfig" [("browser", dbg_opt edbg_pa (ed_browser d))]%string.
Definition edbg_env (e : eenv) : dbg :=
  DStruct "EnvConfigValue" [("value", DOs (ee_value e)); ("force", DBool (ee_force e));
                            ("relative", DBool (ee_relative e))]%string.
Definition edbg_future (f : efuture) : dbg :=
  DStruct "FutureIncompatReportConfig"
    [("frequency", dbg_opt dbg_frequency (efr_frequency f))]%string.
Definition edbg_cargo_new (c : ecargo_new) : dbg :=
  DStruct "CargoNewConfig" [("vcs", dbg_opt dbg_vcs (ecn_vcs c))]%string.
Definition edbg_http (h : ehttp) : dbg :=
  DStruct "HttpConfig"
    [("debug", dbg_opt DBool (eh_debug h));
     ("proxy", dbg_opt DStr (eh_proxy h));
     ("timeout", dbg_opt dbg_n (eh_timeout h));
     ("cainfo", dbg_opt DStr (eh_cainfo h));
     ("check_revoke", dbg_opt DBool (eh_check_revoke h));
     ("low_speed_limit", dbg_opt dbg_n (eh_low_speed_limit h));
     ("multiplexing", dbg_opt DBool (eh_multiplexing h));
     ("user_agent", dbg_opt DStr (eh_user_agent h))]%string.
Definition edbg_net (n : enet) : dbg :=
  DStruct "NetConfig"
    [("retry", dbg_opt dbg_n (en_retry n));
     ("git_fetch_with_cli", dbg_opt DBool (en_git_fetch_with_cli n));
     ("offline", dbg_opt DBool (en_offline n))]%string.
Definition edbg_term (t : eterm) : dbg :=
  DStruct "TermConfig"
    [("quiet", dbg_opt DBool (etm_quiet t));
     ("verbose", dbg_opt DBool (etm_verbose t));
     ("color", dbg_opt dbg_color (etm_color t));
     ("progress",
       DStruct "TermProgressConfig"
         [("when", dbg_opt dbg_when (epr_when (etm_progress t)));
          ("width", dbg_opt dbg_n (epr_width (etm_progress t)))])]%string.

(** src/resolve.rs:147-159 derive(Debug) for [ResolveContext].  Simplified: cache keys
    are shown by their [cli_target], and the [cargo_home] cell by the option given
    by the caller. *)
Definition edbg_cx (cx : context) (s : state) : dbg :=
  let rv v := DStruct "RustcVersion"
                [("major", dbg_n (rv_major v)); ("minor", dbg_n (rv_minor v));
                 ("patch", dbg_opt dbg_n (rv_patch v)); ("nightly", DBool (rv_nightly v))]%string in
  let cv v := DStruct "CargoVersion"
                [("major", dbg_n (cv_major v)); ("minor", dbg_n (cv_minor v));
                 ("patch", dbg_n (cv_patch v)); ("nightly", DBool (cv_nightly v))]%string in
  let cf c := DStruct "Cfg"
                [("flags", DSet (map DStr (cfg_flags c)));
                 ("key_values", DMap (map (fun kv => (DStr (fst kv), DSet (map DStr (snd kv))))
                                        (cfg_key_values c)))]%string in
  DStruct "ResolveContext"
    [("env", DMap (map (fun kv => (DStr (fst kv), DOs (snd kv))) (cx_env cx)));
     ("rustc", dbg_opt edbg_pa (s_rustc s));
     ("cargo", DOs (cx_cargo cx));
     ("cargo_home", dbg_opt (dbg_opt DOs) (cx_cargo_home0 cx));
     ("host_triple", dbg_opt DStr (s_host s));
     ("rustc_version", dbg_opt rv (s_rustc_version s));
     ("cargo_version", dbg_opt cv (s_cargo_version s));
     ("cfg", DMap (map (fun kv => (DOs (fst kv), cf (snd kv))) (s_cfg s)));
     ("current_dir", DOs (cx_current_dir cx))]%string.

(** src/easy.rs:30 derive(Debug) for [Config]. *)
Definition edbg_config (c : econfig) (s : state) : dbg :=
  DStruct "Config"
    [("alias", dbg_map (fun l => edbg_strs "StringList" "list" (esl_list l)) (ec_alias c));
     ("build", edbg_build (ec_build c));
     ("doc", edbg_doc (ec_doc c));
     ("env", dbg_map edbg_env (ec_env c));
     ("future_incompat_report", edbg_future (ec_future_incompat_report c));
     ("cargo_new", edbg_cargo_new (ec_cargo_new c));
     ("http", edbg_http (ec_http c));
     ("net", edbg_net (ec_net c));
     ("registries", dbg_map edbg_registries (ec_registries c));
     ("registry", edbg_registry (ec_registry c));
     ("target", DMap (map (fun kv => (DOs (fst kv), edbg_target (snd kv))) (s_target s)));
     ("de_target", dbg_map dbg_target (ec_de_target c));
     ("term", edbg_term (ec_term c));
     ("cx", edbg_cx (ec_cx c) s)]%string.
