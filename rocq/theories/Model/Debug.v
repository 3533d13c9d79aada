(** [Debug] for the types of src/value.rs and src/de.rs.  All impls are derived
    except those of [RegistriesConfigValue] and [RegistryConfig]. *)
From Verif.Model Require Import Base Str Path BMap Error Value De.

Definition dbg_opt {A} (f : A -> dbg) (o : option A) : dbg :=
  match o with Some a => DTuple "Some" [f a] | None => DUnit "None" end.
Definition dbg_map {V} (f : V -> dbg) (m : bmap V) : dbg :=
  DMap (map (fun kv => (DStr (fst kv), f (snd kv))) m).
Definition dbg_n (n : N) : dbg := DNum (Z.of_N n).

(** src/value.rs:54-55 derive(Debug) for [Definition]. *)
Definition dbg_definition (d : definition) : dbg :=
  match d with
  | DefPath p => DTuple "Path" [DOs p]
  | DefEnv k => DTuple "Environment" [DStr k]
  | DefCli p => DTuple "Cli" [dbg_opt DOs p]
  end.

(** src/value.rs:17-18 derive(Debug) for [Value]. *)
Definition dbg_value {T} (f : T -> dbg) (v : value T) : dbg :=
  DStruct "Value" [("val", f (val v)); ("definition", dbg_opt dbg_definition (def v))]%string.

Definition dbg_vstr := dbg_value DStr.
Definition dbg_vbool := dbg_value DBool.
Definition dbg_vn := dbg_value dbg_n.

(** src/de.rs:1115 *)
Definition dbg_repr (r : repr) : dbg :=
  match r with ReprString => DUnit "String" | ReprArray => DUnit "Array" end.

(** src/de.rs:503, 684, 791, 832, 873 *)
Definition dbg_vcs (v : vcs) : dbg :=
  match v with
  | VcsGit => DUnit "Git" | VcsMercurial => DUnit "Mercurial" | VcsPijul => DUnit "Pijul"
  | VcsFossil => DUnit "Fossil" | VcsNone => DUnit "None"
  end.
Definition dbg_protocol (p : protocol) : dbg :=
  match p with ProtoGit => DUnit "Git" | ProtoSparse => DUnit "Sparse" end.
Definition dbg_color (c : color) : dbg :=
  match c with ColorAuto => DUnit "Auto" | ColorAlways => DUnit "Always" | ColorNever => DUnit "Never" end.
Definition dbg_when (c : when) : dbg :=
  match c with WhenAuto => DUnit "Auto" | WhenAlways => DUnit "Always" | WhenNever => DUnit "Never" end.
Definition dbg_frequency (c : frequency) : dbg :=
  match c with FreqAlways => DUnit "Always" | FreqNever => DUnit "Never" end.

(** src/de.rs:911 *)
Definition dbg_flags (f : flags) : dbg :=
  DStruct "Flags" [("flags", DList (map dbg_vstr (fl_flags f)));
                   ("deserialized_repr", dbg_repr (fl_repr f))]%string.

(** src/de.rs:989, 1026 *)
Definition dbg_path_and_args (p : path_and_args) : dbg :=
  DStruct "PathAndArgs" [("path", DTuple "ConfigRelativePath" [dbg_vstr (pa_path p)]);
                         ("args", DList (map dbg_vstr (pa_args p)));
                         ("deserialized_repr", dbg_repr (pa_repr p))]%string.

(** src/de.rs:1106 *)
Definition dbg_string_list (s : string_list) : dbg :=
  DStruct "StringList" [("list", DList (map dbg_vstr (sl_list s)));
                        ("deserialized_repr", dbg_repr (sl_repr s))]%string.

(** src/de.rs:1182 *)
Definition dbg_soa (s : string_or_array) : dbg :=
  match s with
  | SoaString v => DTuple "String" [dbg_vstr v]
  | SoaArray l => DTuple "Array" [DList (map dbg_vstr l)]
  end.

(** src/de.rs:438 *)
Definition dbg_env_config_value (e : env_config_value) : dbg :=
  match e with
  | EnvValue v => DTuple "Value" [dbg_vstr v]
  | EnvTable v f r =>
      DStruct "Table" [("value", dbg_vstr v); ("force", dbg_opt dbg_vbool f);
                       ("relative", dbg_opt dbg_vbool r)]%string
  end.

(** src/de.rs:318 *)
Definition dbg_build (b : build_config) : dbg :=
  DStruct "BuildConfig"
    [("jobs", dbg_opt (dbg_value DNum) (b_jobs b));
     ("rustc", dbg_opt dbg_vstr (b_rustc b));
     ("rustc_wrapper", dbg_opt dbg_vstr (b_rustc_wrapper b));
     ("rustc_workspace_wrapper", dbg_opt dbg_vstr (b_rustc_workspace_wrapper b));
     ("rustdoc", dbg_opt dbg_vstr (b_rustdoc b));
     ("target", dbg_opt dbg_soa (b_target b));
     ("target_dir", dbg_opt dbg_vstr (b_target_dir b));
     ("rustflags", dbg_opt dbg_flags (b_rustflags b));
     ("rustdocflags", dbg_opt dbg_flags (b_rustdocflags b));
     ("incremental", dbg_opt dbg_vbool (b_incremental b));
     ("dep_info_basedir", dbg_opt dbg_vstr (b_dep_info_basedir b));
     ("override_target_rustflags", DBool (b_override_target_rustflags b));
     ("override_target_rustdocflags", DBool (b_override_target_rustdocflags b))]%string.

(** src/de.rs:394 *)
Definition dbg_target (t : target_config) : dbg :=
  DStruct "TargetConfig"
    [("linker", dbg_opt dbg_vstr (t_linker t));
     ("runner", dbg_opt dbg_path_and_args (t_runner t));
     ("rustflags", dbg_opt dbg_flags (t_rustflags t));
     ("rustdocflags", dbg_opt dbg_flags (t_rustdocflags t))]%string.

(** src/de.rs:422 *)
Definition dbg_doc (d : doc_config) : dbg :=
  DStruct "DocConfig" [("browser", dbg_opt dbg_path_and_args (d_browser d))]%string.

(** src/de.rs:478 *)
Definition dbg_future (f : future_incompat) : dbg :=
  DStruct "FutureIncompatReportConfig"
    [("frequency", dbg_opt (dbg_value dbg_frequency) (f_frequency f))]%string.

(** src/de.rs:492 *)
Definition dbg_cargo_new (c : cargo_new) : dbg :=
  DStruct "CargoNewConfig" [("vcs", dbg_opt (dbg_value dbg_vcs) (cn_vcs c))]%string.

(** src/de.rs:550 *)
Definition dbg_http (h : http_config) : dbg :=
  DStruct "HttpConfig"
    [("debug", dbg_opt dbg_vbool (h_debug h));
     ("proxy", dbg_opt dbg_vstr (h_proxy h));
     ("timeout", dbg_opt dbg_vn (h_timeout h));
     ("cainfo", dbg_opt dbg_vstr (h_cainfo h));
     ("check_revoke", dbg_opt dbg_vbool (h_check_revoke h));
     ("low_speed_limit", dbg_opt dbg_vn (h_low_speed_limit h));
     ("multiplexing", dbg_opt dbg_vbool (h_multiplexing h));
     ("user_agent", dbg_opt dbg_vstr (h_user_agent h))]%string.

(** src/de.rs:612 *)
Definition dbg_net (n : net_config) : dbg :=
  DStruct "NetConfig"
    [("retry", dbg_opt dbg_vn (n_retry n));
     ("git_fetch_with_cli", dbg_opt dbg_vbool (n_git_fetch_with_cli n));
     ("offline", dbg_opt dbg_vbool (n_offline n))]%string.

(** The redacted form of a token: src/de.rs:669-671, 737-739. *)
Definition redact (t : option (value str)) : option (value str) :=
  match t with
  | Some v => Some (mkValue (B "[REDACTED]") (def v))
  | None => None
  end.

(** src/de.rs:666-679 *)
Definition dbg_registries (r : registries_value) : dbg :=
  DStruct "RegistriesConfigValue"
    [("index", dbg_opt dbg_vstr (r_index r));
     ("token", dbg_opt dbg_vstr (redact (r_token r)));
     ("protocol", dbg_opt (dbg_value dbg_protocol) (r_protocol r))]%string.

(** src/de.rs:734-745 *)
Definition dbg_registry (r : registry_config) : dbg :=
  DStruct "RegistryConfig"
    [("default", dbg_opt dbg_vstr (rg_default r));
     ("token", dbg_opt dbg_vstr (redact (rg_token r)))]%string.

(** src/de.rs:774, 750 *)
Definition dbg_progress (p : term_progress) : dbg :=
  DStruct "TermProgress"
    [("when", dbg_opt (dbg_value dbg_when) (p_when p));
     ("width", dbg_opt dbg_vn (p_width p))]%string.
Definition dbg_term (t : term_config) : dbg :=
  DStruct "TermConfig"
    [("quiet", dbg_opt dbg_vbool (tm_quiet t));
     ("verbose", dbg_opt dbg_vbool (tm_verbose t));
     ("color", dbg_opt (dbg_value dbg_color) (tm_color t));
     ("progress", dbg_progress (tm_progress t))]%string.

(** src/de.rs:34 *)
Definition dbg_config (c : config) : dbg :=
  DStruct "Config"
    [("alias", dbg_map dbg_string_list (c_alias c));
     ("build", dbg_build (c_build c));
     ("doc", dbg_doc (c_doc c));
     ("env", dbg_map dbg_env_config_value (c_env c));
     ("future_incompat_report", dbg_future (c_future_incompat_report c));
     ("cargo_new", dbg_cargo_new (c_cargo_new c));
     ("http", dbg_http (c_http c));
     ("net", dbg_net (c_net c));
     ("registries", dbg_map dbg_registries (c_registries c));
     ("registry", dbg_registry (c_registry c));
     ("target", dbg_map dbg_target (c_target c));
     ("term", dbg_term (c_term c))]%string.
