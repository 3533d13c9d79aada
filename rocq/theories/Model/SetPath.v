(** [SetPath]: src/value.rs:119-147 and src/gen/de.rs. *)
From Verif.Model Require Import Base Str Path BMap Error Value De.

(** src/value.rs:122-128 *)
Definition sp_opt {A} (f : path -> A -> A) (p : path) (o : option A) : option A :=
  option_map (f p) o.
(** src/value.rs:129-135 *)
Definition sp_list {A} (f : path -> A -> A) (p : path) (l : list A) : list A := map (f p) l.
(** src/value.rs:136-142 *)
Definition sp_map {A} (f : path -> A -> A) (p : path) (m : bmap A) : bmap A := bmapv (f p) m.

Definition spv {A} (p : path) (o : option (value A)) : option (value A) :=
  sp_opt set_path_value p o.

(** src/gen/de.rs:235-239 *)
Definition sp_flags (p : path) (f : flags) : flags :=
  mkFlags (sp_list set_path_value p (fl_flags f)) (fl_repr f).
(** src/gen/de.rs:240-250 *)
Definition sp_path_and_args (p : path) (a : path_and_args) : path_and_args :=
  mkPathAndArgs (set_path_value p (pa_path a)) (sp_list set_path_value p (pa_args a)) (pa_repr a).
(** src/gen/de.rs:251-255 *)
Definition sp_string_list (p : path) (s : string_list) : string_list :=
  mkStringList (sp_list set_path_value p (sl_list s)) (sl_repr s).
(** src/gen/de.rs:256-267 *)
Definition sp_soa (p : path) (s : string_or_array) : string_or_array :=
  match s with
  | SoaString v => SoaString (set_path_value p v)
  | SoaArray l => SoaArray (sp_list set_path_value p l)
  end.
(** src/gen/de.rs:101-114 *)
Definition sp_env_config_value (p : path) (e : env_config_value) : env_config_value :=
  match e with
  | EnvValue v => EnvValue (set_path_value p v)
  | EnvTable v f r => EnvTable (set_path_value p v) (spv p f) (spv p r)
  end.
(** src/gen/de.rs:58-72 *)
Definition sp_build (p : path) (b : build_config) : build_config :=
  mkBuild (spv p (b_jobs b)) (spv p (b_rustc b)) (spv p (b_rustc_wrapper b))
    (spv p (b_rustc_workspace_wrapper b)) (spv p (b_rustdoc b)) (sp_opt sp_soa p (b_target b))
    (spv p (b_target_dir b)) (sp_opt sp_flags p (b_rustflags b))
    (sp_opt sp_flags p (b_rustdocflags b)) (spv p (b_incremental b))
    (spv p (b_dep_info_basedir b))
    (b_override_target_rustflags b) (b_override_target_rustdocflags b).
(** src/gen/de.rs:82-89 *)
Definition sp_target (p : path) (t : target_config) : target_config :=
  mkTarget (spv p (t_linker t)) (sp_opt sp_path_and_args p (t_runner t))
    (sp_opt sp_flags p (t_rustflags t)) (sp_opt sp_flags p (t_rustdocflags t)).
(** src/gen/de.rs:96-100 *)
Definition sp_doc (p : path) (d : doc_config) : doc_config :=
  mkDoc (sp_opt sp_path_and_args p (d_browser d)).
(** src/gen/de.rs:121-125 *)
Definition sp_future (p : path) (f : future_incompat) : future_incompat :=
  mkFuture (spv p (f_frequency f)).
(** src/gen/de.rs:132-136 *)
Definition sp_cargo_new (p : path) (c : cargo_new) : cargo_new := mkCargoNew (spv p (cn_vcs c)).
(** src/gen/de.rs:150-161 *)
Definition sp_http (p : path) (h : http_config) : http_config :=
  mkHttp (spv p (h_debug h)) (spv p (h_proxy h)) (spv p (h_timeout h)) (spv p (h_cainfo h))
    (spv p (h_check_revoke h)) (spv p (h_low_speed_limit h)) (spv p (h_multiplexing h))
    (spv p (h_user_agent h)).
(** src/gen/de.rs:170-176 *)
Definition sp_net (p : path) (n : net_config) : net_config :=
  mkNet (spv p (n_retry n)) (spv p (n_git_fetch_with_cli n)) (spv p (n_offline n)).
(** src/gen/de.rs:185-191 *)
Definition sp_registries (p : path) (r : registries_value) : registries_value :=
  mkRegistries (spv p (r_index r)) (spv p (r_token r)) (spv p (r_protocol r)).
(** src/gen/de.rs:199-204 *)
Definition sp_registry (p : path) (r : registry_config) : registry_config :=
  mkRegistry (spv p (rg_default r)) (spv p (rg_token r)).
(** src/gen/de.rs:229-234 *)
Definition sp_progress (p : path) (t : term_progress) : term_progress :=
  mkProgress (spv p (p_when t)) (spv p (p_width t)).
(** src/gen/de.rs:214-221 *)
Definition sp_term (p : path) (t : term_config) : term_config :=
  mkTerm (spv p (tm_quiet t)) (spv p (tm_verbose t)) (spv p (tm_color t))
    (sp_progress p (tm_progress t)).
(** src/gen/de.rs:26-41, src/de.rs:185-187 *)
Definition sp_config (p : path) (c : config) : config :=
  mkConfig (sp_map sp_string_list p (c_alias c)) (sp_build p (c_build c)) (sp_doc p (c_doc c))
    (sp_map sp_env_config_value p (c_env c)) (sp_future p (c_future_incompat_report c))
    (sp_cargo_new p (c_cargo_new c)) (sp_http p (c_http c)) (sp_net p (c_net c))
    (sp_map sp_registries p (c_registries c)) (sp_registry p (c_registry c))
    (sp_map sp_target p (c_target c)) (sp_term p (c_term c)).
