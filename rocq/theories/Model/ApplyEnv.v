(** Applying environment variables: src/env.rs. *)
From Verif.Model Require Import Base Str Path BMap Error Value De Context.

(** Errors of the [FromStr] impls: std's for numbers and bool, the crate's for the
    enums (src/de.rs:703, 826, 867, 905). *)
Definition std_perr (_ : str) : source := SParse.
Definition enum_perr (what : str) (s : str) : source :=
  SCrate (EOther (MText (what ++ B ", but found " ++ bt s))).
Definition color_perr := enum_perr (B "must be auto, always, or never").
Definition when_perr := enum_perr (B "must be auto, always, or never").
Definition frequency_perr := enum_perr (B "must be always or never").
Definition protocol_error (s : str) : error :=
  EOther (MText (B "must be git or sparse" ++ B ", but found " ++ bt s)).

(** [if let Some(x) = new { self.f = Some(x) }] *)
Definition or_keep {A} (new cur : option A) : option A :=
  match new with Some a => Some a | None => cur end.

(** [if let Some(x) = cx.env(a)? {..} else if let Some(x) = cx.env(b)? {..}]: the
    second variable is only read if the first is unset. *)
Definition env_first (env : env_map) (a b : str) : result (option (value str)) :=
  o <- cx_env_var env a ;;
  match o with
  | Some v => Ok (Some v)
  | None => cx_env_var env b
  end.

(** src/env.rs:131-143, 149-163: an empty wrapper unsets it. *)
Definition apply_wrapper (new cur : option (value str)) : option (value str) :=
  match new with
  | Some v => if is_empty (val v) then None else Some v
  | None => cur
  end.

(** src/env.rs:195-206, 213-228: the new flags and the override switch. *)
Definition env_flags (env : env_map) (encoded plain build : str) (cur : option flags)
  : result (option flags * bool) :=
  e <- cx_env_var env encoded ;;
  match e with
  | Some v => Ok (Some (flags_from_encoded v), true)
  | None =>
      p <- cx_env_var env plain ;;
      match p with
      | Some v => Ok (Some (flags_from_space_separated (val v) (def v)), true)
      | None =>
          b <- cx_env_var env build ;;
          match b with
          | Some v => Ok (Some (flags_from_space_separated (val v) (def v)), false)
          | None => Ok (cur, false)
          end
      end
  end.

(** src/env.rs:235-241 *)
Definition env_incremental (env : env_map) : result (option (value bool)) :=
  o <- cx_env_var env (B "CARGO_INCREMENTAL") ;;
  match o with
  | Some v => Ok (Some (mkValue (str_eqb (val v) (B "1")) (def v)))
  | None => cx_env_parse env parse_bool std_perr (B "CARGO_BUILD_INCREMENTAL")
  end.

(** src/env.rs:108-250 [ApplyEnv for BuildConfig]. *)
Definition apply_build (env : env_map) (b : build_config) : result build_config :=
  jobs <- cx_env_parse env parse_i32 std_perr (B "CARGO_BUILD_JOBS") ;;
  rustc <- env_first env (B "RUSTC") (B "CARGO_BUILD_RUSTC") ;;
  wrapper <- env_first env (B "RUSTC_WRAPPER") (B "CARGO_BUILD_RUSTC_WRAPPER") ;;
  ws_wrapper <- env_first env (B "RUSTC_WORKSPACE_WRAPPER")
                  (B "CARGO_BUILD_RUSTC_WORKSPACE_WRAPPER") ;;
  rustdoc <- env_first env (B "RUSTDOC") (B "CARGO_BUILD_RUSTDOC") ;;
  target <- cx_env_var env (B "CARGO_BUILD_TARGET") ;;
  target_dir <- env_first env (B "CARGO_TARGET_DIR") (B "CARGO_BUILD_TARGET_DIR") ;;
  rustflags <- env_flags env (B "CARGO_ENCODED_RUSTFLAGS") (B "RUSTFLAGS")
                 (B "CARGO_BUILD_RUSTFLAGS") (b_rustflags b) ;;
  rustdocflags <- env_flags env (B "CARGO_ENCODED_RUSTDOCFLAGS") (B "RUSTDOCFLAGS")
                    (B "CARGO_BUILD_RUSTDOCFLAGS") (b_rustdocflags b) ;;
  incremental <- env_incremental env ;;
  dep_info_basedir <- cx_env_var env (B "CARGO_BUILD_DEP_INFO_BASEDIR") ;;
  Ok (mkBuild (or_keep jobs (b_jobs b)) (or_keep rustc (b_rustc b))
        (apply_wrapper wrapper (b_rustc_wrapper b))
        (apply_wrapper ws_wrapper (b_rustc_workspace_wrapper b))
        (or_keep rustdoc (b_rustdoc b))
        (or_keep (option_map SoaString target) (b_target b))
        (or_keep target_dir (b_target_dir b))
        (fst rustflags) (fst rustdocflags)
        (or_keep incremental (b_incremental b))
        (or_keep dep_info_basedir (b_dep_info_basedir b))
        (snd rustflags) (snd rustdocflags)).

(** The error of [PathAndArgs::from_string(..).context(..)]. *)
Definition pa_of_var (v : value str) : result path_and_args :=
  context_opt (MText (B "invalid length 0, expected at least one element"))
              (pa_from_string (val v) (def v)).

(** src/env.rs:252-266 [ApplyEnv for DocConfig]. *)
Definition apply_doc (env : env_map) (d : doc_config) : result doc_config :=
  match d_browser d with
  | Some _ => Ok d
  | None =>
      o <- cx_env_var env (B "BROWSER") ;;
      match o with
      | Some v => p <- pa_of_var v ;; Ok (mkDoc (Some p))
      | None => Ok d
      end
  end.

(** src/env.rs:268-276 *)
Definition apply_future (env : env_map) (f : future_incompat) : result future_incompat :=
  o <- cx_env_parse env frequency_from_str frequency_perr
         (B "CARGO_FUTURE_INCOMPAT_REPORT_FREQUENCY") ;;
  Ok (mkFuture (or_keep o (f_frequency f))).

(** src/env.rs:288-328 *)
Definition apply_http (env : env_map) (h : http_config) : result http_config :=
  debug <- cx_env_parse env parse_bool std_perr (B "CARGO_HTTP_DEBUG") ;;
  proxy <- cx_env_var env (B "CARGO_HTTP_PROXY") ;;
  timeout <- cx_env_parse env parse_u32 std_perr (B "CARGO_HTTP_TIMEOUT") ;;
  cainfo <- cx_env_var env (B "CARGO_HTTP_CAINFO") ;;
  check_revoke <- cx_env_parse env parse_bool std_perr (B "CARGO_HTTP_CHECK_REVOKE") ;;
  low_speed_limit <- cx_env_parse env parse_u32 std_perr (B "CARGO_HTTP_LOW_SPEED_LIMIT") ;;
  multiplexing <- cx_env_parse env parse_bool std_perr (B "CARGO_HTTP_MULTIPLEXING") ;;
  user_agent <- cx_env_var env (B "CARGO_HTTP_USER_AGENT") ;;
  Ok (mkHttp (or_keep debug (h_debug h)) (or_keep proxy (h_proxy h))
        (or_keep timeout (h_timeout h)) (or_keep cainfo (h_cainfo h))
        (or_keep check_revoke (h_check_revoke h))
        (or_keep low_speed_limit (h_low_speed_limit h))
        (or_keep multiplexing (h_multiplexing h)) (or_keep user_agent (h_user_agent h))).

(** src/env.rs:330-346 *)
Definition apply_net (env : env_map) (n : net_config) : result net_config :=
  retry <- cx_env_parse env parse_u32 std_perr (B "CARGO_NET_RETRY") ;;
  git <- cx_env_parse env parse_bool std_perr (B "CARGO_NET_GIT_FETCH_WITH_CLI") ;;
  offline <- cx_env_parse env parse_bool std_perr (B "CARGO_NET_OFFLINE") ;;
  Ok (mkNet (or_keep retry (n_retry n)) (or_keep git (n_git_fetch_with_cli n))
        (or_keep offline (n_offline n))).

(** src/env.rs:348-360 *)
Definition apply_registry (env : env_map) (r : registry_config) : result registry_config :=
  default <- cx_env_var env (B "CARGO_REGISTRY_DEFAULT") ;;
  token <- cx_env_redacted env (B "CARGO_REGISTRY_TOKEN") ;;
  Ok (mkRegistry (or_keep default (rg_default r)) (or_keep token (rg_token r))).

(** src/env.rs:381-393 *)
Definition apply_progress (env : env_map) (p : term_progress) : result term_progress :=
  when <- cx_env_parse env when_from_str when_perr (B "CARGO_TERM_PROGRESS_WHEN") ;;
  width <- cx_env_parse env parse_u32 std_perr (B "CARGO_TERM_PROGRESS_WIDTH") ;;
  Ok (mkProgress (or_keep when (p_when p)) (or_keep width (p_width p))).

(** src/env.rs:362-379 *)
Definition apply_term (env : env_map) (t : term_config) : result term_config :=
  quiet <- cx_env_parse env parse_bool std_perr (B "CARGO_TERM_QUIET") ;;
  verbose <- cx_env_parse env parse_bool std_perr (B "CARGO_TERM_VERBOSE") ;;
  color <- cx_env_parse env color_from_str color_perr (B "CARGO_TERM_COLOR") ;;
  progress <- apply_progress env (tm_progress t) ;;
  Ok (mkTerm (or_keep quiet (tm_quiet t)) (or_keep verbose (tm_verbose t))
        (or_keep color (tm_color t)) progress).

(** src/env.rs:53-61, 66-74, 81-89: update one field of a registry, inserting it
    if it is missing. *)
Definition update_registry (k : str) (f : registries_value -> registries_value)
  (m : bmap registries_value) : bmap registries_value :=
  match bget k m with
  | Some r => binsert k (f r) m
  | None => binsert k (f registries_default) m
  end.

(** src/env.rs:33-92: the effect of one variable. *)
Definition apply_var (k v : str) (st : bmap string_list * bmap registries_value)
  : result (bmap string_list * bmap registries_value) :=
  let (alias, registries) := st in
  let d := Some (DefEnv k) in
  match strip_prefix (B "CARGO_ALIAS_") k with
  | Some name =>
      match to_str v with
      | None => Err (env_not_unicode k v)
      | Some s => Ok (binsert name (sl_from_string s d) alias, registries)
      end
  | None =>
      match strip_prefix (B "CARGO_REGISTRIES_") k with
      | None => Ok st
      | Some rest =>
          match strip_suffix (B "_INDEX") rest with
          | Some name =>
              match to_str v with
              | None => Err (env_not_unicode k v)
              | Some s =>
                  Ok (alias, update_registry name
                               (fun r => mkRegistries (Some (mkValue s d)) (r_token r) (r_protocol r))
                               registries)
              end
          | None =>
              match strip_suffix (B "_TOKEN") rest with
              | Some name =>
                  match to_str v with
                  | None => Err (env_not_unicode_redacted k)
                  | Some s =>
                      Ok (alias, update_registry name
                                   (fun r => mkRegistries (r_index r) (Some (mkValue s d)) (r_protocol r))
                                   registries)
                  end
              | None =>
                  if str_eqb rest (B "CRATES_IO_PROTOCOL") then
                    match to_str v with
                    | None => Err (env_not_unicode k v)
                    | Some s =>
                        match protocol_from_str s with
                        | None => Err (protocol_error s)
                        | Some p =>
                            Ok (alias, update_registry (B "crates-io")
                                         (fun r => mkRegistries (r_index r) (r_token r)
                                                     (Some (mkValue p d)))
                                         registries)
                        end
                    end
                  else Ok st
              end
          end
      end
  end.

(** src/env.rs:32-93: the loop over the map, in iteration order. *)
Fixpoint apply_vars (env : env_map) (st : bmap string_list * bmap registries_value)
  : result (bmap string_list * bmap registries_value) :=
  match env with
  | [] => Ok st
  | (k, v) :: rest => st' <- apply_var k v st ;; apply_vars rest st'
  end.

(** src/env.rs:31-105 [Config::apply_env]. *)
Definition apply_env (env : env_map) (c : config) : result config :=
  st <- apply_vars env (c_alias c, c_registries c) ;;
  build <- apply_build env (c_build c) ;;
  doc <- apply_doc env (c_doc c) ;;
  future <- apply_future env (c_future_incompat_report c) ;;
  http <- apply_http env (c_http c) ;;
  net <- apply_net env (c_net c) ;;
  registry <- apply_registry env (c_registry c) ;;
  term <- apply_term env (c_term c) ;;
  Ok (mkConfig (fst st) build doc (c_env c) future (c_cargo_new c) http net (snd st)
        registry (c_target c) term).
