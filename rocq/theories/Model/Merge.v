(** src/merge.rs and the [Merge] impls of src/gen/de.rs.

    [merge this low force] returns the new value of [*self].  On an error the
    Rust code may leave [*self] partially merged; every caller in the crate then
    drops it, so only the error is returned here.  The one place where the rest is
    still looked at is the message of [merge_map]. *)
From Verif.Model Require Import Base Str Path BMap Error Value De Debug.

(** src/merge.rs:28-56 [merge_non_container!]. *)
Definition merge_leaf {A} (this low : A) (force : bool) : result A :=
  Ok (if force then low else this).

(** src/merge.rs:58-67 *)
Definition merge_opt {A} (m : A -> A -> bool -> result A)
  (this low : option A) (force : bool) : result (option A) :=
  match this, low with
  | _, None => Ok this
  | None, _ => Ok low
  | Some t, Some l => r <- m t l force ;; Ok (Some r)
  end.

Definition merge_v {A} : option (value A) -> option (value A) -> bool -> result (option (value A)) :=
  merge_opt merge_leaf.

Definition expected_found {A} (expected actual : str) : result A :=
  bail (B "expected " ++ expected ++ B ", but found " ++ actual).

(** src/merge.rs:68-88 *)
Definition merge_soa (this low : string_or_array) (force : bool) : result string_or_array :=
  match this, low with
  | SoaString _, SoaString _ => Ok (if force then low else this)
  | SoaArray t, SoaArray l => Ok (SoaArray (l ++ t))
  | _, _ => expected_found (soa_kind this) (soa_kind low)
  end.

(** src/merge.rs:89-117 *)
Definition merge_path_and_args (this low : path_and_args) (force : bool) : result path_and_args :=
  match pa_repr this, pa_repr low with
  | ReprString, ReprString => Ok (if force then low else this)
  | ReprArray, ReprArray =>
      Ok (mkPathAndArgs (pa_path this) ((pa_args this ++ [pa_path low]) ++ pa_args low)
                        (pa_repr this))
  | e, a => expected_found (repr_as_str e) (repr_as_str a)
  end.

(** src/merge.rs:118-138 *)
Definition merge_string_list (this low : string_list) (force : bool) : result string_list :=
  match sl_repr this, sl_repr low with
  | ReprString, ReprString => Ok (if force then low else this)
  | ReprArray, ReprArray => Ok (mkStringList (sl_list low ++ sl_list this) (sl_repr this))
  | e, a => expected_found (repr_as_str e) (repr_as_str a)
  end.

(** src/merge.rs:139-161 *)
Definition merge_env_config_value (this low : env_config_value) (force : bool)
  : result env_config_value :=
  match this, low with
  | EnvValue _, EnvValue _ => Ok (if force then low else this)
  | EnvTable tv tf tr, EnvTable lv lf lr =>
      v <- merge_leaf tv lv force ;;
      f <- merge_v tf lf force ;;
      r <- merge_v tr lr force ;;
      Ok (EnvTable v f r)
  | _, _ => expected_found (env_kind this) (env_kind low)
  end.

(** src/merge.rs:162-182 *)
Definition merge_flags (this low : flags) (force : bool) : result flags :=
  match fl_repr this, fl_repr low with
  | ReprString, ReprString => Ok (if force then low else this)
  | ReprArray, ReprArray => Ok (mkFlags (fl_flags low ++ fl_flags this) (fl_repr this))
  | e, a => expected_found (repr_as_str e) (repr_as_str a)
  end.

(** What a failed merge leaves in [*self]: src/merge.rs:118-161 fail before
    anything is changed, [RegistriesConfigValue] does not fail. *)
Definition left_whole {V} (this low : V) (force : bool) : V := this.

(** src/merge.rs:183-203.  [lf] is what a failed [m] leaves in the entry; the
    message prints the entry after the failure. *)
Fixpoint merge_map {V} (m : V -> V -> bool -> result V) (d : V -> dbg) (lf : V -> V -> bool -> V)
  (this low : bmap V) (force : bool) : result (bmap V) :=
  match low with
  | [] => Ok this
  | (key, value) :: rest =>
      match bget key this with
      | Some entry =>
          v <- with_context (MMergeKey key (d (lf entry value force)) (d value)) (m entry value force) ;;
          merge_map m d lf (binsert key v this) rest force
      | None => merge_map m d lf (binsert key value this) rest force
      end
  end.

(** src/gen/de.rs:42-57.  [override_target_*] are not merged. *)
Definition merge_build (this low : build_config) (force : bool) : result build_config :=
  jobs <- merge_v (b_jobs this) (b_jobs low) force ;;
  rustc <- merge_v (b_rustc this) (b_rustc low) force ;;
  rustc_wrapper <- merge_v (b_rustc_wrapper this) (b_rustc_wrapper low) force ;;
  rustc_workspace_wrapper <-
    merge_v (b_rustc_workspace_wrapper this) (b_rustc_workspace_wrapper low) force ;;
  rustdoc <- merge_v (b_rustdoc this) (b_rustdoc low) force ;;
  target <- merge_opt merge_soa (b_target this) (b_target low) force ;;
  target_dir <- merge_v (b_target_dir this) (b_target_dir low) force ;;
  rustflags <- merge_opt merge_flags (b_rustflags this) (b_rustflags low) force ;;
  rustdocflags <- merge_opt merge_flags (b_rustdocflags this) (b_rustdocflags low) force ;;
  incremental <- merge_v (b_incremental this) (b_incremental low) force ;;
  dep_info_basedir <- merge_v (b_dep_info_basedir this) (b_dep_info_basedir low) force ;;
  Ok (mkBuild jobs rustc rustc_wrapper rustc_workspace_wrapper rustdoc target target_dir
        rustflags rustdocflags incremental dep_info_basedir
        (b_override_target_rustflags this) (b_override_target_rustdocflags this)).

(** src/gen/de.rs:73-81 *)
Definition merge_target (this low : target_config) (force : bool) : result target_config :=
  linker <- merge_v (t_linker this) (t_linker low) force ;;
  runner <- merge_opt merge_path_and_args (t_runner this) (t_runner low) force ;;
  rustflags <- merge_opt merge_flags (t_rustflags this) (t_rustflags low) force ;;
  rustdocflags <- merge_opt merge_flags (t_rustdocflags this) (t_rustdocflags low) force ;;
  Ok (mkTarget linker runner rustflags rustdocflags).

(** src/gen/de.rs:73-81: the fields are merged one after the other, in place; the
    first failure leaves the fields before it merged and the others as they were. *)
Definition left_target (this low : target_config) (force : bool) : target_config :=
  match merge_v (t_linker this) (t_linker low) force with
  | Ok linker =>
      match merge_opt merge_path_and_args (t_runner this) (t_runner low) force with
      | Ok runner =>
          match merge_opt merge_flags (t_rustflags this) (t_rustflags low) force with
          | Ok rustflags =>
              match merge_opt merge_flags (t_rustdocflags this) (t_rustdocflags low) force with
              | Ok rustdocflags => mkTarget linker runner rustflags rustdocflags
              | _ => mkTarget linker runner rustflags (t_rustdocflags this)
              end
          | _ => mkTarget linker runner (t_rustflags this) (t_rustdocflags this)
          end
      | _ => mkTarget linker (t_runner this) (t_rustflags this) (t_rustdocflags this)
      end
  | _ => this
  end.

(** src/gen/de.rs:90-95 *)
Definition merge_doc (this low : doc_config) (force : bool) : result doc_config :=
  browser <- merge_opt merge_path_and_args (d_browser this) (d_browser low) force ;;
  Ok (mkDoc browser).

(** src/gen/de.rs:115-120 *)
Definition merge_future (this low : future_incompat) (force : bool) : result future_incompat :=
  frequency <- merge_v (f_frequency this) (f_frequency low) force ;;
  Ok (mkFuture frequency).

(** src/gen/de.rs:126-131 *)
Definition merge_cargo_new (this low : cargo_new) (force : bool) : result cargo_new :=
  vcs <- merge_v (cn_vcs this) (cn_vcs low) force ;;
  Ok (mkCargoNew vcs).

(** src/gen/de.rs:137-149 *)
Definition merge_http (this low : http_config) (force : bool) : result http_config :=
  debug <- merge_v (h_debug this) (h_debug low) force ;;
  proxy <- merge_v (h_proxy this) (h_proxy low) force ;;
  timeout <- merge_v (h_timeout this) (h_timeout low) force ;;
  cainfo <- merge_v (h_cainfo this) (h_cainfo low) force ;;
  check_revoke <- merge_v (h_check_revoke this) (h_check_revoke low) force ;;
  low_speed_limit <- merge_v (h_low_speed_limit this) (h_low_speed_limit low) force ;;
  multiplexing <- merge_v (h_multiplexing this) (h_multiplexing low) force ;;
  user_agent <- merge_v (h_user_agent this) (h_user_agent low) force ;;
  Ok (mkHttp debug proxy timeout cainfo check_revoke low_speed_limit multiplexing user_agent).

(** src/gen/de.rs:162-169 *)
Definition merge_net (this low : net_config) (force : bool) : result net_config :=
  retry <- merge_v (n_retry this) (n_retry low) force ;;
  git_fetch_with_cli <- merge_v (n_git_fetch_with_cli this) (n_git_fetch_with_cli low) force ;;
  offline <- merge_v (n_offline this) (n_offline low) force ;;
  Ok (mkNet retry git_fetch_with_cli offline).

(** src/gen/de.rs:177-184 *)
Definition merge_registries (this low : registries_value) (force : bool)
  : result registries_value :=
  index <- merge_v (r_index this) (r_index low) force ;;
  token <- merge_v (r_token this) (r_token low) force ;;
  protocol <- merge_v (r_protocol this) (r_protocol low) force ;;
  Ok (mkRegistries index token protocol).

(** src/gen/de.rs:192-198 *)
Definition merge_registry (this low : registry_config) (force : bool) : result registry_config :=
  default <- merge_v (rg_default this) (rg_default low) force ;;
  token <- merge_v (rg_token this) (rg_token low) force ;;
  Ok (mkRegistry default token).

(** src/gen/de.rs:222-228 *)
Definition merge_progress (this low : term_progress) (force : bool) : result term_progress :=
  when <- merge_v (p_when this) (p_when low) force ;;
  width <- merge_v (p_width this) (p_width low) force ;;
  Ok (mkProgress when width).

(** src/gen/de.rs:205-213 *)
Definition merge_term (this low : term_config) (force : bool) : result term_config :=
  quiet <- merge_v (tm_quiet this) (tm_quiet low) force ;;
  verbose <- merge_v (tm_verbose this) (tm_verbose low) force ;;
  color <- merge_v (tm_color this) (tm_color low) force ;;
  progress <- merge_progress (tm_progress this) (tm_progress low) force ;;
  Ok (mkTerm quiet verbose color progress).

(** src/gen/de.rs:9-25, src/de.rs:181-183 *)
Definition merge_config (this low : config) (force : bool) : result config :=
  alias <- merge_map merge_string_list dbg_string_list left_whole (c_alias this) (c_alias low) force ;;
  build <- merge_build (c_build this) (c_build low) force ;;
  doc <- merge_doc (c_doc this) (c_doc low) force ;;
  env <- merge_map merge_env_config_value dbg_env_config_value left_whole (c_env this) (c_env low) force ;;
  future <- merge_future (c_future_incompat_report this) (c_future_incompat_report low) force ;;
  cargo_new <- merge_cargo_new (c_cargo_new this) (c_cargo_new low) force ;;
  http <- merge_http (c_http this) (c_http low) force ;;
  net <- merge_net (c_net this) (c_net low) force ;;
  registries <-
    merge_map merge_registries dbg_registries left_whole (c_registries this) (c_registries low) force ;;
  registry <- merge_registry (c_registry this) (c_registry low) force ;;
  target <- merge_map merge_target dbg_target left_target (c_target this) (c_target low) force ;;
  term <- merge_term (c_term this) (c_term low) force ;;
  Ok (mkConfig alias build doc env future cargo_new http net registries registry target term).
