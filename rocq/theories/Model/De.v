(** Data types of src/de.rs (unresolved configuration) with their constructors
    and text conversions. *)
From Verif.Model Require Import Base Str Path BMap Error Value.

(** ** Splitting *)

(** src/de.rs:1226-1228 [split_encoded]. *)
Definition split_encoded (s : str) : list str := split_on us s.

(** src/de.rs:1229-1233 [split_space_separated]. *)
Definition split_space_separated (s : str) : list str :=
  filter (fun w => negb (is_empty w)) (map trim (split_on sp s)).

(** src/de.rs:1217-1219 [target_u_lower]. *)
Definition dash_dot_to_underscore (c : ascii) : ascii :=
  if (Ascii.eqb c "-" || Ascii.eqb c ".")%bool then "_"%char else c.
Definition target_u_lower (t : str) : str := map dash_dot_to_underscore t.

(** src/de.rs:1220-1224 [target_u_upper]. *)
Definition target_u_upper (t : str) : str := ascii_uppercase (target_u_lower t).

(** ** Enumerations *)

(** src/de.rs:503-518 *)
Inductive vcs := VcsGit | VcsMercurial | VcsPijul | VcsFossil | VcsNone.
(** src/de.rs:521-529 [VersionControlSoftware::as_str]. *)
Definition vcs_as_str (v : vcs) : str :=
  match v with
  | VcsGit => B "git" | VcsMercurial => B "hg" | VcsPijul => B "pijul"
  | VcsFossil => B "fossil" | VcsNone => B "none"
  end.
(** src/de.rs:532-545 [FromStr]. The error message text is in. *)
Definition vcs_from_str (s : str) : option vcs :=
  if str_eqb s (B "git") then Some VcsGit
  else if str_eqb s (B "hg") then Some VcsMercurial
  else if str_eqb s (B "pijul") then Some VcsPijul
  else if str_eqb s (B "fossil") then Some VcsFossil
  else if str_eqb s (B "none") then Some VcsNone
  else None.

(** src/de.rs:684-694 *)
Inductive protocol := ProtoGit | ProtoSparse.
(** src/de.rs:696-706 [FromStr]. *)
Definition protocol_from_str (s : str) : option protocol :=
  if str_eqb s (B "git") then Some ProtoGit
  else if str_eqb s (B "sparse") then Some ProtoSparse
  else None.

(** src/de.rs:790-800 *)
Inductive color := ColorAuto | ColorAlways | ColorNever.
(** src/de.rs:802-810 *)
Definition color_as_str (c : color) : str :=
  match c with ColorAuto => B "auto" | ColorAlways => B "always" | ColorNever => B "never" end.
(** src/de.rs:818-829 *)
Definition color_from_str (s : str) : option color :=
  if str_eqb s (B "auto") then Some ColorAuto
  else if str_eqb s (B "always") then Some ColorAlways
  else if str_eqb s (B "never") then Some ColorNever
  else None.

(** src/de.rs:831-841 *)
Inductive when := WhenAuto | WhenAlways | WhenNever.
(** src/de.rs:843-851 *)
Definition when_as_str (c : when) : str :=
  match c with WhenAuto => B "auto" | WhenAlways => B "always" | WhenNever => B "never" end.
(** src/de.rs:859-870 *)
Definition when_from_str (s : str) : option when :=
  if str_eqb s (B "auto") then Some WhenAuto
  else if str_eqb s (B "always") then Some WhenAlways
  else if str_eqb s (B "never") then Some WhenNever
  else None.

(** src/de.rs:872-881 *)
Inductive frequency := FreqAlways | FreqNever.
(** src/de.rs:883-890 *)
Definition frequency_as_str (c : frequency) : str :=
  match c with FreqAlways => B "always" | FreqNever => B "never" end.
(** src/de.rs:898-908 *)
Definition frequency_from_str (s : str) : option frequency :=
  if str_eqb s (B "always") then Some FreqAlways
  else if str_eqb s (B "never") then Some FreqNever
  else None.

(** ** Lists *)

(** src/de.rs:1116-1120 [StringListDeserializedRepr]. *)
Inductive repr := ReprString | ReprArray.

(** src/de.rs:1122-1127 [StringListDeserializedRepr::as_str]. *)
Definition repr_as_str (r : repr) : str :=
  match r with ReprString => B "string" | ReprArray => B "array" end.

(** src/de.rs:911-918 [Flags]. *)
Record flags := mkFlags {
  fl_flags : list (value str);
  fl_repr : repr
}.

(** Tags every word with one definition. *)
Definition with_def (d : option definition) (ws : list str) : list (value str) :=
  map (fun w => mkValue w d) ws.

(** src/de.rs:929-937 [Flags::from_encoded]. *)
Definition flags_from_encoded (s : value str) : flags :=
  mkFlags (with_def (def s) (split_encoded (val s))) ReprArray.

(** src/de.rs:959-966 [Flags::from_space_separated]. *)
Definition flags_from_space_separated (s : str) (d : option definition) : flags :=
  mkFlags (with_def d (split_space_separated s)) ReprString.

(** src/de.rs:968-970 [Flags::from_array]. *)
Definition flags_from_array (l : list (value str)) : flags := mkFlags l ReprArray.

(** src/de.rs:1026-1034 [PathAndArgs] (the newtype [ConfigRelativePath],
    src/de.rs:989-991, is its inner value). *)
Record path_and_args := mkPathAndArgs {
  pa_path : value str;
  pa_args : list (value str);
  pa_repr : repr
}.

(** src/de.rs:1037-1045 [PathAndArgs::from_string]. *)
Definition pa_from_string (s : str) (d : option definition) : option path_and_args :=
  match split_space_separated s with
  | [] => None
  | w :: ws => Some (mkPathAndArgs (mkValue w d) (with_def d ws) ReprString)
  end.

(** src/de.rs:1046-1056 [PathAndArgs::from_array]. *)
Definition pa_from_array (l : list (value str)) : option path_and_args :=
  match l with
  | [] => None
  | v :: vs => Some (mkPathAndArgs v vs ReprArray)
  end.

(** src/de.rs:1018-1020 [ConfigRelativePath::resolve_program]. *)
Definition resolve_program {E} (v : value str) (current_dir : path) : res E path :=
  resolve_as_program_path v current_dir.

(** src/de.rs:1107-1114 [StringList]. *)
Record string_list := mkStringList {
  sl_list : list (value str);
  sl_repr : repr
}.

(** src/de.rs:1131-1138 [StringList::from_string]. *)
Definition sl_from_string (s : str) (d : option definition) : string_list :=
  mkStringList (with_def d (split_space_separated s)) ReprString.
(** src/de.rs:1139-1141 [StringList::from_array]. *)
Definition sl_from_array (l : list (value str)) : string_list := mkStringList l ReprArray.

(** src/de.rs:1180-1187 [StringOrArray]. *)
Inductive string_or_array :=
| SoaString (v : value str)
| SoaArray (l : list (value str)).

(** src/de.rs:1190-1195 [StringOrArray::kind]. *)
Definition soa_kind (s : string_or_array) : str :=
  match s with SoaString _ => B "string" | SoaArray _ => B "array" end.

(** src/de.rs:1209-1214 [StringOrArray::as_array_no_split]. *)
Definition as_array_no_split (s : string_or_array) : list (value str) :=
  match s with SoaString v => [v] | SoaArray l => l end.

(** src/de.rs:434-450 [EnvConfigValue]. *)
Inductive env_config_value :=
| EnvValue (v : value str)
| EnvTable (v : value str) (force relative : option (value bool)).

(** src/de.rs:453-458 [EnvConfigValue::kind]. *)
Definition env_kind (e : env_config_value) : str :=
  match e with EnvValue _ => B "string" | EnvTable _ _ _ => B "table" end.

(** src/de.rs:460-472 [EnvConfigValue::resolve]. *)
Definition env_resolve {E} (e : env_config_value) (current_dir : path) : res E str :=
  match e with
  | EnvValue v => Ok (val v)
  | EnvTable v _ relative =>
      match relative with
      | Some r =>
          if val r then
            match def v with
            | Some d => root <- def_root d current_dir ;; Ok (join root (val v))
            | None => Ok (val v)
            end
          else Ok (val v)
      | None => Ok (val v)
      end
  end.

(** ** Tables *)

(** src/de.rs:315-388 [BuildConfig]. *)
Record build_config := mkBuild {
  b_jobs : option (value Z);
  b_rustc : option (value str);
  b_rustc_wrapper : option (value str);
  b_rustc_workspace_wrapper : option (value str);
  b_rustdoc : option (value str);
  b_target : option string_or_array;
  b_target_dir : option (value str);
  b_rustflags : option flags;
  b_rustdocflags : option flags;
  b_incremental : option (value bool);
  b_dep_info_basedir : option (value str);
  b_override_target_rustflags : bool;
  b_override_target_rustdocflags : bool
}.
Definition build_default : build_config :=
  mkBuild None None None None None None None None None None None false false.

(** src/de.rs:390-417 [TargetConfig]. *)
Record target_config := mkTarget {
  t_linker : option (value str);
  t_runner : option path_and_args;
  t_rustflags : option flags;
  t_rustdocflags : option flags
}.
Definition target_default : target_config := mkTarget None None None None.

(** src/de.rs:419-432 [DocConfig]. *)
Record doc_config := mkDoc { d_browser : option path_and_args }.
Definition doc_default : doc_config := mkDoc None.

(** src/de.rs:475-487 [FutureIncompatReportConfig]. *)
Record future_incompat := mkFuture { f_frequency : option (value frequency) }.
Definition future_default : future_incompat := mkFuture None.

(** src/de.rs:489-501 [CargoNewConfig]. *)
Record cargo_new := mkCargoNew { cn_vcs : option (value vcs) }.
Definition cargo_new_default : cargo_new := mkCargoNew None.

(** src/de.rs:547-607 [HttpConfig]. *)
Record http_config := mkHttp {
  h_debug : option (value bool);
  h_proxy : option (value str);
  h_timeout : option (value N);
  h_cainfo : option (value str);
  h_check_revoke : option (value bool);
  h_low_speed_limit : option (value N);
  h_multiplexing : option (value bool);
  h_user_agent : option (value str)
}.
Definition http_default : http_config := mkHttp None None None None None None None None.

(** src/de.rs:609-636 [NetConfig]. *)
Record net_config := mkNet {
  n_retry : option (value N);
  n_git_fetch_with_cli : option (value bool);
  n_offline : option (value bool)
}.
Definition net_default : net_config := mkNet None None None.

(** src/de.rs:638-665 [RegistriesConfigValue]. *)
Record registries_value := mkRegistries {
  r_index : option (value str);
  r_token : option (value str);
  r_protocol : option (value protocol)
}.
Definition registries_default : registries_value := mkRegistries None None None.

(** src/de.rs:708-732 [RegistryConfig]. *)
Record registry_config := mkRegistry {
  rg_default : option (value str);
  rg_token : option (value str)
}.
Definition registry_default : registry_config := mkRegistry None None.

(** src/de.rs:774-788 [TermProgress]. *)
Record term_progress := mkProgress {
  p_when : option (value when);
  p_width : option (value N)
}.
Definition progress_default : term_progress := mkProgress None None.

(** src/de.rs:747-772 [TermConfig]. *)
Record term_config := mkTerm {
  tm_quiet : option (value bool);
  tm_verbose : option (value bool);
  tm_color : option (value color);
  tm_progress : term_progress
}.
Definition term_default : term_config := mkTerm None None None progress_default.

(** src/de.rs:32-115 [Config]. *)
Record config := mkConfig {
  c_alias : bmap string_list;
  c_build : build_config;
  c_doc : doc_config;
  c_env : bmap env_config_value;
  c_future_incompat_report : future_incompat;
  c_cargo_new : cargo_new;
  c_http : http_config;
  c_net : net_config;
  c_registries : bmap registries_value;
  c_registry : registry_config;
  c_target : bmap target_config;
  c_term : term_config
}.
Definition config_default : config :=
  mkConfig [] build_default doc_default [] future_default cargo_new_default
           http_default net_default [] registry_default [] term_default.
