(** Deserialization and serialization of the types of src/de.rs on value trees.

    TOML text is not modelled: [toml_edit::de::from_str] is split into text
    parsing (an oracle that yields a tree or fails) and the serde visitors
    below.  All failures of the latter are [toml_edit::de::Error], so [None] is
    enough.  The derived visitors accept

    - a struct from a table (unknown keys ignored, missing [Option] fields are
      [None], missing [serde(default)] fields take the default), and, as all
      derived struct visitors do, from an array read positionally;
    - a unit enum from a string, and from a table with the variant as its only
      key and an empty table or array as value ([toml_edit]'s [deserialize_enum]);
    - a date-time as a table with one reserved key. *)
From Verif.Model Require Import Base Str Path BMap Error Value De.

Inductive toml :=
| TomlBool (b : bool)
| TomlInt (z : Z)
| TomlFloat (s : str)
| TomlStr (s : str)
| TomlDate (s : str)
| TomlArr (l : list toml)
| TomlTab (l : list (str * toml)).

(** ** Scalars *)
Definition de_bool (t : toml) : option bool :=
  match t with TomlBool b => Some b | _ => None end.
Definition de_string (t : toml) : option str :=
  match t with TomlStr s => Some s | _ => None end.
Definition de_i32 (t : toml) : option Z :=
  match t with
  | TomlInt z => if (Z.leb (-2147483648) z && Z.leb z 2147483647)%bool then Some z else None
  | _ => None
  end.
Definition de_u32 (t : toml) : option N :=
  match t with
  | TomlInt z => if (Z.leb 0 z && Z.leb z 4294967295)%bool then Some (Z.to_N z) else None
  | _ => None
  end.
Definition de_enum {A} (variants : str -> option A) (t : toml) : option A :=
  match t with
  | TomlStr s => variants s
  | TomlTab [(k, TomlArr [])] | TomlTab [(k, TomlTab [])] => variants k
  | _ => None
  end.

(** ** Enumerations: derived names *)

(** serde's [rename_all = "kebab-case"] for variants: a hyphen before every capital
    letter but the first, then lower case. *)
Definition lower_byte (c : ascii) : ascii :=
  if in_range 65 90 (nb c) then byte_of (nb c + 32) else c.
Fixpoint kebab_rest (s : str) : str :=
  match s with
  | [] => []
  | c :: t => if in_range 65 90 (nb c) then "-"%char :: lower_byte c :: kebab_rest t
              else c :: kebab_rest t
  end.
Definition kebab_case (s : str) : str :=
  match s with [] => [] | c :: t => lower_byte c :: kebab_rest t end.

(** The variants of an enumeration in order: name in the source, [serde(rename)]. *)
Record variant A := mkVariant { va_name : string; va_rename : option string; va_value : A }.
Arguments mkVariant {A}. Arguments va_name {A}. Arguments va_rename {A}. Arguments va_value {A}.
Definition serde_name {A} (v : variant A) : str :=
  match va_rename v with Some r => B r | None => kebab_case (B (va_name v)) end.
Fixpoint variant_named {A} (vs : list (variant A)) (s : str) : option A :=
  match vs with
  | [] => None
  | v :: t => if str_eqb s (serde_name v) then Some (va_value v) else variant_named t s
  end.

(** src/de.rs:503-518 *)
Definition vcs_variant (v : vcs) : variant vcs :=
  match v with
  | VcsGit => mkVariant "Git" None v
  | VcsMercurial => mkVariant "Mercurial" (Some "hg"%string) v
  | VcsPijul => mkVariant "Pijul" None v
  | VcsFossil => mkVariant "Fossil" None v
  | VcsNone => mkVariant "None" None v
  end.
Definition vcs_variants := map vcs_variant [VcsGit; VcsMercurial; VcsPijul; VcsFossil; VcsNone].
(** src/de.rs:684-694 *)
Definition protocol_variant (v : protocol) : variant protocol :=
  match v with ProtoGit => mkVariant "Git" None v | ProtoSparse => mkVariant "Sparse" None v end.
Definition protocol_variants := map protocol_variant [ProtoGit; ProtoSparse].
(** src/de.rs:790-800 *)
Definition color_variant (v : color) : variant color :=
  match v with
  | ColorAuto => mkVariant "Auto" None v
  | ColorAlways => mkVariant "Always" None v
  | ColorNever => mkVariant "Never" None v
  end.
Definition color_variants := map color_variant [ColorAuto; ColorAlways; ColorNever].
(** src/de.rs:831-841 *)
Definition when_variant (v : when) : variant when :=
  match v with
  | WhenAuto => mkVariant "Auto" None v
  | WhenAlways => mkVariant "Always" None v
  | WhenNever => mkVariant "Never" None v
  end.
Definition when_variants := map when_variant [WhenAuto; WhenAlways; WhenNever].
(** src/de.rs:872-881 *)
Definition frequency_variant (v : frequency) : variant frequency :=
  match v with FreqAlways => mkVariant "Always" None v | FreqNever => mkVariant "Never" None v end.
Definition frequency_variants := map frequency_variant [FreqAlways; FreqNever].

(** src/value.rs:17-26 [Value<T>] is transparent; the definition is skipped. *)
Definition de_value {A} (f : toml -> option A) (t : toml) : option (value A) :=
  match f t with Some a => Some (mkValue a None) | None => None end.
Definition de_vstr := de_value de_string.
Definition de_vbool := de_value de_bool.
Definition de_vu32 := de_value de_u32.

Fixpoint de_list {A} (f : toml -> option A) (l : list toml) : option (list A) :=
  match l with
  | [] => Some []
  | t :: ts => match f t, de_list f ts with
               | Some a, Some r => Some (a :: r)
               | _, _ => None
               end
  end.

(** ** Structs *)
Definition date_key : str := B "$__toml_private_datetime".

Fixpoint tget (k : str) (l : list (str * toml)) : option toml :=
  match l with
  | [] => None
  | (k', v) :: t => if str_eqb k k' then Some v else tget k t
  end.

(** What a struct visitor is given: key/value pairs or a sequence. *)
Inductive fields :=
| FMap (l : list (str * toml))
| FSeq (l : list toml).
Definition as_fields (t : toml) : option fields :=
  match t with
  | TomlTab l => Some (FMap l)
  | TomlDate s => Some (FMap [(date_key, TomlStr s)])
  | TomlArr l => Some (FSeq l)
  | _ => None
  end.

(** An [Option] field at position [i] with key [k]. *)
Definition fopt {A} (src : fields) (i : nat) (k : str) (f : toml -> option A)
  : option (option A) :=
  match src with
  | FMap l => match tget k l with
              | None => Some None
              | Some t => match f t with Some a => Some (Some a) | None => None end
              end
  | FSeq l => match nth_error l i with
              | None => None
              | Some t => match f t with Some a => Some (Some a) | None => None end
              end
  end.

(** A [serde(default)] field. *)
Definition fdef {A} (src : fields) (i : nat) (k : str) (d : A) (f : toml -> option A)
  : option A :=
  match src with
  | FMap l => match tget k l with None => Some d | Some t => f t end
  | FSeq l => match nth_error l i with None => Some d | Some t => f t end
  end.

Notation "'let?' x ':=' e 'in' k" :=
  (match e with Some x => k | None => None end)
  (at level 200, x pattern, e at level 100, k at level 200).

(** ** Maps: [BTreeMap<String, V>] *)
Fixpoint de_entries {V} (f : toml -> option V) (l : list (str * toml))
  : option (list (str * V)) :=
  match l with
  | [] => Some []
  | (k, t) :: ts => match f t, de_entries f ts with
                    | Some v, Some r => Some ((k, v) :: r)
                    | _, _ => None
                    end
  end.
Definition de_map {V} (f : toml -> option V) (t : toml) : option (bmap V) :=
  match t with
  | TomlTab l => option_map bfrom_list (de_entries f l)
  | TomlDate s => option_map bfrom_list (de_entries f [(date_key, TomlStr s)])
  | _ => None
  end.

(** ** Strings or arrays *)

(** src/de.rs:1182-1187 [StringOrArray] (untagged). *)
Definition de_soa (t : toml) : option string_or_array :=
  match t with
  | TomlStr s => Some (SoaString (mkValue s None))
  | TomlArr l => option_map SoaArray (de_list de_vstr l)
  | _ => None
  end.

(** src/de.rs:973-986 [Flags]. *)
Definition de_flags (t : toml) : option flags :=
  match de_soa t with
  | Some (SoaString s) => Some (flags_from_space_separated (val s) (def s))
  | Some (SoaArray v) => Some (flags_from_array v)
  | None => None
  end.

(** src/de.rs:1082-1105 [PathAndArgs]. *)
Definition de_path_and_args (t : toml) : option path_and_args :=
  match t with
  | TomlStr s => pa_from_string s None
  | TomlArr l => match de_list de_vstr l with Some v => pa_from_array v | None => None end
  | _ => None
  end.

(** src/de.rs:1167-1178 [StringList]. *)
Definition de_string_list (t : toml) : option string_list :=
  match de_soa t with
  | Some (SoaString s) => Some (sl_from_string (val s) (def s))
  | Some (SoaArray v) => Some (sl_from_array v)
  | None => None
  end.

(** src/de.rs:438-450 [EnvConfigValue] (untagged; the struct variant is only read
    from a map). *)
Definition de_env_config_value (t : toml) : option env_config_value :=
  match t with
  | TomlStr s => Some (EnvValue (mkValue s None))
  | TomlTab l =>
      match tget (B "value") l with
      | None => None
      | Some tv =>
          let? v := de_vstr tv in
          let? f := fopt (FMap l) 1 (B "force") de_vbool in
          let? r := fopt (FMap l) 2 (B "relative") de_vbool in
          Some (EnvTable v f r)
      end
  | _ => None
  end.

(** ** Tables *)

(** src/de.rs:318-388 *)
Definition de_build (t : toml) : option build_config :=
  let? s := as_fields t in
  let? jobs := fopt s 0 (B "jobs") (de_value de_i32) in
  let? rustc := fopt s 1 (B "rustc") de_vstr in
  let? rustc_wrapper := fopt s 2 (B "rustc-wrapper") de_vstr in
  let? rustc_workspace_wrapper := fopt s 3 (B "rustc-workspace-wrapper") de_vstr in
  let? rustdoc := fopt s 4 (B "rustdoc") de_vstr in
  let? target := fopt s 5 (B "target") de_soa in
  let? target_dir := fopt s 6 (B "target-dir") de_vstr in
  let? rustflags := fopt s 7 (B "rustflags") de_flags in
  let? rustdocflags := fopt s 8 (B "rustdocflags") de_flags in
  let? incremental := fopt s 9 (B "incremental") de_vbool in
  let? dep_info_basedir := fopt s 10 (B "dep-info-basedir") de_vstr in
  Some (mkBuild jobs rustc rustc_wrapper rustc_workspace_wrapper rustdoc target target_dir
          rustflags rustdocflags incremental dep_info_basedir false false).

(** src/de.rs:394-417 *)
Definition de_target (t : toml) : option target_config :=
  let? s := as_fields t in
  let? linker := fopt s 0 (B "linker") de_vstr in
  let? runner := fopt s 1 (B "runner") de_path_and_args in
  let? rustflags := fopt s 2 (B "rustflags") de_flags in
  let? rustdocflags := fopt s 3 (B "rustdocflags") de_flags in
  Some (mkTarget linker runner rustflags rustdocflags).

(** src/de.rs:422-432 *)
Definition de_doc (t : toml) : option doc_config :=
  let? s := as_fields t in
  let? browser := fopt s 0 (B "browser") de_path_and_args in
  Some (mkDoc browser).

(** src/de.rs:478-487; variants src/de.rs:872-881. *)
Definition de_future (t : toml) : option future_incompat :=
  let? s := as_fields t in
  let? frequency := fopt s 0 (B "frequency") (de_value (de_enum (variant_named frequency_variants))) in
  Some (mkFuture frequency).

(** src/de.rs:492-501; variants src/de.rs:503-518. *)
Definition de_cargo_new (t : toml) : option cargo_new :=
  let? s := as_fields t in
  let? vcs := fopt s 0 (B "vcs") (de_value (de_enum (variant_named vcs_variants))) in
  Some (mkCargoNew vcs).

(** src/de.rs:550-607 *)
Definition de_http (t : toml) : option http_config :=
  let? s := as_fields t in
  let? debug := fopt s 0 (B "debug") de_vbool in
  let? proxy := fopt s 1 (B "proxy") de_vstr in
  let? timeout := fopt s 2 (B "timeout") de_vu32 in
  let? cainfo := fopt s 3 (B "cainfo") de_vstr in
  let? check_revoke := fopt s 4 (B "check-revoke") de_vbool in
  let? low_speed_limit := fopt s 5 (B "low-speed-limit") de_vu32 in
  let? multiplexing := fopt s 6 (B "multiplexing") de_vbool in
  let? user_agent := fopt s 7 (B "user-agent") de_vstr in
  Some (mkHttp debug proxy timeout cainfo check_revoke low_speed_limit multiplexing user_agent).

(** src/de.rs:612-636 *)
Definition de_net (t : toml) : option net_config :=
  let? s := as_fields t in
  let? retry := fopt s 0 (B "retry") de_vu32 in
  let? git := fopt s 1 (B "git-fetch-with-cli") de_vbool in
  let? offline := fopt s 2 (B "offline") de_vbool in
  Some (mkNet retry git offline).

(** src/de.rs:641-664; variants src/de.rs:684-694. *)
Definition de_registries (t : toml) : option registries_value :=
  let? s := as_fields t in
  let? index := fopt s 0 (B "index") de_vstr in
  let? token := fopt s 1 (B "token") de_vstr in
  let? protocol := fopt s 2 (B "protocol") (de_value (de_enum (variant_named protocol_variants))) in
  Some (mkRegistries index token protocol).

(** src/de.rs:711-732 *)
Definition de_registry (t : toml) : option registry_config :=
  let? s := as_fields t in
  let? default := fopt s 0 (B "default") de_vstr in
  let? token := fopt s 1 (B "token") de_vstr in
  Some (mkRegistry default token).

(** src/de.rs:774-788; variants src/de.rs:831-841. *)
Definition de_progress (t : toml) : option term_progress :=
  let? s := as_fields t in
  let? when := fopt s 0 (B "when") (de_value (de_enum (variant_named when_variants))) in
  let? width := fopt s 1 (B "width") de_vu32 in
  Some (mkProgress when width).

(** src/de.rs:750-772; variants src/de.rs:790-800. *)
Definition de_term (t : toml) : option term_config :=
  let? s := as_fields t in
  let? quiet := fopt s 0 (B "quiet") de_vbool in
  let? verbose := fopt s 1 (B "verbose") de_vbool in
  let? color := fopt s 2 (B "color") (de_value (de_enum (variant_named color_variants))) in
  let? progress := fdef s 3 (B "progress") progress_default de_progress in
  Some (mkTerm quiet verbose color progress).

(** src/de.rs:34-115 *)
Definition de_config (t : toml) : option config :=
  let? s := as_fields t in
  let? alias := fdef s 0 (B "alias") [] (de_map de_string_list) in
  let? build := fdef s 1 (B "build") build_default de_build in
  let? doc := fdef s 2 (B "doc") doc_default de_doc in
  let? env := fdef s 3 (B "env") [] (de_map de_env_config_value) in
  let? future := fdef s 4 (B "future-incompat-report") future_default de_future in
  let? cargo_new := fdef s 5 (B "cargo-new") cargo_new_default de_cargo_new in
  let? http := fdef s 6 (B "http") http_default de_http in
  let? net := fdef s 7 (B "net") net_default de_net in
  let? registries := fdef s 8 (B "registries") [] (de_map de_registries) in
  let? registry := fdef s 9 (B "registry") registry_default de_registry in
  let? target := fdef s 10 (B "target") [] (de_map de_target) in
  let? term := fdef s 11 (B "term") term_default de_term in
  Some (mkConfig alias build doc env future cargo_new http net registries registry target term).

(** ** Serialization (derived [Serialize] of the same types) *)

Definition ser_value {A} (f : A -> toml) (v : value A) : toml := f (val v).
(** Unit variants are written as their name. *)
Definition ser_variant {A} (v : variant A) : toml := TomlStr (serde_name v).
Definition ser_vstr := ser_value TomlStr.
Definition ser_vbool := ser_value TomlBool.
Definition ser_n (n : N) : toml := TomlInt (Z.of_N n).
Definition ser_vu32 := ser_value ser_n.

(** [skip_serializing_if = "Option::is_none"] *)
Definition sopt {A} (k : str) (f : A -> toml) (o : option A) : list (str * toml) :=
  match o with Some a => [(k, f a)] | None => [] end.
(** [skip_serializing_if] with a predicate. *)
Definition sskip {A} (k : str) (skip : A -> bool) (f : A -> toml) (a : A) : list (str * toml) :=
  if skip a then [] else [(k, f a)].

Definition ser_map {V} (f : V -> toml) (m : bmap V) : toml :=
  TomlTab (map (fun kv => (fst kv, f (snd kv))) m).
Definition bis_empty {V} (m : bmap V) : bool := match m with [] => true | _ => false end.

(** src/de.rs:911-918: transparent over [flags]. *)
Definition ser_flags (f : flags) : toml := TomlArr (map ser_vstr (fl_flags f)).

(** src/de.rs:1059-1081 *)
Definition ser_path_and_args (p : path_and_args) : toml :=
  match pa_repr p with
  | ReprString =>
      TomlStr (fold_left (fun s a => s ++ sp :: val a) (pa_args p) (val (pa_path p)))
  | ReprArray => TomlArr (TomlStr (val (pa_path p)) :: map ser_vstr (pa_args p))
  end.

(** src/de.rs:1144-1166 *)
Definition ser_string_list (s : string_list) : toml :=
  match sl_repr s with
  | ReprString =>
      TomlStr (fold_left
                 (fun s a => (if is_empty s then s else s ++ [sp]) ++ val a) (sl_list s) [])
  | ReprArray => TomlArr (map ser_vstr (sl_list s))
  end.

(** src/de.rs:1182-1187 *)
Definition ser_soa (s : string_or_array) : toml :=
  match s with
  | SoaString v => ser_vstr v
  | SoaArray l => TomlArr (map ser_vstr l)
  end.

(** src/de.rs:438-450 *)
Definition ser_env_config_value (e : env_config_value) : toml :=
  match e with
  | EnvValue v => ser_vstr v
  | EnvTable v f r =>
      TomlTab ((B "value", ser_vstr v) :: sopt (B "force") ser_vbool f
                 ++ sopt (B "relative") ser_vbool r)
  end.

Definition ser_build (b : build_config) : toml :=
  TomlTab (sopt (B "jobs") (ser_value TomlInt) (b_jobs b)
    ++ sopt (B "rustc") ser_vstr (b_rustc b)
    ++ sopt (B "rustc-wrapper") ser_vstr (b_rustc_wrapper b)
    ++ sopt (B "rustc-workspace-wrapper") ser_vstr (b_rustc_workspace_wrapper b)
    ++ sopt (B "rustdoc") ser_vstr (b_rustdoc b)
    ++ sopt (B "target") ser_soa (b_target b)
    ++ sopt (B "target-dir") ser_vstr (b_target_dir b)
    ++ sopt (B "rustflags") ser_flags (b_rustflags b)
    ++ sopt (B "rustdocflags") ser_flags (b_rustdocflags b)
    ++ sopt (B "incremental") ser_vbool (b_incremental b)
    ++ sopt (B "dep-info-basedir") ser_vstr (b_dep_info_basedir b)).
(** src/gen/is_none.rs:57-65 *)
Definition build_is_none (b : build_config) : bool :=
  (is_none (b_jobs b) && is_none (b_rustc b) && is_none (b_rustc_wrapper b)
   && is_none (b_rustc_workspace_wrapper b) && is_none (b_rustdoc b) && is_none (b_target b)
   && is_none (b_target_dir b) && is_none (b_rustflags b) && is_none (b_rustdocflags b)
   && is_none (b_incremental b) && is_none (b_dep_info_basedir b))%bool.

Definition ser_target (t : target_config) : toml :=
  TomlTab (sopt (B "linker") ser_vstr (t_linker t)
    ++ sopt (B "runner") ser_path_and_args (t_runner t)
    ++ sopt (B "rustflags") ser_flags (t_rustflags t)
    ++ sopt (B "rustdocflags") ser_flags (t_rustdocflags t)).

Definition ser_doc (d : doc_config) : toml :=
  TomlTab (sopt (B "browser") ser_path_and_args (d_browser d)).
(** src/gen/is_none.rs:66-70 *)
Definition doc_is_none (d : doc_config) : bool := is_none (d_browser d).

Definition ser_future (f : future_incompat) : toml :=
  TomlTab (sopt (B "frequency") (ser_value (fun x => ser_variant (frequency_variant x)))
             (f_frequency f)).
(** src/gen/is_none.rs:71-75 *)
Definition future_is_none (f : future_incompat) : bool := is_none (f_frequency f).

Definition ser_cargo_new (c : cargo_new) : toml :=
  TomlTab (sopt (B "vcs") (ser_value (fun x => ser_variant (vcs_variant x))) (cn_vcs c)).
(** src/gen/is_none.rs:76-80 *)
Definition cargo_new_is_none (c : cargo_new) : bool := is_none (cn_vcs c).

Definition ser_http (h : http_config) : toml :=
  TomlTab (sopt (B "debug") ser_vbool (h_debug h)
    ++ sopt (B "proxy") ser_vstr (h_proxy h)
    ++ sopt (B "timeout") ser_vu32 (h_timeout h)
    ++ sopt (B "cainfo") ser_vstr (h_cainfo h)
    ++ sopt (B "check-revoke") ser_vbool (h_check_revoke h)
    ++ sopt (B "low-speed-limit") ser_vu32 (h_low_speed_limit h)
    ++ sopt (B "multiplexing") ser_vbool (h_multiplexing h)
    ++ sopt (B "user-agent") ser_vstr (h_user_agent h)).
(** src/gen/is_none.rs:81-88 *)
Definition http_is_none (h : http_config) : bool :=
  (is_none (h_debug h) && is_none (h_proxy h) && is_none (h_timeout h) && is_none (h_cainfo h)
   && is_none (h_check_revoke h) && is_none (h_low_speed_limit h)
   && is_none (h_multiplexing h) && is_none (h_user_agent h))%bool.

Definition ser_net (n : net_config) : toml :=
  TomlTab (sopt (B "retry") ser_vu32 (n_retry n)
    ++ sopt (B "git-fetch-with-cli") ser_vbool (n_git_fetch_with_cli n)
    ++ sopt (B "offline") ser_vbool (n_offline n)).
(** src/gen/is_none.rs:89-94 *)
Definition net_is_none (n : net_config) : bool :=
  (is_none (n_retry n) && is_none (n_git_fetch_with_cli n) && is_none (n_offline n))%bool.

Definition ser_registries (r : registries_value) : toml :=
  TomlTab (sopt (B "index") ser_vstr (r_index r)
    ++ sopt (B "token") ser_vstr (r_token r)
    ++ sopt (B "protocol") (ser_value (fun x => ser_variant (protocol_variant x))) (r_protocol r)).

Definition ser_registry (r : registry_config) : toml :=
  TomlTab (sopt (B "default") ser_vstr (rg_default r)
    ++ sopt (B "token") ser_vstr (rg_token r)).
(** src/gen/is_none.rs:95-99 *)
Definition registry_is_none (r : registry_config) : bool :=
  (is_none (rg_default r) && is_none (rg_token r))%bool.

Definition ser_progress (p : term_progress) : toml :=
  TomlTab (sopt (B "when") (ser_value (fun x => ser_variant (when_variant x))) (p_when p)
    ++ sopt (B "width") ser_vu32 (p_width p)).
(** src/gen/is_none.rs:106-110 *)
Definition progress_is_none (p : term_progress) : bool :=
  (is_none (p_when p) && is_none (p_width p))%bool.

Definition ser_term (t : term_config) : toml :=
  TomlTab (sopt (B "quiet") ser_vbool (tm_quiet t)
    ++ sopt (B "verbose") ser_vbool (tm_verbose t)
    ++ sopt (B "color") (ser_value (fun x => ser_variant (color_variant x))) (tm_color t)
    ++ sskip (B "progress") progress_is_none ser_progress (tm_progress t)).
(** src/gen/is_none.rs:100-105 *)
Definition term_is_none (t : term_config) : bool :=
  (is_none (tm_quiet t) && is_none (tm_verbose t) && is_none (tm_color t)
   && progress_is_none (tm_progress t))%bool.

(** src/de.rs:34-115 *)
Definition ser_config (c : config) : toml :=
  TomlTab (sskip (B "alias") bis_empty (ser_map ser_string_list) (c_alias c)
    ++ sskip (B "build") build_is_none ser_build (c_build c)
    ++ sskip (B "doc") doc_is_none ser_doc (c_doc c)
    ++ sskip (B "env") bis_empty (ser_map ser_env_config_value) (c_env c)
    ++ sskip (B "future-incompat-report") future_is_none ser_future (c_future_incompat_report c)
    ++ sskip (B "cargo-new") cargo_new_is_none ser_cargo_new (c_cargo_new c)
    ++ sskip (B "http") http_is_none ser_http (c_http c)
    ++ sskip (B "net") net_is_none ser_net (c_net c)
    ++ sskip (B "registries") bis_empty (ser_map ser_registries) (c_registries c)
    ++ sskip (B "registry") registry_is_none ser_registry (c_registry c)
    ++ sskip (B "target") bis_empty (ser_map ser_target) (c_target c)
    ++ sskip (B "term") term_is_none ser_term (c_term c)).
