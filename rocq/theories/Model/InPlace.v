(** [Merge], [SetPath] and [is_none] as the code does them: statement by statement, changing
    [*self] in place.  The bodies of the generated implementations are the given list of
    [impl]s; those of src/merge.rs and src/value.rs are written out.  [Model/Merge.v] and
    [Model/SetPath.v] have the same as functions. *)
From Verif.Model Require Import Base Str Path BMap Error Value De EasyTypes Debug SetPath Codegen.

(** [self.merge(low, force)]: the result and [*self] afterwards. *)
Definition merger (A : Type) := A -> A -> bool -> result unit * A.

(** src/merge.rs:31-36, 39-44 *)
Definition in_leaf {A} : merger A := fun this low force => (Ok tt, if force then low else this).
(** src/merge.rs:58-67 *)
Definition in_option {A} (m : merger A) : merger (option A) := fun this low force =>
  match this, low with
  | _, None => (Ok tt, this)
  | None, _ => (Ok tt, low)
  | Some t, Some l => let (r, t') := m t l force in (r, Some t')
  end.
(** [bail!("expected {}, but found {}", ..)] *)
Definition mixed {A} (expected actual : str) (this : A) : result unit * A :=
  (bail (B "expected " ++ expected ++ B ", but found " ++ actual), this).
(** src/merge.rs:68-88 *)
Definition in_string_or_array : merger string_or_array := fun this low force =>
  match this, low with
  | SoaString _, SoaString _ => (Ok tt, if force then low else this)
  | SoaArray t, SoaArray l => (Ok tt, SoaArray (l ++ t))
  | _, _ => mixed (soa_kind this) (soa_kind low) this
  end.
(** src/merge.rs:89-117 *)
Definition in_path_and_args : merger path_and_args := fun this low force =>
  match pa_repr this, pa_repr low with
  | ReprString, ReprString => (Ok tt, if force then low else this)
  | ReprArray, ReprArray =>
      let pushed := mkPathAndArgs (pa_path this) (pa_args this ++ [pa_path low]) (pa_repr this) in
      (Ok tt, mkPathAndArgs (pa_path pushed) (pa_args pushed ++ pa_args low) (pa_repr pushed))
  | e, a => mixed (repr_as_str e) (repr_as_str a) this
  end.
(** src/merge.rs:118-138 *)
Definition in_string_list : merger string_list := fun this low force =>
  match sl_repr this, sl_repr low with
  | ReprString, ReprString => (Ok tt, if force then low else this)
  | ReprArray, ReprArray => (Ok tt, mkStringList (sl_list low ++ sl_list this) (sl_repr this))
  | e, a => mixed (repr_as_str e) (repr_as_str a) this
  end.
(** src/merge.rs:162-182 *)
Definition in_flags : merger flags := fun this low force =>
  match fl_repr this, fl_repr low with
  | ReprString, ReprString => (Ok tt, if force then low else this)
  | ReprArray, ReprArray => (Ok tt, mkFlags (fl_flags low ++ fl_flags this) (fl_repr this))
  | e, a => mixed (repr_as_str e) (repr_as_str a) this
  end.

(** Statements ending in [?], one after the other. *)
Fixpoint in_order {A} (l : list (merger A)) : merger A := fun this low force =>
  match l with
  | [] => (Ok tt, this)
  | m :: rest =>
      match m this low force with
      | (Ok _, this') => in_order rest this' low force
      | (Err e, this') => (Err e, this')
      | (Panic p, this') => (Panic p, this')
      end
  end.
(** A statement about a part of the value. *)
Definition on_part {A P} (get : A -> P) (set : A -> P -> A) (m : merger P) : merger A :=
  fun this low force =>
    let (r, p) := m (get this) (get low) force in (r, set this p).

(** src/merge.rs:139-161 *)
Definition table_value (e : env_config_value) : value str :=
  match e with EnvValue v | EnvTable v _ _ => v end.
Definition table_force (e : env_config_value) : option (value bool) :=
  match e with EnvValue _ => None | EnvTable _ f _ => f end.
Definition table_relative (e : env_config_value) : option (value bool) :=
  match e with EnvValue _ => None | EnvTable _ _ r => r end.
Definition set_table_value (e : env_config_value) (v : value str) : env_config_value :=
  match e with EnvValue _ => e | EnvTable _ f r => EnvTable v f r end.
Definition set_table_force (e : env_config_value) (f : option (value bool)) : env_config_value :=
  match e with EnvValue _ => e | EnvTable v _ r => EnvTable v f r end.
Definition set_table_relative (e : env_config_value) (r : option (value bool)) : env_config_value :=
  match e with EnvValue _ => e | EnvTable v f _ => EnvTable v f r end.
Definition in_env_config_value : merger env_config_value := fun this low force =>
  match this, low with
  | EnvValue _, EnvValue _ => (Ok tt, if force then low else this)
  | EnvTable _ _ _, EnvTable _ _ _ =>
      in_order [on_part table_value set_table_value in_leaf;
                on_part table_force set_table_force (in_option in_leaf);
                on_part table_relative set_table_relative (in_option in_leaf)] this low force
  | _, _ => mixed (env_kind this) (env_kind low) this
  end.

(** src/merge.rs:183-203: the message shows the entry as it is after the failure. *)
Fixpoint in_map_loop {V} (m : merger V) (d : V -> dbg) (low this : bmap V) (force : bool)
  : result unit * bmap V :=
  match low with
  | [] => (Ok tt, this)
  | (key, value) :: rest =>
      match bget key this with
      | Some entry =>
          match m entry value force with
          | (Ok _, entry') => in_map_loop m d rest (binsert key entry' this) force
          | (Err e, entry') =>
              (with_context (MMergeKey key (d entry') (d value)) (Err e), binsert key entry' this)
          | (Panic p, entry') => (Panic p, binsert key entry' this)
          end
      | None => in_map_loop m d rest (binsert key value this) force
      end
  end.
Definition in_map {V} (m : merger V) (d : V -> dbg) : merger (bmap V) := fun this low force =>
  in_map_loop m d low this force.

(** The methods a type has.  [None]: the type has no such method, and a call of it does not
    compile. *)
Record methods (A : Type) := mkMethods {
  mt_merge : option (merger A);
  mt_set_path : option (path -> A -> A);
  mt_is_none : option (A -> bool)
}.
Arguments mkMethods {A}.
Arguments mt_merge {A}.
Arguments mt_set_path {A}.
Arguments mt_is_none {A}.
Definition no_methods {A} : methods A := mkMethods None None None.
(** src/merge.rs:38-45, src/value.rs:143-147 *)
Definition of_value {A} : methods (value A) := mkMethods (Some in_leaf) (Some set_path_value) None.
(** src/merge.rs:58-67, src/value.rs:122-128, [Option::is_none] *)
Definition of_option {A} (m : methods A) : methods (option A) :=
  mkMethods (option_map in_option (mt_merge m)) (option_map sp_opt (mt_set_path m)) (Some is_none).
(** src/value.rs:129-135 *)
Definition of_list {A} (m : methods A) : methods (list A) :=
  mkMethods None (option_map sp_list (mt_set_path m)) None.
(** src/merge.rs:183-203, src/value.rs:136-142 *)
Definition of_map {A} (d : A -> dbg) (m : methods A) : methods (bmap A) :=
  mkMethods (option_map (fun f => in_map f d) (mt_merge m)) (option_map sp_map (mt_set_path m)) None.

(** A field: how it is read and written, and the methods of its type. *)
Record member (T : Type) := mkMember {
  mb_name : str;
  mb_type : Type;
  mb_get : T -> mb_type;
  mb_set : T -> mb_type -> T;
  mb_methods : methods mb_type
}.
Arguments mkMember {T} mb_name {mb_type}.
Arguments mb_name {T}.
Arguments mb_type {T}.
Arguments mb_get {T}.
Arguments mb_set {T}.
Arguments mb_methods {T}.

(** The statements of a body; [None] if one of them does not compile. *)
Fixpoint find_member {T} (n : str) (ms : list (member T)) : option (member T) :=
  match ms with
  | [] => None
  | m :: rest => if str_eqb n (mb_name m) then Some m else find_member n rest
  end.
Definition call_with {T R} (ms : list (member T)) (f : member T -> option R) (n : str) : option R :=
  match find_member n ms with Some m => f m | None => None end.
(** [self.f.merge(low.f, force)?;] *)
Definition merge_call {T} (m : member T) : option (merger T) :=
  option_map (on_part (mb_get m) (mb_set m)) (mt_merge (mb_methods m)).
(** [self.f.set_path(path);] *)
Definition set_path_call {T} (m : member T) : option (path -> T -> T) :=
  option_map (fun f p x => mb_set m x (f p (mb_get m x))) (mt_set_path (mb_methods m)).
(** [self.f.is_none()] *)
Definition is_none_call {T} (m : member T) : option (T -> bool) :=
  option_map (fun f x => f (mb_get m x)) (mt_is_none (mb_methods m)).

Definition all_paths {T} (l : list (path -> T -> T)) : path -> T -> T :=
  fun p x => fold_left (fun y f => f p y) l x.
(** [a && b && ..] *)
Definition all_none {T} (l : list (T -> bool)) : T -> bool := fun x => forallb (fun f => f x) l.

Fixpoint find_impl {R} (f : impl -> option R) (file : list impl) : option R :=
  match file with
  | [] => None
  | i :: rest => match f i with Some r => Some r | None => find_impl f rest end
  end.
Definition body {T R} (ms : list (member T)) (f : member T -> option R) (calls : list str)
  : option (list R) := all_some (map (call_with ms f) calls).
Definition struct_merge {T} (file : list impl) (ty : str) (ms : list (member T)) : option (merger T) :=
  match find_impl (fun i => match i with
                            | ImplMerge t calls => if str_eqb t ty then Some calls else None
                            | _ => None
                            end) file with
  | Some calls => option_map in_order (body ms merge_call calls)
  | None => None
  end.
Definition struct_set_path {T} (file : list impl) (ty : str) (ms : list (member T))
  : option (path -> T -> T) :=
  match find_impl (fun i => match i with
                            | ImplSetPath t calls => if str_eqb t ty then Some calls else None
                            | _ => None
                            end) file with
  | Some calls => option_map all_paths (body ms set_path_call calls)
  | None => None
  end.
Definition struct_is_none {T} (file : list impl) (ty : str) (ms : list (member T)) : option (T -> bool) :=
  match find_impl (fun i => match i with
                            | ImplIsNone t calls => if str_eqb t ty then Some calls else None
                            | _ => None
                            end) file with
  | Some [] => None
  | Some calls => option_map all_none (body ms is_none_call calls)
  | None => None
  end.
Definition of_struct {T} (file : list impl) (ty : str) (ms : list (member T)) : methods T :=
  mkMethods (struct_merge file ty ms) (struct_set_path file ty ms) (struct_is_none file ty ms).
(** [self.0.set_path(path)] *)
Definition inner_set_path {T} (file : list impl) (ty : str) (inner : methods T)
  : option (path -> T -> T) :=
  match find_impl (fun i => match i with
                            | ImplSetPathInner t => if str_eqb t ty then Some tt else None
                            | _ => None
                            end) file with
  | Some _ => mt_set_path inner
  | None => None
  end.

(** [match self { .. }]: the fields of every variant, an unnamed one being ["0"]. *)
Definition arm_paths {T} (vs : list (str * list (member T))) (a : arm) : option (str * (path -> T -> T)) :=
  let members v := match find (fun x => str_eqb (fst x) v) vs with Some x => snd x | None => [] end in
  match a with
  | ArmNamed v pat calls =>
      (** the pattern has no [..] *)
      if (forallb (fun c => str_mem c pat) calls
          && forallb (fun m => str_mem (mb_name m) pat) (members v))%bool
      then option_map (fun l => (v, all_paths l)) (body (members v) set_path_call calls)
      else None
  | ArmUnnamed v => option_map (fun l => (v, all_paths l)) (body (members v) set_path_call [B "0"])
  end.
Definition match_set_path {T} (file : list impl) (ty : str) (variant : T -> str)
  (vs : list (str * list (member T))) : option (path -> T -> T) :=
  match find_impl (fun i => match i with
                            | ImplSetPathMatch t arms => if str_eqb t ty then Some arms else None
                            | _ => None
                            end) file with
  | Some arms =>
      match all_some (map (arm_paths vs) arms) with
      | Some l =>
          (** every variant has an arm *)
          if forallb (fun v => existsb (fun a => str_eqb (fst a) (fst v)) l) vs
          then Some (fun p x =>
                       match find (fun a => str_eqb (fst a) (variant x)) l with
                       | Some a => snd a p x
                       | None => x
                       end)
          else None
      | None => None
      end
  | None => None
  end.

(** ** The types of src/de.rs *)

(** src/de.rs:991 *)
Definition of_config_relative_path (file : list impl) : methods (value str) :=
  mkMethods None (inner_set_path file (B "de::ConfigRelativePath") of_value) None.
(** src/de.rs:913-918 *)
Definition flags_members : list (member flags) :=
  [ mkMember (B "flags") fl_flags
      (fun x a => mkFlags a (fl_repr x))
      (of_list of_value);
    mkMember (B "deserialized_repr") fl_repr
      (fun x a => mkFlags (fl_flags x) a)
      no_methods ].
Definition of_flags (file : list impl) : methods flags :=
  mkMethods (Some in_flags) (struct_set_path file (B "de::Flags") flags_members) None.
(** src/de.rs:1028-1034 *)
Definition path_and_args_members (file : list impl) : list (member path_and_args) :=
  [ mkMember (B "path") pa_path
      (fun x a => mkPathAndArgs a (pa_args x) (pa_repr x))
      (of_config_relative_path file);
    mkMember (B "args") pa_args
      (fun x a => mkPathAndArgs (pa_path x) a (pa_repr x))
      (of_list of_value);
    mkMember (B "deserialized_repr") pa_repr
      (fun x a => mkPathAndArgs (pa_path x) (pa_args x) a)
      no_methods ].
Definition of_path_and_args (file : list impl) : methods path_and_args :=
  mkMethods (Some in_path_and_args)
    (struct_set_path file (B "de::PathAndArgs") (path_and_args_members file)) None.
(** src/de.rs:1109-1114 *)
Definition string_list_members : list (member string_list) :=
  [ mkMember (B "list") sl_list
      (fun x a => mkStringList a (sl_repr x))
      (of_list of_value);
    mkMember (B "deserialized_repr") sl_repr
      (fun x a => mkStringList (sl_list x) a)
      no_methods ].
Definition of_string_list (file : list impl) : methods string_list :=
  mkMethods (Some in_string_list) (struct_set_path file (B "de::StringList") string_list_members) None.
(** src/de.rs:1184-1187 *)
Definition soa_variant (s : string_or_array) : str :=
  match s with SoaString _ => B "String" | SoaArray _ => B "Array" end.
Definition soa_variants : list (str * list (member string_or_array)) :=
  [ (B "String",
     [mkMember (B "0") (fun s => match s with SoaString v => Some v | _ => None end)
        (fun s o => match s, o with SoaString _, Some v => SoaString v | _, _ => s end)
        (of_option of_value)]);
    (B "Array",
     [mkMember (B "0") (fun s => match s with SoaArray l => l | _ => [] end)
        (fun s l => match s with SoaArray _ => SoaArray l | _ => s end)
        (of_list of_value)]) ].
Definition of_string_or_array (file : list impl) : methods string_or_array :=
  mkMethods (Some in_string_or_array)
    (match_set_path file (B "de::StringOrArray") soa_variant soa_variants) None.
(** src/de.rs:441-450 *)
Definition env_variant (e : env_config_value) : str :=
  match e with EnvValue _ => B "Value" | EnvTable _ _ _ => B "Table" end.
Definition env_variants : list (str * list (member env_config_value)) :=
  [ (B "Value",
     [mkMember (B "0") table_value
        (fun e v => match e with EnvValue _ => EnvValue v | _ => e end) of_value]);
    (B "Table",
     [mkMember (B "value") table_value set_table_value of_value;
      mkMember (B "force") table_force set_table_force (of_option of_value);
      mkMember (B "relative") table_relative set_table_relative (of_option of_value)]) ].
Definition of_env_config_value (file : list impl) : methods env_config_value :=
  mkMethods (Some in_env_config_value)
    (match_set_path file (B "de::EnvConfigValue") env_variant env_variants) None.

(** src/de.rs:321-388 *)
Definition build_members (file : list impl) : list (member build_config) :=
  [ mkMember (B "jobs") b_jobs
      (fun x a => mkBuild a (b_rustc x) (b_rustc_wrapper x) (b_rustc_workspace_wrapper x)
                    (b_rustdoc x) (b_target x) (b_target_dir x) (b_rustflags x)
                    (b_rustdocflags x) (b_incremental x) (b_dep_info_basedir x)
                    (b_override_target_rustflags x) (b_override_target_rustdocflags x))
      (of_option of_value);
    mkMember (B "rustc") b_rustc
      (fun x a => mkBuild (b_jobs x) a (b_rustc_wrapper x) (b_rustc_workspace_wrapper x)
                    (b_rustdoc x) (b_target x) (b_target_dir x) (b_rustflags x)
                    (b_rustdocflags x) (b_incremental x) (b_dep_info_basedir x)
                    (b_override_target_rustflags x) (b_override_target_rustdocflags x))
      (of_option of_value);
    mkMember (B "rustc_wrapper") b_rustc_wrapper
      (fun x a => mkBuild (b_jobs x) (b_rustc x) a (b_rustc_workspace_wrapper x) (b_rustdoc x)
                    (b_target x) (b_target_dir x) (b_rustflags x) (b_rustdocflags x)
                    (b_incremental x) (b_dep_info_basedir x) (b_override_target_rustflags x)
                    (b_override_target_rustdocflags x))
      (of_option of_value);
    mkMember (B "rustc_workspace_wrapper") b_rustc_workspace_wrapper
      (fun x a => mkBuild (b_jobs x) (b_rustc x) (b_rustc_wrapper x) a (b_rustdoc x)
                    (b_target x) (b_target_dir x) (b_rustflags x) (b_rustdocflags x)
                    (b_incremental x) (b_dep_info_basedir x) (b_override_target_rustflags x)
                    (b_override_target_rustdocflags x))
      (of_option of_value);
    mkMember (B "rustdoc") b_rustdoc
      (fun x a => mkBuild (b_jobs x) (b_rustc x) (b_rustc_wrapper x)
                    (b_rustc_workspace_wrapper x) a (b_target x) (b_target_dir x)
                    (b_rustflags x) (b_rustdocflags x) (b_incremental x) (b_dep_info_basedir x)
                    (b_override_target_rustflags x) (b_override_target_rustdocflags x))
      (of_option of_value);
    mkMember (B "target") b_target
      (fun x a => mkBuild (b_jobs x) (b_rustc x) (b_rustc_wrapper x)
                    (b_rustc_workspace_wrapper x) (b_rustdoc x) a (b_target_dir x)
                    (b_rustflags x) (b_rustdocflags x) (b_incremental x) (b_dep_info_basedir x)
                    (b_override_target_rustflags x) (b_override_target_rustdocflags x))
      (of_option (of_string_or_array file));
    mkMember (B "target_dir") b_target_dir
      (fun x a => mkBuild (b_jobs x) (b_rustc x) (b_rustc_wrapper x)
                    (b_rustc_workspace_wrapper x) (b_rustdoc x) (b_target x) a (b_rustflags x)
                    (b_rustdocflags x) (b_incremental x) (b_dep_info_basedir x)
                    (b_override_target_rustflags x) (b_override_target_rustdocflags x))
      (of_option of_value);
    mkMember (B "rustflags") b_rustflags
      (fun x a => mkBuild (b_jobs x) (b_rustc x) (b_rustc_wrapper x)
                    (b_rustc_workspace_wrapper x) (b_rustdoc x) (b_target x) (b_target_dir x) a
                    (b_rustdocflags x) (b_incremental x) (b_dep_info_basedir x)
                    (b_override_target_rustflags x) (b_override_target_rustdocflags x))
      (of_option (of_flags file));
    mkMember (B "rustdocflags") b_rustdocflags
      (fun x a => mkBuild (b_jobs x) (b_rustc x) (b_rustc_wrapper x)
                    (b_rustc_workspace_wrapper x) (b_rustdoc x) (b_target x) (b_target_dir x)
                    (b_rustflags x) a (b_incremental x) (b_dep_info_basedir x)
                    (b_override_target_rustflags x) (b_override_target_rustdocflags x))
      (of_option (of_flags file));
    mkMember (B "incremental") b_incremental
      (fun x a => mkBuild (b_jobs x) (b_rustc x) (b_rustc_wrapper x)
                    (b_rustc_workspace_wrapper x) (b_rustdoc x) (b_target x) (b_target_dir x)
                    (b_rustflags x) (b_rustdocflags x) a (b_dep_info_basedir x)
                    (b_override_target_rustflags x) (b_override_target_rustdocflags x))
      (of_option of_value);
    mkMember (B "dep_info_basedir") b_dep_info_basedir
      (fun x a => mkBuild (b_jobs x) (b_rustc x) (b_rustc_wrapper x)
                    (b_rustc_workspace_wrapper x) (b_rustdoc x) (b_target x) (b_target_dir x)
                    (b_rustflags x) (b_rustdocflags x) (b_incremental x) a
                    (b_override_target_rustflags x) (b_override_target_rustdocflags x))
      (of_option of_value);
    mkMember (B "override_target_rustflags") b_override_target_rustflags
      (fun x a => mkBuild (b_jobs x) (b_rustc x) (b_rustc_wrapper x)
                    (b_rustc_workspace_wrapper x) (b_rustdoc x) (b_target x) (b_target_dir x)
                    (b_rustflags x) (b_rustdocflags x) (b_incremental x) (b_dep_info_basedir x)
                    a (b_override_target_rustdocflags x))
      no_methods;
    mkMember (B "override_target_rustdocflags") b_override_target_rustdocflags
      (fun x a => mkBuild (b_jobs x) (b_rustc x) (b_rustc_wrapper x)
                    (b_rustc_workspace_wrapper x) (b_rustdoc x) (b_target x) (b_target_dir x)
                    (b_rustflags x) (b_rustdocflags x) (b_incremental x) (b_dep_info_basedir x)
                    (b_override_target_rustflags x) a)
      no_methods ].
(** src/de.rs:397-417 *)
Definition target_members (file : list impl) : list (member target_config) :=
  [ mkMember (B "linker") t_linker
      (fun x a => mkTarget a (t_runner x) (t_rustflags x) (t_rustdocflags x))
      (of_option of_value);
    mkMember (B "runner") t_runner
      (fun x a => mkTarget (t_linker x) a (t_rustflags x) (t_rustdocflags x))
      (of_option (of_path_and_args file));
    mkMember (B "rustflags") t_rustflags
      (fun x a => mkTarget (t_linker x) (t_runner x) a (t_rustdocflags x))
      (of_option (of_flags file));
    mkMember (B "rustdocflags") t_rustdocflags
      (fun x a => mkTarget (t_linker x) (t_runner x) (t_rustflags x) a)
      (of_option (of_flags file)) ].
(** src/de.rs:425-432 *)
Definition doc_members (file : list impl) : list (member doc_config) :=
  [ mkMember (B "browser") d_browser
      (fun x a => mkDoc a)
      (of_option (of_path_and_args file)) ].
(** src/de.rs:481-487 *)
Definition future_members : list (member future_incompat) :=
  [ mkMember (B "frequency") f_frequency
      (fun x a => mkFuture a)
      (of_option of_value) ].
(** src/de.rs:495-501 *)
Definition cargo_new_members : list (member cargo_new) :=
  [ mkMember (B "vcs") cn_vcs
      (fun x a => mkCargoNew a)
      (of_option of_value) ].
(** src/de.rs:553-607 *)
Definition http_members : list (member http_config) :=
  [ mkMember (B "debug") h_debug
      (fun x a => mkHttp a (h_proxy x) (h_timeout x) (h_cainfo x) (h_check_revoke x)
                    (h_low_speed_limit x) (h_multiplexing x) (h_user_agent x))
      (of_option of_value);
    mkMember (B "proxy") h_proxy
      (fun x a => mkHttp (h_debug x) a (h_timeout x) (h_cainfo x) (h_check_revoke x)
                    (h_low_speed_limit x) (h_multiplexing x) (h_user_agent x))
      (of_option of_value);
    mkMember (B "timeout") h_timeout
      (fun x a => mkHttp (h_debug x) (h_proxy x) a (h_cainfo x) (h_check_revoke x)
                    (h_low_speed_limit x) (h_multiplexing x) (h_user_agent x))
      (of_option of_value);
    mkMember (B "cainfo") h_cainfo
      (fun x a => mkHttp (h_debug x) (h_proxy x) (h_timeout x) a (h_check_revoke x)
                    (h_low_speed_limit x) (h_multiplexing x) (h_user_agent x))
      (of_option of_value);
    mkMember (B "check_revoke") h_check_revoke
      (fun x a => mkHttp (h_debug x) (h_proxy x) (h_timeout x) (h_cainfo x) a
                    (h_low_speed_limit x) (h_multiplexing x) (h_user_agent x))
      (of_option of_value);
    mkMember (B "low_speed_limit") h_low_speed_limit
      (fun x a => mkHttp (h_debug x) (h_proxy x) (h_timeout x) (h_cainfo x) (h_check_revoke x)
                    a (h_multiplexing x) (h_user_agent x))
      (of_option of_value);
    mkMember (B "multiplexing") h_multiplexing
      (fun x a => mkHttp (h_debug x) (h_proxy x) (h_timeout x) (h_cainfo x) (h_check_revoke x)
                    (h_low_speed_limit x) a (h_user_agent x))
      (of_option of_value);
    mkMember (B "user_agent") h_user_agent
      (fun x a => mkHttp (h_debug x) (h_proxy x) (h_timeout x) (h_cainfo x) (h_check_revoke x)
                    (h_low_speed_limit x) (h_multiplexing x) a)
      (of_option of_value) ].
(** src/de.rs:615-636 *)
Definition net_members : list (member net_config) :=
  [ mkMember (B "retry") n_retry
      (fun x a => mkNet a (n_git_fetch_with_cli x) (n_offline x))
      (of_option of_value);
    mkMember (B "git_fetch_with_cli") n_git_fetch_with_cli
      (fun x a => mkNet (n_retry x) a (n_offline x))
      (of_option of_value);
    mkMember (B "offline") n_offline
      (fun x a => mkNet (n_retry x) (n_git_fetch_with_cli x) a)
      (of_option of_value) ].
(** src/de.rs:644-665 *)
Definition registries_members : list (member registries_value) :=
  [ mkMember (B "index") r_index
      (fun x a => mkRegistries a (r_token x) (r_protocol x))
      (of_option of_value);
    mkMember (B "token") r_token
      (fun x a => mkRegistries (r_index x) a (r_protocol x))
      (of_option of_value);
    mkMember (B "protocol") r_protocol
      (fun x a => mkRegistries (r_index x) (r_token x) a)
      (of_option of_value) ].
(** src/de.rs:714-732 *)
Definition registry_members : list (member registry_config) :=
  [ mkMember (B "default") rg_default
      (fun x a => mkRegistry a (rg_token x))
      (of_option of_value);
    mkMember (B "token") rg_token
      (fun x a => mkRegistry (rg_default x) a)
      (of_option of_value) ].
(** src/de.rs:777-788 *)
Definition progress_members : list (member term_progress) :=
  [ mkMember (B "when") p_when
      (fun x a => mkProgress a (p_width x))
      (of_option of_value);
    mkMember (B "width") p_width
      (fun x a => mkProgress (p_when x) a)
      (of_option of_value) ].
(** src/de.rs:753-772 *)
Definition term_members (file : list impl) : list (member term_config) :=
  [ mkMember (B "quiet") tm_quiet
      (fun x a => mkTerm a (tm_verbose x) (tm_color x) (tm_progress x))
      (of_option of_value);
    mkMember (B "verbose") tm_verbose
      (fun x a => mkTerm (tm_quiet x) a (tm_color x) (tm_progress x))
      (of_option of_value);
    mkMember (B "color") tm_color
      (fun x a => mkTerm (tm_quiet x) (tm_verbose x) a (tm_progress x))
      (of_option of_value);
    mkMember (B "progress") tm_progress
      (fun x a => mkTerm (tm_quiet x) (tm_verbose x) (tm_color x) a)
      (of_struct file (B "de::TermProgress") progress_members) ].
(** src/de.rs:37-115 *)
Definition config_members (file : list impl) : list (member config) :=
  [ mkMember (B "alias") c_alias
      (fun x a => mkConfig a (c_build x) (c_doc x) (c_env x) (c_future_incompat_report x)
                    (c_cargo_new x) (c_http x) (c_net x) (c_registries x) (c_registry x)
                    (c_target x) (c_term x))
      (of_map dbg_string_list (of_string_list file));
    mkMember (B "build") c_build
      (fun x a => mkConfig (c_alias x) a (c_doc x) (c_env x) (c_future_incompat_report x)
                    (c_cargo_new x) (c_http x) (c_net x) (c_registries x) (c_registry x)
                    (c_target x) (c_term x))
      (of_struct file (B "de::BuildConfig") (build_members file));
    mkMember (B "doc") c_doc
      (fun x a => mkConfig (c_alias x) (c_build x) a (c_env x) (c_future_incompat_report x)
                    (c_cargo_new x) (c_http x) (c_net x) (c_registries x) (c_registry x)
                    (c_target x) (c_term x))
      (of_struct file (B "de::DocConfig") (doc_members file));
    mkMember (B "env") c_env
      (fun x a => mkConfig (c_alias x) (c_build x) (c_doc x) a (c_future_incompat_report x)
                    (c_cargo_new x) (c_http x) (c_net x) (c_registries x) (c_registry x)
                    (c_target x) (c_term x))
      (of_map dbg_env_config_value (of_env_config_value file));
    mkMember (B "future_incompat_report") c_future_incompat_report
      (fun x a => mkConfig (c_alias x) (c_build x) (c_doc x) (c_env x) a (c_cargo_new x)
                    (c_http x) (c_net x) (c_registries x) (c_registry x) (c_target x) (c_term x))
      (of_struct file (B "de::FutureIncompatReportConfig") future_members);
    mkMember (B "cargo_new") c_cargo_new
      (fun x a => mkConfig (c_alias x) (c_build x) (c_doc x) (c_env x)
                    (c_future_incompat_report x) a (c_http x) (c_net x) (c_registries x)
                    (c_registry x) (c_target x) (c_term x))
      (of_struct file (B "de::CargoNewConfig") cargo_new_members);
    mkMember (B "http") c_http
      (fun x a => mkConfig (c_alias x) (c_build x) (c_doc x) (c_env x)
                    (c_future_incompat_report x) (c_cargo_new x) a (c_net x) (c_registries x)
                    (c_registry x) (c_target x) (c_term x))
      (of_struct file (B "de::HttpConfig") http_members);
    mkMember (B "net") c_net
      (fun x a => mkConfig (c_alias x) (c_build x) (c_doc x) (c_env x)
                    (c_future_incompat_report x) (c_cargo_new x) (c_http x) a (c_registries x)
                    (c_registry x) (c_target x) (c_term x))
      (of_struct file (B "de::NetConfig") net_members);
    mkMember (B "registries") c_registries
      (fun x a => mkConfig (c_alias x) (c_build x) (c_doc x) (c_env x)
                    (c_future_incompat_report x) (c_cargo_new x) (c_http x) (c_net x) a
                    (c_registry x) (c_target x) (c_term x))
      (of_map dbg_registries (of_struct file (B "de::RegistriesConfigValue") registries_members));
    mkMember (B "registry") c_registry
      (fun x a => mkConfig (c_alias x) (c_build x) (c_doc x) (c_env x)
                    (c_future_incompat_report x) (c_cargo_new x) (c_http x) (c_net x)
                    (c_registries x) a (c_target x) (c_term x))
      (of_struct file (B "de::RegistryConfig") registry_members);
    mkMember (B "target") c_target
      (fun x a => mkConfig (c_alias x) (c_build x) (c_doc x) (c_env x)
                    (c_future_incompat_report x) (c_cargo_new x) (c_http x) (c_net x)
                    (c_registries x) (c_registry x) a (c_term x))
      (of_map dbg_target (of_struct file (B "de::TargetConfig") (target_members file)));
    mkMember (B "term") c_term
      (fun x a => mkConfig (c_alias x) (c_build x) (c_doc x) (c_env x)
                    (c_future_incompat_report x) (c_cargo_new x) (c_http x) (c_net x)
                    (c_registries x) (c_registry x) (c_target x) a)
      (of_struct file (B "de::TermConfig") (term_members file)) ].

(** ** The types of src/easy.rs: only [is_none] *)

(** src/easy.rs:437-528 *)
Definition ebuild_members : list (member ebuild) :=
  [ mkMember (B "jobs") eb_jobs
      (fun x a => mkEbuild a (eb_rustc x) (eb_rustc_wrapper x) (eb_rustc_workspace_wrapper x)
                    (eb_rustdoc x) (eb_target x) (eb_target_dir x) (eb_rustflags x)
                    (eb_rustdocflags x) (eb_incremental x) (eb_dep_info_basedir x)
                    (eb_override_target_rustflags x) (eb_de_rustflags x)
                    (eb_override_target_rustdocflags x) (eb_de_rustdocflags x))
      (of_option no_methods);
    mkMember (B "rustc") eb_rustc
      (fun x a => mkEbuild (eb_jobs x) a (eb_rustc_wrapper x) (eb_rustc_workspace_wrapper x)
                    (eb_rustdoc x) (eb_target x) (eb_target_dir x) (eb_rustflags x)
                    (eb_rustdocflags x) (eb_incremental x) (eb_dep_info_basedir x)
                    (eb_override_target_rustflags x) (eb_de_rustflags x)
                    (eb_override_target_rustdocflags x) (eb_de_rustdocflags x))
      (of_option no_methods);
    mkMember (B "rustc_wrapper") eb_rustc_wrapper
      (fun x a => mkEbuild (eb_jobs x) (eb_rustc x) a (eb_rustc_workspace_wrapper x)
                    (eb_rustdoc x) (eb_target x) (eb_target_dir x) (eb_rustflags x)
                    (eb_rustdocflags x) (eb_incremental x) (eb_dep_info_basedir x)
                    (eb_override_target_rustflags x) (eb_de_rustflags x)
                    (eb_override_target_rustdocflags x) (eb_de_rustdocflags x))
      (of_option no_methods);
    mkMember (B "rustc_workspace_wrapper") eb_rustc_workspace_wrapper
      (fun x a => mkEbuild (eb_jobs x) (eb_rustc x) (eb_rustc_wrapper x) a (eb_rustdoc x)
                    (eb_target x) (eb_target_dir x) (eb_rustflags x) (eb_rustdocflags x)
                    (eb_incremental x) (eb_dep_info_basedir x) (eb_override_target_rustflags x)
                    (eb_de_rustflags x) (eb_override_target_rustdocflags x)
                    (eb_de_rustdocflags x))
      (of_option no_methods);
    mkMember (B "rustdoc") eb_rustdoc
      (fun x a => mkEbuild (eb_jobs x) (eb_rustc x) (eb_rustc_wrapper x)
                    (eb_rustc_workspace_wrapper x) a (eb_target x) (eb_target_dir x)
                    (eb_rustflags x) (eb_rustdocflags x) (eb_incremental x)
                    (eb_dep_info_basedir x) (eb_override_target_rustflags x) (eb_de_rustflags x)
                    (eb_override_target_rustdocflags x) (eb_de_rustdocflags x))
      (of_option no_methods);
    mkMember (B "target") eb_target
      (fun x a => mkEbuild (eb_jobs x) (eb_rustc x) (eb_rustc_wrapper x)
                    (eb_rustc_workspace_wrapper x) (eb_rustdoc x) a (eb_target_dir x)
                    (eb_rustflags x) (eb_rustdocflags x) (eb_incremental x)
                    (eb_dep_info_basedir x) (eb_override_target_rustflags x) (eb_de_rustflags x)
                    (eb_override_target_rustdocflags x) (eb_de_rustdocflags x))
      (of_option no_methods);
    mkMember (B "target_dir") eb_target_dir
      (fun x a => mkEbuild (eb_jobs x) (eb_rustc x) (eb_rustc_wrapper x)
                    (eb_rustc_workspace_wrapper x) (eb_rustdoc x) (eb_target x) a
                    (eb_rustflags x) (eb_rustdocflags x) (eb_incremental x)
                    (eb_dep_info_basedir x) (eb_override_target_rustflags x) (eb_de_rustflags x)
                    (eb_override_target_rustdocflags x) (eb_de_rustdocflags x))
      (of_option no_methods);
    mkMember (B "rustflags") eb_rustflags
      (fun x a => mkEbuild (eb_jobs x) (eb_rustc x) (eb_rustc_wrapper x)
                    (eb_rustc_workspace_wrapper x) (eb_rustdoc x) (eb_target x)
                    (eb_target_dir x) a (eb_rustdocflags x) (eb_incremental x)
                    (eb_dep_info_basedir x) (eb_override_target_rustflags x) (eb_de_rustflags x)
                    (eb_override_target_rustdocflags x) (eb_de_rustdocflags x))
      (of_option no_methods);
    mkMember (B "rustdocflags") eb_rustdocflags
      (fun x a => mkEbuild (eb_jobs x) (eb_rustc x) (eb_rustc_wrapper x)
                    (eb_rustc_workspace_wrapper x) (eb_rustdoc x) (eb_target x)
                    (eb_target_dir x) (eb_rustflags x) a (eb_incremental x)
                    (eb_dep_info_basedir x) (eb_override_target_rustflags x) (eb_de_rustflags x)
                    (eb_override_target_rustdocflags x) (eb_de_rustdocflags x))
      (of_option no_methods);
    mkMember (B "incremental") eb_incremental
      (fun x a => mkEbuild (eb_jobs x) (eb_rustc x) (eb_rustc_wrapper x)
                    (eb_rustc_workspace_wrapper x) (eb_rustdoc x) (eb_target x)
                    (eb_target_dir x) (eb_rustflags x) (eb_rustdocflags x) a
                    (eb_dep_info_basedir x) (eb_override_target_rustflags x) (eb_de_rustflags x)
                    (eb_override_target_rustdocflags x) (eb_de_rustdocflags x))
      (of_option no_methods);
    mkMember (B "dep_info_basedir") eb_dep_info_basedir
      (fun x a => mkEbuild (eb_jobs x) (eb_rustc x) (eb_rustc_wrapper x)
                    (eb_rustc_workspace_wrapper x) (eb_rustdoc x) (eb_target x)
                    (eb_target_dir x) (eb_rustflags x) (eb_rustdocflags x) (eb_incremental x) a
                    (eb_override_target_rustflags x) (eb_de_rustflags x)
                    (eb_override_target_rustdocflags x) (eb_de_rustdocflags x))
      (of_option no_methods);
    mkMember (B "override_target_rustflags") eb_override_target_rustflags
      (fun x a => mkEbuild (eb_jobs x) (eb_rustc x) (eb_rustc_wrapper x)
                    (eb_rustc_workspace_wrapper x) (eb_rustdoc x) (eb_target x)
                    (eb_target_dir x) (eb_rustflags x) (eb_rustdocflags x) (eb_incremental x)
                    (eb_dep_info_basedir x) a (eb_de_rustflags x)
                    (eb_override_target_rustdocflags x) (eb_de_rustdocflags x))
      no_methods;
    mkMember (B "de_rustflags") eb_de_rustflags
      (fun x a => mkEbuild (eb_jobs x) (eb_rustc x) (eb_rustc_wrapper x)
                    (eb_rustc_workspace_wrapper x) (eb_rustdoc x) (eb_target x)
                    (eb_target_dir x) (eb_rustflags x) (eb_rustdocflags x) (eb_incremental x)
                    (eb_dep_info_basedir x) (eb_override_target_rustflags x) a
                    (eb_override_target_rustdocflags x) (eb_de_rustdocflags x))
      (of_option no_methods);
    mkMember (B "override_target_rustdocflags") eb_override_target_rustdocflags
      (fun x a => mkEbuild (eb_jobs x) (eb_rustc x) (eb_rustc_wrapper x)
                    (eb_rustc_workspace_wrapper x) (eb_rustdoc x) (eb_target x)
                    (eb_target_dir x) (eb_rustflags x) (eb_rustdocflags x) (eb_incremental x)
                    (eb_dep_info_basedir x) (eb_override_target_rustflags x) (eb_de_rustflags x)
                    a (eb_de_rustdocflags x))
      no_methods;
    mkMember (B "de_rustdocflags") eb_de_rustdocflags
      (fun x a => mkEbuild (eb_jobs x) (eb_rustc x) (eb_rustc_wrapper x)
                    (eb_rustc_workspace_wrapper x) (eb_rustdoc x) (eb_target x)
                    (eb_target_dir x) (eb_rustflags x) (eb_rustdocflags x) (eb_incremental x)
                    (eb_dep_info_basedir x) (eb_override_target_rustflags x) (eb_de_rustflags x)
                    (eb_override_target_rustdocflags x) a)
      (of_option no_methods) ].
(** src/easy.rs:636-643 *)
Definition edoc_members : list (member edoc) :=
  [ mkMember (B "browser") ed_browser
      (fun x a => mkEdoc a)
      (of_option no_methods) ].
(** src/easy.rs:729-735 *)
Definition efuture_members : list (member efuture) :=
  [ mkMember (B "frequency") efr_frequency
      (fun x a => mkEfuture a)
      (of_option no_methods) ].
(** src/easy.rs:750-756 *)
Definition ecargo_new_members : list (member ecargo_new) :=
  [ mkMember (B "vcs") ecn_vcs
      (fun x a => mkEcargoNew a)
      (of_option no_methods) ].
(** src/easy.rs:770-824 *)
Definition ehttp_members : list (member ehttp) :=
  [ mkMember (B "debug") eh_debug
      (fun x a => mkEhttp a (eh_proxy x) (eh_timeout x) (eh_cainfo x) (eh_check_revoke x)
                    (eh_low_speed_limit x) (eh_multiplexing x) (eh_user_agent x))
      (of_option no_methods);
    mkMember (B "proxy") eh_proxy
      (fun x a => mkEhttp (eh_debug x) a (eh_timeout x) (eh_cainfo x) (eh_check_revoke x)
                    (eh_low_speed_limit x) (eh_multiplexing x) (eh_user_agent x))
      (of_option no_methods);
    mkMember (B "timeout") eh_timeout
      (fun x a => mkEhttp (eh_debug x) (eh_proxy x) a (eh_cainfo x) (eh_check_revoke x)
                    (eh_low_speed_limit x) (eh_multiplexing x) (eh_user_agent x))
      (of_option no_methods);
    mkMember (B "cainfo") eh_cainfo
      (fun x a => mkEhttp (eh_debug x) (eh_proxy x) (eh_timeout x) a (eh_check_revoke x)
                    (eh_low_speed_limit x) (eh_multiplexing x) (eh_user_agent x))
      (of_option no_methods);
    mkMember (B "check_revoke") eh_check_revoke
      (fun x a => mkEhttp (eh_debug x) (eh_proxy x) (eh_timeout x) (eh_cainfo x) a
                    (eh_low_speed_limit x) (eh_multiplexing x) (eh_user_agent x))
      (of_option no_methods);
    mkMember (B "low_speed_limit") eh_low_speed_limit
      (fun x a => mkEhttp (eh_debug x) (eh_proxy x) (eh_timeout x) (eh_cainfo x)
                    (eh_check_revoke x) a (eh_multiplexing x) (eh_user_agent x))
      (of_option no_methods);
    mkMember (B "multiplexing") eh_multiplexing
      (fun x a => mkEhttp (eh_debug x) (eh_proxy x) (eh_timeout x) (eh_cainfo x)
                    (eh_check_revoke x) (eh_low_speed_limit x) a (eh_user_agent x))
      (of_option no_methods);
    mkMember (B "user_agent") eh_user_agent
      (fun x a => mkEhttp (eh_debug x) (eh_proxy x) (eh_timeout x) (eh_cainfo x)
                    (eh_check_revoke x) (eh_low_speed_limit x) (eh_multiplexing x) a)
      (of_option no_methods) ].
(** src/easy.rs:847-868 *)
Definition enet_members : list (member enet) :=
  [ mkMember (B "retry") en_retry
      (fun x a => mkEnet a (en_git_fetch_with_cli x) (en_offline x))
      (of_option no_methods);
    mkMember (B "git_fetch_with_cli") en_git_fetch_with_cli
      (fun x a => mkEnet (en_retry x) a (en_offline x))
      (of_option no_methods);
    mkMember (B "offline") en_offline
      (fun x a => mkEnet (en_retry x) (en_git_fetch_with_cli x) a)
      (of_option no_methods) ].
(** src/easy.rs:938-956 *)
Definition eregistry_members : list (member eregistry) :=
  [ mkMember (B "default") erg_default
      (fun x a => mkEregistry a (erg_token x))
      (of_option no_methods);
    mkMember (B "token") erg_token
      (fun x a => mkEregistry (erg_default x) a)
      (of_option no_methods) ].
(** src/easy.rs:1017-1028 *)
Definition eprogress_members : list (member eprogress) :=
  [ mkMember (B "when") epr_when
      (fun x a => mkEprogress a (epr_width x))
      (of_option no_methods);
    mkMember (B "width") epr_width
      (fun x a => mkEprogress (epr_when x) a)
      (of_option no_methods) ].
(** src/easy.rs:983-1002 *)
Definition eterm_members (file : list impl) : list (member eterm) :=
  [ mkMember (B "quiet") etm_quiet
      (fun x a => mkEterm a (etm_verbose x) (etm_color x) (etm_progress x))
      (of_option no_methods);
    mkMember (B "verbose") etm_verbose
      (fun x a => mkEterm (etm_quiet x) a (etm_color x) (etm_progress x))
      (of_option no_methods);
    mkMember (B "color") etm_color
      (fun x a => mkEterm (etm_quiet x) (etm_verbose x) a (etm_progress x))
      (of_option no_methods);
    mkMember (B "progress") etm_progress
      (fun x a => mkEterm (etm_quiet x) (etm_verbose x) (etm_color x) a)
      (of_struct file (B "easy::TermProgressConfig") eprogress_members) ].

(** [Config::merge] and [Config::set_path]: src/de.rs:181-187 *)
Definition config_merge (file : list impl) : option (merger config) :=
  struct_merge file (B "de::Config") (config_members file).
Definition config_set_path (file : list impl) : option (path -> config -> config) :=
  struct_set_path file (B "de::Config") (config_members file).
