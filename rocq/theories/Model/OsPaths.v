(** What the library does with paths, for both families of systems.

    The same code as in [Model/Walk.v], [Model/Value.v], [Model/De.v], [Model/Triple.v] and
    [Model/Resolve.v], over [std::path] as in [Model/StdPath.v].  That the instance for Unix is
    what the rest of the model uses is C71; the instance for Windows is the subject of C72. *)
From Verif.Model Require Import Base Str Path StdPath Error Value Walk De Triple.

Section Os.
Context (os : system).

(** src/walk.rs:23-39 [config_path]. *)
Definition os_config_path (exists_ : str -> bool) (p : str) : option str :=
  let config := std_join os p (B "config") in
  if exists_ config then Some config
  else
    let config := std_join os p (B "config.toml") in
    if exists_ config then Some config else None.

(** src/walk.rs:50-65 [cargo_home_with_cwd]. *)
Definition os_cargo_home (home_var home_dir : option str) (cwd : str) : option str :=
  match home_var with
  | Some h =>
      if is_empty h
      then match home_dir with Some d => Some (std_join os d (B ".cargo")) | None => None end
      else if std_is_absolute os h then Some h else Some (std_join os cwd h)
  | None => match home_dir with Some d => Some (std_join os d (B ".cargo")) | None => None end
  end.

(** src/walk.rs:85-98 [Iterator::next]. *)
Definition os_dedup_home (home : option str) (p : str) : option str :=
  match home with
  | Some h => if std_eqb os h p then None else Some h
  | None => None
  end.
Fixpoint os_walk_next (exists_ : str -> bool) (anc : list str) (home : option str)
  : option str * (list str * option str) :=
  match anc with
  | [] =>
      match home with
      | None => (None, ([], None))
      | Some h => (os_config_path exists_ h, ([], None))
      end
  | a :: rest =>
      let p := std_join os a (B ".cargo") in
      let home' := os_dedup_home home p in
      match os_config_path exists_ p with
      | Some c => (Some c, (rest, home'))
      | None => os_walk_next exists_ rest home'
      end
  end.
(** A [for] loop over the iterator, as [walk_all]. *)
Fixpoint os_walk_fuel (n : nat) (exists_ : str -> bool) (s : list str * option str) : list str :=
  match n with
  | O => []
  | S n' =>
      match os_walk_next exists_ (fst s) (snd s) with
      | (Some p, s') => p :: os_walk_fuel n' exists_ s'
      | (None, _) => []
      end
  end.
(** src/walk.rs:76-81 [with_cargo_home] and the loop over it. *)
Definition os_walk (exists_ : str -> bool) (cwd : str) (home : option str) : list str :=
  let anc := std_ancestors os cwd in os_walk_fuel (length anc + 2) exists_ (anc, home).

(** [p.parent().unwrap().parent().unwrap()] *)
Definition os_parent_parent {E} (p : str) : res E str :=
  match std_parent os p with
  | Some q => match std_parent os q with
              | Some r => Ok r
              | None => Panic PUnwrapNone
              end
  | None => Panic PUnwrapNone
  end.
(** src/value.rs:72-85 [Definition::root], [Definition::root_opt]. *)
Definition os_root {E} (d : definition) (current_dir : str) : res E str :=
  match d with
  | DefPath p | DefCli (Some p) => os_parent_parent p
  | DefEnv _ | DefCli None => Ok current_dir
  end.
Definition os_root_opt {E} (d : definition) (current_dir : option str) : res E (option str) :=
  match d with
  | DefPath p | DefCli (Some p) => r <- os_parent_parent p ;; Ok (Some r)
  | DefEnv _ | DefCli None => Ok current_dir
  end.
(** src/value.rs:33-51 [Value::resolve_as_program_path], [Value::resolve_as_path]. *)
Definition os_program_path {E} (v : value str) (current_dir : str) : res E str :=
  match def v with
  | Some d =>
      if (negb (std_is_absolute os (val v))
          && (contains slash (val v) || contains backslash (val v)))%bool
      then r <- os_root d current_dir ;; Ok (std_join os r (val v))
      else Ok (val v)
  | None => Ok (val v)
  end.
Definition os_path {E} (v : value str) (current_dir : str) : res E str :=
  match def v with
  | Some d =>
      if negb (std_is_absolute os (val v))
      then r <- os_root d current_dir ;; Ok (std_join os r (val v))
      else Ok (val v)
  | None => Ok (val v)
  end.
(** src/de.rs:460-472 [EnvConfigValue::resolve]. *)
Definition os_env_resolve {E} (e : env_config_value) (current_dir : str) : res E str :=
  match e with
  | EnvValue v => Ok (val v)
  | EnvTable v _ relative =>
      match relative with
      | Some r =>
          if val r then
            match def v with
            | Some d => root <- os_root d current_dir ;; Ok (std_join os root (val v))
            | None => Ok (val v)
            end
          else Ok (val v)
      | None => Ok (val v)
      end
  end.
(** src/resolve.rs:428-474 [is_spec_path], [resolve_spec_path], [TargetTripleRef::new]. *)
Definition os_is_spec_path (s : str) : bool :=
  (match std_extension os s with Some e => str_eqb e (B "json") | None => false end
   || contains slash s || contains backslash s)%bool.
Definition os_spec_path {E} (spec : str) (d : option definition) (current_dir : option str) : res E (option str) :=
  match d with
  | Some d =>
      root <- os_root_opt d current_dir ;;
      match root with
      | Some r => Ok (Some (std_join os r spec))
      | None => Ok None
      end
  | None => Ok None
  end.
Definition os_triple {E} (s : str) (d : option definition) (current_dir : option str) : res E triple :=
  if os_is_spec_path s then
    match std_file_stem os s with
    | None => Panic PUnwrapNone
    | Some stem =>
        match to_str stem with
        | None => Panic PUnwrapNone
        | Some t =>
            sp <- os_spec_path s d current_dir ;;
            Ok (mkTriple t (Some (match sp with Some p => p | None => s end)))
        end
    end
  else Ok (mkTriple s None).
(** src/resolve.rs:637-650 [rustc_path]: beside [cargo], if there; [suffix] is [EXE_SUFFIX]. *)
Definition os_rustc_path (suffix cargo : str) (exists_ : str -> bool) : str :=
  let p := std_join os (std_pop os cargo) (B "rustc" ++ suffix) in
  if exists_ p then p else B "rustc".
End Os.
