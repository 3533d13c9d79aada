(** Options and context of a resolution: src/resolve.rs:32-293 (the parts that do
    not run programs). *)
From Verif.Model Require Import Base Str Path Error Value De EasyTypes Walk.

(** A [HashMap<String, OsString>].  The order of the list stands for the
    (arbitrary) iteration order; keys are unique. *)
Definition env_map := list (str * str).

Fixpoint env_get (k : str) (e : env_map) : option str :=
  match e with
  | [] => None
  | (k', v) :: t => if str_eqb k k' then Some v else env_get k t
  end.

Fixpoint env_insert (k v : str) (e : env_map) : env_map :=
  match e with
  | [] => [(k, v)]
  | (k', v') :: t => if str_eqb k k' then (k', v) :: t else (k', v') :: env_insert k v t
  end.

(** src/resolve.rs:32-41 [ResolveOptions]. *)
Record options := mkOptions {
  o_env : option env_map;
  o_rustc : option epath_and_args;
  o_cargo : option str;
  o_cargo_home : option (option path);
  o_host_triple : option str
}.
Definition options_default : options := mkOptions None None None None None.

(** src/resolve.rs:100: the names that are kept. *)
Definition env_relevant (k : str) : bool :=
  (starts_with (B "CARGO") k || starts_with (B "RUST") k || str_eqb k (B "BROWSER"))%bool.

(** src/resolve.rs:97-104 *)
Fixpoint env_collect (vars : list (str * str)) (e : env_map) : env_map :=
  match vars with
  | [] => e
  | (k, v) :: rest =>
      env_collect rest
        (match to_str k with
         | Some k => if env_relevant k then env_insert k v e else e
         | None => e
         end)
  end.
Definition env_filter (vars : list (str * str)) : env_map := env_collect vars [].

(** src/resolve.rs:49-107: the builder methods. *)
Definition opt_rustc (o : options) (p : epath_and_args) : options :=
  mkOptions (o_env o) (Some p) (o_cargo o) (o_cargo_home o) (o_host_triple o).
Definition opt_cargo (o : options) (s : str) : options :=
  mkOptions (o_env o) (o_rustc o) (Some s) (o_cargo_home o) (o_host_triple o).
Definition opt_cargo_home (o : options) (h : option path) : options :=
  mkOptions (o_env o) (o_rustc o) (o_cargo o) (Some h) (o_host_triple o).
Definition opt_host_triple (o : options) (s : str) : options :=
  mkOptions (o_env o) (o_rustc o) (o_cargo o) (o_cargo_home o) (Some s).
Definition opt_env (o : options) (vars : list (str * str)) : options :=
  mkOptions (Some (env_filter vars)) (o_rustc o) (o_cargo o) (o_cargo_home o)
            (o_host_triple o).

(** The process: its variables ([std::env::vars_os]) and [std::env::home_dir]. *)
Record process_env := mkProcess {
  p_vars : list (str * str);
  p_home_dir : option path
}.

(** src/resolve.rs:149-159 [ResolveContext]: the immutable part, and the initial
    contents of the cells. *)
Record context := mkContext {
  cx_env : env_map;
  cx_cargo : str;
  cx_current_dir : path;
  cx_rustc0 : option epath_and_args;
  cx_cargo_home0 : option (option path);
  cx_host0 : option str
}.

(** src/resolve.rs:110-143 [into_context]. *)
Definition into_context (p : process_env) (o : options) (current_dir : path) : context :=
  let env := match o_env o with Some e => e | None => env_filter (p_vars p) end in
  mkContext env
    (match o_cargo o with
     | Some c => c
     | None => match env_get (B "CARGO") env with Some c => c | None => B "cargo" end
     end)
    current_dir (o_rustc o) (o_cargo_home o) (o_host_triple o).

(** src/resolve.rs:189-191 [cargo_home]: [home] reads the real process variables. *)
Definition cx_cargo_home (p : process_env) (cx : context) (cwd : path) : option path :=
  match cx_cargo_home0 cx with
  | Some h => h
  | None => cargo_home_with_cwd (env_get (B "CARGO_HOME") (p_vars p)) (p_home_dir p) cwd
  end.

(** src/resolve.rs:239-247 [env]; src/resolve.rs:273-281 [env_dyn] is the same. *)
Definition cx_env_var (env : env_map) (name : str) : result (option (value str)) :=
  match env_get name env with
  | None => Ok None
  | Some v =>
      match to_str v with
      | Some s => Ok (Some (mkValue s (Some (DefEnv name))))
      | None => Err (env_not_unicode name v)
      end
  end.

(** src/resolve.rs:248-259 [env_redacted]. *)
Definition cx_env_redacted (env : env_map) (name : str) : result (option (value str)) :=
  match env_get name env with
  | None => Ok None
  | Some v =>
      match to_str v with
      | Some s => Ok (Some (mkValue s (Some (DefEnv name))))
      | None => Err (env_not_unicode_redacted name)
      end
  end.

(** src/resolve.rs:260-272 [env_parse]; [perr] is the error of [FromStr]. *)
Definition cx_env_parse {T} (env : env_map) (parse : str -> option T) (perr : str -> source)
  (name : str) : result (option (value T)) :=
  o <- cx_env_var env name ;;
  match o with
  | None => Ok None
  | Some v =>
      match value_parse parse v with
      | Some t => Ok (Some t)
      | None =>
          Err (EWithContext (MText (B "failed to parse environment variable " ++ bt name))
                            (Some (perr (val v))))
      end
  end.
