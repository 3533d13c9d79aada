(** Loading of the unresolved configuration: src/de.rs:117-187. *)
From Verif.Model Require Import Base Str Path BMap Error Value De Merge SetPath Serde Walk.

(** What reading a file yields: an I/O error, text that is not TOML, or a TOML
    document. *)
Inductive read_result :=
| ReadErr (k : io_kind)
| ReadBad
| ReadTree (t : toml).

(** The file system: [Path::exists] and [fs::read_to_string] followed by TOML
    parsing.  It does not change during one load ([LoadTime] is
    about those that do). *)
Record fs := mkFsys {
  fs_exists : path -> bool;
  fs_read : path -> read_result
}.

(** src/de.rs:164-172 [_load_file]. *)
Definition load_file (f : fs) (p : path) : result config :=
  match fs_read f p with
  | ReadErr k =>
      Err (EWithContext (MText (B "failed to read " ++ bt (lossy p))) (Some (SIo k)))
  | ReadBad =>
      Err (EWithContext
             (MText (B "failed to parse " ++ bt (lossy p) ++ B " as cargo configuration"))
             (Some SToml))
  | ReadTree t =>
      match de_config t with
      | None =>
          Err (EWithContext
                 (MText (B "failed to parse " ++ bt (lossy p) ++ B " as cargo configuration"))
                 (Some SToml))
      | Some c => Ok (sp_config p c)
      end
  end.

(** src/de.rs:141-152: the rest of the loop once [base] is set. *)
Fixpoint load_rest (f : fs) (base_path : path) (base : config) (ps : list path)
  : result config :=
  match ps with
  | [] => Ok base
  | p :: rest =>
      c <- load_file f p ;;
      base' <- with_context
                 (MText (B "failed to merge config from " ++ bt (lossy p)
                         ++ B " into " ++ bt (lossy base_path)))
                 (merge_config base c false) ;;
      load_rest f base_path base' rest
  end.

(** src/de.rs:140-154: the loop over the discovered files. *)
Definition load_files (f : fs) (ps : list path) : result config :=
  match ps with
  | [] => Ok config_default
  | p :: rest => c <- load_file f p ;; load_rest f p c rest
  end.

(** src/de.rs:136-155 [_load_with_options], src/de.rs:130-135 [load_with_options]. *)
Definition load_with_options (f : fs) (current_dir : path) (cargo_home : option path)
  : result config :=
  load_files f (walk_all (fs_exists f) (walk_init current_dir cargo_home)).

(** src/de.rs:124-127 [load_with_cwd]. *)
Definition load_with_cwd (f : fs) (home_var home_dir : option str) (cwd : path)
  : result config :=
  load_with_options f cwd (cargo_home_with_cwd home_var home_dir cwd).
