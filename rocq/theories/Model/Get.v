(** The program examples/get.rs.  Its arguments and the JSON format are in
    GetArgs.v.  Not modelled: the texts of values ([show], [toml::Value]'s [Display]).  Escaping of
    variables ([escape], [shell_escape::escape]) is a parameter, as is [json] in GetArgs.v; they
    are in ShellEscape.v and JsonText.v. *)
From Verif.Model Require Import Base Str Path BMap Error Value De Merge SetPath Serde Walk Load.

(** examples/get.rs:97: a document written and read again as [toml::Value], whose tables
    are [BTreeMap]s.  (Arrays stay as they are; those of configurations hold texts only.) *)
Fixpoint table_of (t : toml) : toml :=
  match t with
  | TomlTab l => TomlTab (bfrom_list (map (fun '(k, v) => (k, table_of v)) l))
  | _ => t
  end.

Section Get.
  Variable show : toml -> str.
  Variable escape : str -> str.

  (** examples/get.rs:86-96 [print_value]. *)
  Fixpoint print_value (path : str) (value : toml) : str :=
    match value with
    | TomlTab table => flat_map (fun '(key, item) => print_value (path ++ B "." ++ key) item) table
    | _ => path ++ B " = " ++ show value ++ [nl]
    end.

  (** examples/get.rs:72-106 [print_config] in the format toml. *)
  Definition print_config (c : config) : str :=
    match table_of (ser_config c) with
    | TomlTab table => flat_map (fun '(key, value) => print_value key value) table
    | _ => []
    end.

  (** examples/get.rs:49-54: one file after the other; also what is written before an error. *)
  Fixpoint print_files (f : fs) (ps : list path) : str * result unit :=
    match ps with
    | [] => ([], Ok tt)
    | p :: rest =>
        match load_file f p with
        | Ok c =>
            let (out, r) := print_files f rest in
            (B "# " ++ lossy p ++ [nl] ++ print_config c ++ [nl] ++ out, r)
        | Err e => ([], Err e)
        | Panic x => ([], Panic x)
        end
    end.

  (** examples/get.rs:61-68: what goes to stderr in the end. *)
  Fixpoint note_vars (vars : list (str * str)) : str :=
    match vars with
    | [] => []
    | (k, v) :: rest =>
        match to_str k, to_str v with
        | Some k, Some v =>
            if starts_with (B "CARGO_") k then k ++ B "=" ++ escape v ++ [nl] ++ note_vars rest
            else note_vars rest
        | _, _ => note_vars rest
        end
    end.
  Definition note (vars : list (str * str)) : str :=
    B "note: The following environment variables may affect the loaded values." ++ [nl] ++ note_vars vars.

  (** examples/get.rs:35-71 [try_main] in the format toml: stdout, and stderr unless there
      is an error. *)
  Definition get (merged : bool) (f : fs) (vars : list (str * str)) (home_var home_dir : option str) (cwd : path)
    : str * result str :=
    let (out, r) :=
      if merged
      then match load_with_cwd f home_var home_dir cwd with
           | Ok c => (print_config c, Ok tt)
           | Err e => ([], Err e)
           | Panic x => ([], Panic x)
           end
      else print_files f (walk_all (fs_exists f) (walk_init cwd (cargo_home_with_cwd home_var home_dir cwd)))
    in (out, match r with Ok _ => Ok (note vars) | Err e => Err e | Panic x => Panic x end).
End Get.
