(** src/value.rs *)
From Verif.Model Require Import Base Str Path Error.

(** src/value.rs:57-65 [Definition]. *)
Inductive definition :=
| DefPath (p : path)
| DefEnv (key : str)
| DefCli (p : option path).

(** src/value.rs:19-26 [Value<T>]. *)
Record value (T : Type) := mkValue {
  val : T;
  def : option definition
}.
Arguments mkValue {T} val def.
Arguments val {T} v.
Arguments def {T} v.

(** src/value.rs:29-31 [Value::parse], with the parse function as a parameter. *)
Definition value_parse {T} (parse : str -> option T) (v : value str) : option (value T) :=
  match parse (val v) with
  | Some t => Some (mkValue t (def v))
  | None => None
  end.

(** [p.parent().unwrap().parent().unwrap()] *)
Definition parent_parent {E} (p : path) : res E path :=
  match parent p with
  | Some q => match parent q with
              | Some r => Ok r
              | None => Panic PUnwrapNone
              end
  | None => Panic PUnwrapNone
  end.

(** src/value.rs:72-77 [Definition::root]. *)
Definition def_root {E} (d : definition) (current_dir : path) : res E path :=
  match d with
  | DefPath p | DefCli (Some p) => parent_parent p
  | DefEnv _ | DefCli None => Ok current_dir
  end.

(** src/value.rs:78-85 [Definition::root_opt]. *)
Definition def_root_opt {E} (d : definition) (current_dir : option path)
  : res E (option path) :=
  match d with
  | DefPath p | DefCli (Some p) => r <- parent_parent p ;; Ok (Some r)
  | DefEnv _ | DefCli None => Ok current_dir
  end.

(** src/value.rs:33-43 [Value::resolve_as_program_path]. *)
Definition resolve_as_program_path {E} (v : value str) (current_dir : path) : res E path :=
  match def v with
  | Some d =>
      if (negb (is_absolute (val v))
          && (contains slash (val v) || contains backslash (val v)))%bool
      then r <- def_root d current_dir ;; Ok (join r (val v))
      else Ok (val v)
  | None => Ok (val v)
  end.

(** src/value.rs:44-51 [Value::resolve_as_path]. *)
Definition resolve_as_path {E} (v : value str) (current_dir : path) : res E path :=
  match def v with
  | Some d =>
      if negb (is_absolute (val v))
      then r <- def_root d current_dir ;; Ok (join r (val v))
      else Ok (val v)
  | None => Ok (val v)
  end.

(** src/value.rs:109-117 [PartialEq for Definition]: same variant. *)
Definition definition_eqb (a b : definition) : bool :=
  match a, b with
  | DefPath _, DefPath _ => true
  | DefEnv _, DefEnv _ => true
  | DefCli _, DefCli _ => true
  | _, _ => false
  end.

(** src/value.rs:99-107 [Display for Definition]. *)
Definition definition_display (d : definition) : str :=
  match d with
  | DefPath p | DefCli (Some p) => lossy p
  | DefEnv key => B "environment variable " ++ bt key
  | DefCli None => B "--config cli option"
  end.

(** src/value.rs:143-147 [SetPath for Value<T>]. *)
Definition set_path_value {T} (p : path) (v : value T) : value T :=
  mkValue (val v) (Some (DefPath p)).
