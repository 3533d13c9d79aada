(** Paths in a configuration are relative to where they are written. *)
From Verif.Model Require Import Base Str Error Value De.
From Verif.Spec Require Import StrSpec PathSpec ConfigSpec TripleSpec.

(** The directory a value is relative to: the one above the directory of the file, or
    the current directory. *)
Inductive root_of (cwd : str) : definition -> str -> Prop :=
| root_file p q r : parent_dir p q -> parent_dir q r -> root_of cwd (DefPath p) r
| root_file_option p q r : parent_dir p q -> parent_dir q r -> root_of cwd (DefCli (Some p)) r
| root_variable name : root_of cwd (DefEnv name) cwd
| root_option : root_of cwd (DefCli None) cwd.

Definition absolute (s : str) : Prop := exists r, s = separator :: r.
Definition has_separator (s : str) : Prop := In "/"%char s \/ In "\"%char s.

(** A value as a path. *)
Inductive path_at (cwd : str) (v : value str) : str -> Prop :=
| path_as_is : def v = None \/ absolute (val v) -> path_at cwd v (val v)
| path_below d r :
    def v = Some d -> ~ absolute (val v) -> root_of cwd d r -> path_at cwd v (child r (val v)).

(** A value as a program. *)
Inductive program_at (cwd : str) (v : value str) : str -> Prop :=
| program_as_is :
    def v = None \/ absolute (val v) \/ ~ has_separator (val v) -> program_at cwd v (val v)
| program_below d r :
    def v = Some d -> ~ absolute (val v) -> has_separator (val v) -> root_of cwd d r ->
    program_at cwd v (child r (val v)).

Definition both {A A'} (R : A -> A' -> Prop) (o : option A) (o' : option A') : Prop :=
  match o, o' with
  | Some a, Some a' => R a a'
  | None, None => True
  | _, _ => False
  end.

(** A list of words as a program with arguments. *)
Definition command_at (cwd : str) (ws : form * list word) (p : str * list str) : Prop :=
  exists v args, snd ws = v :: args /\ program_at cwd v (fst p) /\ snd p = map val args.

(** The root of a file system, or no path at all: neither has a parent. *)
Definition rootish (p : str) : Prop := reads_as p AtRoot [] \/ reads_as p Plain [].

(** A target written in a configuration: the command line form. *)
Inductive target_at (cwd : str) (v : value str) : str -> Prop :=
| target_plain : ~ spec_like (val v) -> target_at cwd v (val v)
| target_spec p : spec_like (val v) -> path_at cwd v p -> target_at cwd v p.

(** A path with a last name, in Unicode. *)
Definition nameable (s : str) : Prop := utf8_valid s = true /\ exists n, last_name s n.
