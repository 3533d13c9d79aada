(** Where a value comes from, when two values count as the same, and what is shown. *)
From Verif.Model Require Import Base Value De EasyTypes.
From Verif.Spec Require Import StrSpec PathSpec Utf8Spec RootSpec.

Inductive origin := FromFile | FromVariable | FromOption.

Definition origin_of (d : definition) : origin :=
  match d with
  | DefPath _ => FromFile
  | DefEnv _ => FromVariable
  | DefCli _ => FromOption
  end.

Definition origin_of_value {T} (v : value T) : option origin := option_map origin_of (def v).

(** Same content and the same kind of origin: the file, the variable do not matter. *)
Definition alike {T} (R : T -> T -> Prop) (v w : value T) : Prop :=
  R (val v) (val w) /\ origin_of_value v = origin_of_value w.

Inductive alike_lists : string_or_array -> string_or_array -> Prop :=
| alike_string v w : alike eq v w -> alike_lists (SoaString v) (SoaString w)
| alike_array l m : Forall2 (alike eq) l m -> alike_lists (SoaArray l) (SoaArray m).

(** The same words, and the same program up to repeated slashes, inner [.] and the like. *)
Definition same_command (a b : epath_and_args) : Prop :=
  same_place (epa_path a) (epa_path b) /\ epa_args a = epa_args b.

(** The directory a relative value starts from. *)
Definition starts_at (cwd : str) (v : value str) (r : str) : Prop :=
  exists d, def v = Some d /\ root_of cwd d r.

(** Values that stand in a file, be it found or given as an option. *)
Definition in_a_file (v : value str) : Prop :=
  exists p, def v = Some (DefPath p) \/ def v = Some (DefCli (Some p)).

Inductive shown : definition -> str -> Prop :=
| shown_file p t : repaired p t -> shown (DefPath p) t
| shown_file_option p t : repaired p t -> shown (DefCli (Some p)) t
| shown_variable name : shown (DefEnv name) (B "environment variable `" ++ name ++ B "`")
| shown_option : shown (DefCli None) (B "--config cli option").

(** The file a value stands in, the variable, or nothing for an option. *)
Inductive source := InFile (p : str) | InVariable (name : str) | InOption.
Definition source_of (d : definition) : source :=
  match d with
  | DefPath p | DefCli (Some p) => InFile p
  | DefEnv name => InVariable name
  | DefCli None => InOption
  end.

(** A file, if there is one, has an absolute name that is text. *)
Definition plainly_named (d : definition) : Prop :=
  match source_of d with InFile p => absolute p /\ utf8 p | _ => True end.
