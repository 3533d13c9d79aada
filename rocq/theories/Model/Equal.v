(** The [PartialEq] implementations of the public types that carry configured text. *)
From Verif.Model Require Import Base Str Path StdPath Value De EasyTypes.

(** [PartialEq for Option] and [for Vec], of the standard library. *)
Definition option_eqb {A} (f : A -> A -> bool) (a b : option A) : bool :=
  match a, b with
  | Some x, Some y => f x y
  | None, None => true
  | _, _ => false
  end.

Fixpoint vec_eqb {A} (f : A -> A -> bool) (a b : list A) : bool :=
  match a, b with
  | [], [] => true
  | x :: a', y :: b' => (f x y && vec_eqb f a' b')%bool
  | _, _ => false
  end.

(** src/value.rs:17-26 [Value<T>]: derived, field by field. *)
Definition value_eqb {T} (f : T -> T -> bool) (a b : value T) : bool :=
  (f (val a) (val b) && option_eqb definition_eqb (def a) (def b))%bool.

(** src/de.rs:989-991 [ConfigRelativePath]: derived. *)
Definition relative_path_eqb (a b : value str) : bool := value_eqb str_eqb a b.

(** src/de.rs:1182-1187 [StringOrArray]: derived. *)
Definition soa_eqb (a b : string_or_array) : bool :=
  match a, b with
  | SoaString v, SoaString w => value_eqb str_eqb v w
  | SoaArray l, SoaArray m => vec_eqb (value_eqb str_eqb) l m
  | _, _ => false
  end.

(** src/easy.rs:1039-1044 [Flags]: derived. *)
Definition eflags_eqb (a b : eflags) : bool := vec_eqb str_eqb (ef_flags a) (ef_flags b).

(** src/easy.rs:1247-1252 [StringList]: derived. *)
Definition esl_eqb (a b : estring_list) : bool := vec_eqb str_eqb (esl_list a) (esl_list b).

(** src/easy.rs:1190-1195 [PathAndArgs]: derived; [PathBuf]s are compared component by component,
    [OsString]s byte by byte. *)
Definition epa_eqb (a b : epath_and_args) : bool :=
  (path_eqb (epa_path a) (epa_path b) && vec_eqb str_eqb (epa_args a) (epa_args b))%bool.
(** The same with the paths of another system. *)
Definition os_epa_eqb (os : system) (a b : epath_and_args) : bool :=
  (std_eqb os (epa_path a) (epa_path b) && vec_eqb str_eqb (epa_args a) (epa_args b))%bool.
