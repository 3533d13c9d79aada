(** Values made by callers instead of being read: the [From] impls and the builder
    methods of src/easy.rs. *)
From Verif.Model Require Import Base Str EasyTypes Process.

(** What the [From] impls of [StringList] take (src/easy.rs:1266-1305): one text, or
    several.  Owned and borrowed, vectors, slices and arrays are not told apart. *)
Inductive code_list :=
| FromText (s : str)
| FromArray (l : list str).
Definition esl_from (x : code_list) : estring_list :=
  match x with
  | FromText s => esl_from_string s
  | FromArray l => esl_from_array l
  end.
(** [Flags] has [from_space_separated] (src/easy.rs:1079-1081) for one text and [From] impls
    (src/easy.rs:1161-1185) for several. *)
Definition eflags_from (x : code_list) : eflags :=
  match x with
  | FromText s => eflags_from_space_separated s
  | FromArray l => mkEflags l
  end.

(** src/easy.rs:1203-1211: the calls [arg] and [args]. *)
Inductive builder_call :=
| Arg (a : str)
| Args (l : list str).
Definition epa_call (e : epath_and_args) (c : builder_call) : epath_and_args :=
  match c with
  | Arg a => mkEpa (epa_path e) (epa_args e ++ [a])
  | Args l => epa_add_args e l
  end.
Definition epa_build (p : str) (calls : list builder_call) : epath_and_args :=
  fold_left epa_call calls (epa_new p).

(** src/easy.rs:1228-1244: [Command::from] and [ProcessBuilder::from]. *)
Definition command_of (e : epath_and_args) : command := mkCommand (epa_path e) (epa_args e).
