(** Settings handed on to another process by its variables. *)
From Verif.Model Require Import Base Str BMap Error Value De EasyTypes Context Easy.
From Verif.Spec Require Import StrSpec Utf8Spec FlagsSpec PathSpec ConfigSpec LoadSpec EnvSpec RootSpec TargetSpec FinalSpec ReloadSpec.

(** The first variable that counts for a key is set to a text that reads as the value. *)
Definition handed_on {A} (env : env_map) (k : scalar_key A) (a : A) : Prop :=
  exists r rest t, variables k = r :: rest /\ env_get (fst r) env = Some t /\ utf8 t /\ snd r t = Some a.

(** Flags: the variable, and how the text is read. *)
Inductive flags_name := Rustflags | Rustdocflags.
Definition name_of_flags (n : flags_name) : str :=
  match n with Rustflags => B "RUSTFLAGS" | Rustdocflags => B "RUSTDOCFLAGS" end.
Definition flags_query (n : flags_name) (a : target_arg) : query :=
  match n with Rustflags => QRustflags a | Rustdocflags => QRustdocflags a end.
Definition flags_of_build (n : flags_name) : list_key :=
  match n with Rustflags => BuildRustflags | Rustdocflags => BuildRustdocflags end.

(** Flags written for [CARGO_ENCODED_..]: one after the other, with the unit separator between
    them, so that they can be read again. *)
Definition encodable (l : list str) : Prop := starts_with_text l /\ Forall (free_of unit_separator) l.
(** Words written with a space between them. *)
Definition plain_word (w : str) : Prop := w <> [] /\ is_trimmed w /\ free_of space w.
