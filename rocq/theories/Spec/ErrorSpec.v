(** What an error is about, and what becomes of the output of a program. *)
From Verif.Model Require Import Base Str Error Process.
From Verif.Spec Require Import StrSpec Utf8Spec.

(** ** Causes *)

(** Somewhere beneath the error is an I/O error of kind [k]. *)
Inductive io_beneath : error -> io_kind -> Prop :=
| io_itself k : io_beneath (EIo k) k
| io_cause m k : io_beneath (EWithContext m (Some (SIo k))) k
| io_deeper m e k : io_beneath e k -> io_beneath (EWithContext m (Some (SCrate e))) k.
(** Somewhere beneath the error is a failure to read TOML. *)
Inductive toml_beneath : error -> Prop :=
| toml_cause m : toml_beneath (EWithContext m (Some SToml))
| toml_deeper m e : toml_beneath e -> toml_beneath (EWithContext m (Some (SCrate e))).

(** The kind of the I/O error made from an error tells what is beneath it. *)
Definition kind_tells (e : error) : Prop :=
  let k := ie_kind (io_error_of e) in
  (forall k', io_beneath e k' -> k = k')
  /\ (toml_beneath e -> k = KInvalidData)
  /\ ((forall k', ~ io_beneath e k') -> ~ toml_beneath e -> k = KOther).

(** Crate errors that have crate errors beneath them. *)
Fixpoint layers (e : error) : nat :=
  match e with
  | EWithContext _ (Some (SCrate e')) => S (layers e')
  | _ => 0
  end.

(** What is displayed: nothing of our own for an I/O error and a parse error. *)
Definition message (e : error) : option msg :=
  match e with
  | EOther m | EWithContext m _ => Some m
  | EIo _ | ECfgExprParse _ => None
  end.
Definition io_message (i : io_error) : option msg :=
  match ie_payload i with PText m => Some m | PCrate e => message e | PNone | PCfg _ => None end.
Definition io_source (i : io_error) : option source :=
  match ie_payload i with PCrate e => error_source e | PNone | PText _ | PCfg _ => None end.

(** ** Output of programs *)

Definition newline (c : ascii) : Prop := nb c = 10%N \/ nb c = 13%N.
(** [s] is [out] up to the newlines at its end. *)
Definition without_newlines (out s : str) : Prop :=
  exists tail, out = s ++ tail /\ Forall newline tail /\ forall r c, s = r ++ [c] -> ~ newline c.

(** How a command is shown. *)
Definition shown (c : command) : str :=
  B "`" ++ intercalate " "%char (map lossy (cmd_program c :: cmd_args c)) ++ B "`".

(** A stream is shown if it is text that is not only white space. *)
Definition stream_shown (header out shown : str) : Prop :=
  (utf8 out /\ ~ blank out /\ shown = header ++ out)
  \/ ((~ utf8 out \/ blank out) /\ shown = []).

(** What the failure of a command looks like. *)
Inductive failure (c : command) : outcome -> error -> Prop :=
| not_started k :
    failure c (NotStarted k)
      (EWithContext (MText (B "could not execute process " ++ shown c ++ B " (never executed)"))
                    (Some (SIo k)))
| not_text status out err :
    ~ utf8 out ->
    failure c (Exited true status out err)
      (EWithContext (MText (B "failed to parse output from " ++ shown c)) (Some SUtf8))
| not_successful status out err o e :
    stream_shown ([byte_of 10] ++ B "--- stdout" ++ [byte_of 10]) out o ->
    stream_shown ([byte_of 10] ++ B "--- stderr" ++ [byte_of 10]) err e ->
    failure c (Exited false status out err)
      (EOther (MText (B "process didn't exit successfully: " ++ shown c ++ B " (" ++ status ++ B ")"
                      ++ o ++ e))).
