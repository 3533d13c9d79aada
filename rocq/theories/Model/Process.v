(** Running external programs: src/process.rs. *)
From Verif.Model Require Import Base Str Path Error.

(** A [std::process::Command]: program and arguments.  Environment and current
    directory are inherited and not modelled. *)
Record command := mkCommand {
  cmd_program : str;
  cmd_args : list str
}.

(** What the operating system answers to [Command::output]: failure to start, or
    an exit status (its text and whether it means success) with both streams. *)
Inductive outcome :=
| NotStarted (k : io_kind)
| Exited (success : bool) (status : str) (stdout stderr : str).

(** src/process.rs:80-98 [Display for ProcessBuilder] (non alternate form). *)
Definition display_command (c : command) : str :=
  bt (lossy (cmd_program c)
      ++ flat_map (fun a => sp :: lossy a) (cmd_args c)).

(** src/process.rs:118-131: one of the two output sections. *)
Definition output_section (header : str) (out : str) : str :=
  if utf8_valid out
  then if is_empty (trim_start out) then [] else header ++ out
  else [].

(** src/process.rs:105-134 [process_error] with status and output. *)
Definition process_failure (msg status out err : str) : str :=
  msg ++ B " (" ++ status ++ B ")"
      ++ output_section (nl :: B "--- stdout" ++ [nl]) out
      ++ output_section (nl :: B "--- stderr" ++ [nl]) err.

(** src/process.rs:70-72: [while output.ends_with('\n') || ends_with('\r') { pop }]. *)
Fixpoint drop_newlines (s : str) : str :=
  match s with
  | c :: t => if (Ascii.eqb c nl || Ascii.eqb c cr)%bool then drop_newlines t else s
  | [] => []
  end.
Definition trim_newlines (s : str) : str := rev (drop_newlines (rev s)).

(** src/process.rs:47-62 [run_with_output] followed by src/process.rs:66-74 [read]. *)
Definition read_outcome (c : command) (o : outcome) : result str :=
  match o with
  | NotStarted k =>
      Err (EWithContext
             (MText (B "could not execute process " ++ display_command c
                     ++ B " (never executed)"))
             (Some (SIo k)))
  | Exited true _ out _ =>
      match to_str out with
      | Some s => Ok (trim_newlines s)
      | None =>
          Err (EWithContext
                 (MText (B "failed to parse output from " ++ display_command c))
                 (Some SUtf8))
      end
  | Exited false status out err =>
      Err (EOther (MText (process_failure
                            (B "process didn't exit successfully: " ++ display_command c)
                            status out err)))
  end.
