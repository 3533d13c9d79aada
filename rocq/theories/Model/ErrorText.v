(** The text of an error: src/error.rs:55-63 [Display for Error]. *)
From Verif.Model Require Import Base Str Error CfgError.

(** Message texts; [dbg_text] stands for the rendering of [Debug] output. *)
Definition msg_text (dbg_text : dbg -> str) (m : msg) : str :=
  match m with
  | MText s => s
  | MMergeKey key entry value =>
      B "failed to merge key " ++ bt key ++ B " between " ++ dbg_text entry ++ B " and " ++ dbg_text value
  end.

(** [io_text] stands for the texts of the operating system. *)
Definition error_text (io_text : io_kind -> str) (dbg_text : dbg -> str) (e : error) : str :=
  match e with
  | EIo k => io_text k
  | ECfgExprParse e => parse_error_text e
  | EOther m | EWithContext m _ => msg_text dbg_text m
  end.
