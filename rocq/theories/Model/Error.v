(** Errors: src/error.rs and src/cfg_expr/error.rs. *)
From Verif.Model Require Import Base Str.

(** Structure of [Debug] output.  Its textual rendering is in
    Model/DebugText.v. *)
Inductive dbg :=
| DStr (s : str)                                   (* a string *)
| DOs (s : str)                                    (* an OsString or Path *)
| DNum (z : Z)
| DBool (b : bool)
| DUnit (name : string)                            (* unit struct/variant, None *)
| DTuple (name : string) (args : list dbg)         (* tuple struct/variant, Some *)
| DStruct (name : string) (fields : list (string * dbg))
| DList (l : list dbg)
| DMap (l : list (dbg * dbg))
| DSet (l : list dbg).

(** src/cfg_expr/error.rs:17-35 [Reason]. *)
Inductive reason :=
| InvalidNot (n : nat)
| UnclosedParens
| UnopenedParens
| UnclosedQuotes
| Empty
| Unexpected (expected : list string)
| MultipleRootPredicates.

(** src/cfg_expr/error.rs:7-15 [ParseError]. *)
Record parse_error := mkParseError {
  pe_original : str;
  pe_span : nat * nat;
  pe_reason : reason
}.

(** [io::ErrorKind], left open ended. *)
Inductive io_kind :=
| KNotFound
| KPermissionDenied
| KInvalidData
| KOther
| KRaw (n : N).

(** Message texts.  Messages that embed [Debug] output keep it as a tree. *)
Inductive msg :=
| MText (s : str)
(* src/merge.rs:191-196: "failed to merge key `{key}` between {entry:?} and {value:?}" *)
| MMergeKey (key : str) (entry value : dbg).

(** src/error.rs:27-34 [ErrorKind], with the boxed sources the crate creates. *)
Inductive error :=
| EIo (k : io_kind)
| ECfgExprParse (e : parse_error)
| EOther (m : msg)
| EWithContext (m : msg) (src : option source)
with source :=
| SIo (k : io_kind)             (* std::io::Error *)
| SToml                         (* toml_edit::de::Error *)
| SVarError (v : str)           (* std::env::VarError::NotUnicode *)
| SText (s : str)               (* a string error *)
| SParse                        (* ParseIntError / ParseBoolError *)
| SUtf8                         (* FromUtf8Error *)
| SCrate (e : error).           (* another crate error *)

Definition result := res error.

(** src/error.rs:11-15 [bail!] / [format_err!] with a formatted text. *)
Definition bail {A} (s : str) : result A := Err (EOther (MText s)).

Definition bt (s : str) : str := B "`" ++ s ++ B "`".

(** src/error.rs:41-46 [Error::env_not_unicode]. *)
Definition env_not_unicode (name var : str) : error :=
  EWithContext (MText (B "failed to parse environment variable " ++ bt name))
               (Some (SVarError var)).

(** src/error.rs:47-52 [Error::env_not_unicode_redacted]. *)
Definition env_not_unicode_redacted (name : str) : error :=
  EWithContext (MText (B "failed to parse environment variable " ++ bt name))
               (Some (SText (B "environment variable was not valid unicode: [REDACTED]"))).

(** src/error.rs:139-162 [Context::with_context] for a crate error. *)
Definition with_context {A} (m : msg) (r : result A) : result A :=
  map_err (fun e => EWithContext m (Some (SCrate e))) r.

(** src/error.rs:163-183 [Context::context] for an [Option]. *)
Definition context_opt {A} (m : msg) (o : option A) : result A :=
  match o with
  | Some a => Ok a
  | None => Err (EWithContext m None)
  end.

(** A [std::io::Error] as seen by a caller: its kind and, if it wraps a crate
    error or text, that payload. *)
Inductive io_payload := PNone | PText (m : msg) | PCfg (e : parse_error) | PCrate (e : error).
Record io_error := mkIoError { ie_kind : io_kind; ie_payload : io_payload }.

(** src/error.rs:78-98 [From<Error> for io::Error]. *)
Definition io_error_of (e : error) : io_error :=
  match e with
  | EIo k => mkIoError k PNone
  | ECfgExprParse e => mkIoError KOther (PCfg e)
  | EOther m => mkIoError KOther (PText m)
  | EWithContext m None => mkIoError KOther (PText m)
  | EWithContext m (Some src) =>
      let kind := match src with
                  | SIo k => k
                  | SToml => KInvalidData
                  | _ => KOther
                  end in
      mkIoError kind (PCrate (EWithContext m (Some src)))
  end.

(** src/error.rs:66-75 [std::error::Error::source]. *)
Definition error_source (e : error) : option source :=
  match e with
  | EIo _ => None              (* e.source() of a plain OS error *)
  | ECfgExprParse _ => None    (* default impl, src/cfg_expr/error.rs:96 *)
  | EOther _ => None
  | EWithContext _ src => src
  end.
