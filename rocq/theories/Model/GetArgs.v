(** The arguments of examples/get.rs, and the whole program.  [lexopt] 0.3 is modelled as
    far as [Parser::next], [Parser::value] and [ValueExt::parse] (its code is not part of the
    repository); texts of its errors are not. *)
From Verif.Model Require Import Base Str Path BMap Error Value De Serde Walk Load Get.

(** lexopt: [Arg].  A short option is the text of its character. *)
Inductive arg :=
| Short (c : str)
| Long (name : str)
| Value (v : str).

(** lexopt: [Error], without those that are not made here.  Options are as in the messages,
    with their dashes. *)
Inductive arg_error :=
| MissingValue (option : str)
| UnexpectedOption (option : str)
| UnexpectedArgument (v : str)
| UnexpectedValue (option v : str)
| NonUnicodeValue (v : str)
| ParsingFailed (v : str).

(** lexopt: [State].  Of the short options of one word, those already seen and the rest. *)
Inductive lex_state :=
| LexNone
| PendingValue (v : str)
| Shorts (seen rest : str)
| FinishedOpts.

(** lexopt: [Parser]: the state, the last option as in messages, and the words to come. *)
Record parser := mkParser { lex : lex_state; last : str; source : list str }.

(** lexopt: [first_codepoint], of a text that is not empty: its first character as far as
    it is valid, else the replacement character for one byte. *)
Definition first_codepoint (s : str) : str * str :=
  match find (fun n => utf8_valid (firstn n s) && (n <=? length s)) [1; 2; 3; 4] with
  | Some n => (firstn n s, skipn n s)
  | None => (replacement, skipn 1 s)
  end.

(** lexopt: [Parser::next] in the state [Shorts]. *)
Definition next_short (seen rest : str) (p : parser) : option (arg * parser) + (arg_error * parser) :=
  match rest with
  | [] => inl None
  | ch :: v =>
      if Ascii.eqb ch "=" && negb (is_empty seen)
      then inr (UnexpectedValue (last p) v, mkParser LexNone (last p) (source p))
      else let (c, rest') := first_codepoint rest in
           inl (Some (Short c, mkParser (Shorts (seen ++ c) rest') (B "-" ++ c) (source p)))
  end.

(** lexopt: [Parser::next] in the state [None]. *)
Definition next_word (p : parser) : option (arg * parser) + (arg_error * parser) :=
  match source p with
  | [] => inl None
  | w :: rest =>
      if str_eqb w (B "--") then
        inl (match rest with
             | [] => None
             | v :: rest => Some (Value v, mkParser FinishedOpts (last p) rest)
             end)
      else match strip_prefix (B "--") w with
           | Some name =>
               let (name, st) := match split_once "=" name with
                                 | Some (n, v) => (n, PendingValue v)
                                 | None => (name, LexNone)
                                 end in
               inl (Some (Long (lossy name), mkParser st (B "--" ++ lossy name) rest))
           | None =>
               match strip_prefix (B "-") w with
               | Some (ch :: r) => next_short [] (ch :: r) (mkParser LexNone (last p) rest)
               | _ => inl (Some (Value w, mkParser LexNone (last p) rest))
               end
           end
  end.

(** lexopt: [Parser::next]. *)
Definition next_arg (p : parser) : option (arg * parser) + (arg_error * parser) :=
  match lex p with
  | PendingValue v => inr (UnexpectedValue (last p) v, mkParser LexNone (last p) (source p))
  | Shorts seen rest =>
      match next_short seen rest p with
      | inl None => next_word (mkParser LexNone (last p) (source p))
      | r => r
      end
  | FinishedOpts =>
      inl (match source p with
           | [] => None
           | v :: rest => Some (Value v, mkParser FinishedOpts (last p) rest)
           end)
  | LexNone => next_word p
  end.

(** lexopt: [Parser::value]. *)
Definition next_value (p : parser) : (str * parser) + arg_error :=
  let next :=
    match source p with
    | v :: rest => inl (v, mkParser (match lex p with FinishedOpts => FinishedOpts | _ => LexNone end) (last p) rest)
    | [] => inr (MissingValue (last p))
    end in
  match lex p with
  | PendingValue v => inl (v, mkParser LexNone (last p) (source p))
  | Shorts _ (ch :: r) =>
      inl (if Ascii.eqb ch "=" then r else ch :: r, mkParser LexNone (last p) (source p))
  | _ => next
  end.

(** examples/get.rs:115-132 [Format], 134-151 [Merged]. *)
Inductive format := Toml | Json.
Definition format_from_str (s : str) : option format :=
  if str_eqb s (B "toml") then Some Toml else if str_eqb s (B "json") then Some Json else None.
Definition merged_from_str (s : str) : option bool :=
  if str_eqb s (B "yes") then Some true else if str_eqb s (B "no") then Some false else None.

(** lexopt: [ValueExt::parse] after [Parser::value]. *)
Definition parse_value {A} (from_str : str -> option A) (p : parser) : (A * parser) + arg_error :=
  match next_value p with
  | inr e => inr e
  | inl (v, p) =>
      match to_str v with
      | None => inr (NonUnicodeValue v)
      | Some s => match from_str s with Some a => inl (a, p) | None => inr (ParsingFailed v) end
      end
  end.

(** examples/get.rs:153-178 [Args::parse]: what it returns, or how it ends the program.
    Every step takes a word, so [n] steps are enough for less than [n] words. *)
Inductive parsed :=
| Parsed (f : format) (merged : bool)
| Help
| Version
| ArgError (e : arg_error).
Definition unexpected (a : arg) : arg_error :=
  match a with
  | Short c => UnexpectedOption (B "-" ++ c)
  | Long n => UnexpectedOption (B "--" ++ n)
  | Value v => UnexpectedArgument v
  end.
Definition named (n : string) (a : arg) : bool := match a with Long m => str_eqb m (B n) | _ => false end.
Definition short (c : string) (a : arg) : bool := match a with Short d => str_eqb d (B c) | _ => false end.
Fixpoint parse_args (n : nat) (f : option format) (m : option bool) (p : parser) : parsed :=
  match n with
  | 0 => Parsed Toml true
  | S n =>
      match next_arg p with
      | inr (e, _) => ArgError e
      | inl None => Parsed (match f with Some f => f | None => Toml end) (match m with Some m => m | None => true end)
      | inl (Some (a, p)) =>
          if named "format" a && is_none f then
            match parse_value format_from_str p with
            | inl (v, p) => parse_args n (Some v) m p
            | inr e => ArgError e
            end
          else if named "merged" a && is_none m then
            match parse_value merged_from_str p with
            | inl (v, p) => parse_args n f (Some v) p
            | inr e => ArgError e
            end
          else if short "h" a || named "help" a then Help
          else if short "V" a || named "version" a then Version
          else ArgError (unexpected a)
      end
  end.
Definition parse (words : list str) : parsed :=
  parse_args (S (length words)) None None (mkParser LexNone [] words).

(** examples/get.rs:19-26 [USAGE]. *)
Definition usage : str := B "cargo-config2-get
Usage: cargo run --example get -- [OPTIONS]

Options:
      --format <format>     Display format [default: toml] [possible values: toml, json]
      --merged <merged>     Whether or not to merge config values [default: yes] [possible values: yes, no]
  -h, --help                Print help information
".

(** How the program ends: well, with what is written to stderr; or with an error of its
    own, of the arguments, or of the library. *)
Inductive ending :=
| Done (stderr : str)
| BadArguments (e : arg_error)
| JsonNotMerged
| Failed (e : error)
| Crashed (x : panic).

Section Main.
  Variable show : toml -> str.      (* [toml::Value]'s [Display] *)
  Variable json : toml -> str.      (* [serde_json::to_string] *)
  Variable escape : str -> str.     (* [shell_escape::escape] *)
  Variable version : str.           (* CARGO_PKG_NAME and CARGO_PKG_VERSION *)

  (** examples/get.rs:28-71 [main] and [try_main]: what is written to stdout, and the end. *)
  Definition main (words : list str) (f : fs) (vars : list (str * str)) (home_var home_dir : option str) (cwd : path)
    : str * ending :=
    match parse words with
    | Help => (usage, Done [])
    | Version => (version ++ [nl], Done [])
    | ArgError e => ([], BadArguments e)
    | Parsed Json false => ([], JsonNotMerged)
    | Parsed Json true =>
        match load_with_cwd f home_var home_dir cwd with
        | Ok c => (json (ser_config c) ++ [nl], Done (note escape vars))
        | Err e => ([], Failed e)
        | Panic x => ([], Crashed x)
        end
    | Parsed Toml merged =>
        let (out, r) := get show escape merged f vars home_var home_dir cwd in
        (out, match r with Ok n => Done n | Err e => Failed e | Panic x => Crashed x end)
    end.
End Main.
