(** The command line of examples/get.rs. *)
From Verif.Model Require Import Base GetArgs.
From Verif.Spec Require Import StrSpec Utf8Spec.

(** What has been chosen so far. *)
Record choice := mkChoice { chosen_format : option format; chosen_merged : option bool }.
Inductive format_word : str -> format -> Prop :=
| toml_word : format_word (B "toml") Toml
| json_word : format_word (B "json") Json.
Inductive merged_word : str -> bool -> Prop :=
| yes_word : merged_word (B "yes") true
| no_word : merged_word (B "no") false.

(** The option [name] with the value [v], as two words or as one. *)
Inductive option_words (name v : str) : list str -> Prop :=
| in_two : option_words name v [name; v]
| in_one : option_words name v [name ++ B "=" ++ v].

(** Each option at most once, in any order. *)
Inductive accepted : list str -> choice -> Prop :=
| accepted_none : accepted [] (mkChoice None None)
| accepted_format ws m v f o :
    accepted ws (mkChoice None m) -> format_word v f -> option_words (B "--format") v o ->
    accepted (ws ++ o) (mkChoice (Some f) m)
| accepted_merged ws f v m o :
    accepted ws (mkChoice f None) -> merged_word v m -> option_words (B "--merged") v o ->
    accepted (ws ++ o) (mkChoice f (Some m)).

Definition or_default {A} (d : A) (o : option A) : A := match o with Some a => a | None => d end.
Definition result_of (c : choice) : parsed := Parsed (or_default Toml (chosen_format c)) (or_default true (chosen_merged c)).

(** A word that is not an option. *)
Definition plain (w : str) : Prop := w = B "-" \/ forall r, w <> B "-" ++ r.
(** The long option [name], alone or with a value attached. *)
Inductive long_word (name : str) : str -> Prop :=
| long_alone : ~ In "="%char name -> name <> [] -> long_word name (B "--" ++ name)
| long_value v : ~ In "="%char name -> long_word name (B "--" ++ name ++ B "=" ++ v).
(** Short options, the first of which is [c]. *)
Inductive short_word (c : str) : str -> Prop :=
| short_char n r : encodes n c -> c <> B "-" -> short_word c (B "-" ++ c ++ r)
| short_byte b r : ~ starts_with_char (b :: r) -> c = replacement_character -> short_word c (B "-" ++ b :: r).

Definition asks_help (w : str) : Prop := long_word (B "help") w \/ short_word (B "h") w.
Definition asks_version (w : str) : Prop := long_word (B "version") w \/ short_word (B "V") w.

(** The option [name] is known and may still be given. *)
Inductive open_option (c : choice) : str -> Prop :=
| open_format : chosen_format c = None -> open_option c (B "format")
| open_merged : chosen_merged c = None -> open_option c (B "merged").
(** A value that the option [name] does not take. *)
Definition refused (name v : str) : Prop :=
  (name = B "format" /\ forall f, ~ format_word v f) \/ (name = B "merged" /\ forall m, ~ merged_word v m).

(** After the accepted words that chose [c], the next words [ws] decide. *)
Inductive stops (c : choice) : list str -> parsed -> Prop :=
| stops_end : stops c [] (result_of c)
| stops_dashes : stops c [B "--"] (result_of c)
| stops_after_dashes v ws : stops c (B "--" :: v :: ws) (ArgError (UnexpectedArgument v))
| stops_plain w ws : plain w -> stops c (w :: ws) (ArgError (UnexpectedArgument w))
| stops_help w ws : asks_help w -> stops c (w :: ws) Help
| stops_version w ws : asks_version w -> stops c (w :: ws) Version
| stops_missing name : open_option c name -> stops c [B "--" ++ name] (ArgError (MissingValue (B "--" ++ name)))
| stops_refused name v o ws :
    open_option c name -> option_words (B "--" ++ name) v o -> refused name v -> utf8 v ->
    stops c (o ++ ws) (ArgError (ParsingFailed v))
| stops_not_text name v o ws :
    open_option c name -> option_words (B "--" ++ name) v o -> ~ utf8 v ->
    stops c (o ++ ws) (ArgError (NonUnicodeValue v))
| stops_long name shown w ws :
    long_word name w -> ~ open_option c name -> name <> B "help" -> name <> B "version" -> repaired name shown ->
    stops c (w :: ws) (ArgError (UnexpectedOption (B "--" ++ shown)))
| stops_short ch w ws :
    short_word ch w -> ch <> B "h" -> ch <> B "V" -> stops c (w :: ws) (ArgError (UnexpectedOption (B "-" ++ ch))).
