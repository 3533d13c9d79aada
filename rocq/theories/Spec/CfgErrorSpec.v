(** Why a [cfg(...)] expression is refused, stated over the grammar of [CfgSpec]
    without the model's lexer or parser. *)
From Verif.Model Require Import Base Str Error CfgExpr.
From Verif.Spec Require Import StrSpec Utf8Spec CfgSpec.

(** The tokens are the beginning of something that can be written. *)
Definition begins (ts : list token) : Prop := exists more l, items l (ts ++ more).

(** Every finished [not( )] has one argument. *)
Definition nots_ok (ts : list token) : Prop :=
  forall a args b c,
    ts = a ++ TNot :: TOpen :: b ++ TClose :: c -> items args b -> count8 args = 1.

(** Nothing is wrong with the text [pre], which reads as [ts], so far. *)
Definition fine (pre : str) (ts : list token) : Prop :=
  lexes pre ts /\ begins ts /\ nots_ok ts.

(** The names of tokens in messages. *)
Inductive named : string -> token -> Prop :=
| named_key k : named "<key>" (TKey k)
| named_value v : named (String quote EmptyString) (TValue v)
| named_equals : named "=" TEquals
| named_all : named "all" TAll
| named_any : named "any" TAny
| named_not : named "not" TNot
| named_open : named "(" TOpen
| named_close : named ")" TClose
| named_comma : named "," TComma.

(** A message says which tokens could have followed [ts].  A closing parenthesis
    may be named though no call is open; after a comma, neither calls nor a further
    comma are named. *)
Definition hints (ts : list token) (names : list string) : Prop :=
  (forall h, In h names -> exists t, named h t /\
     (begins (ts ++ [t]) \/ (t = TClose /\ exists l, items l ts))) /\
  (forall t, begins (ts ++ [t]) ->
     (exists h, In h names /\ named h t) \/
     (exists ts', ts = ts' ++ [TComma] /\ (t = TComma \/ exists f, t = callee_token f))).

(** The text [pre] does not end inside of a word that goes on in [rest]. *)
Definition parted (pre rest : str) : Prop :=
  forall p c, pre = p ++ [c] -> letter c \/ digit c -> ~ word_goes_on rest.

(** No token begins with this character. *)
Definition no_token (c : ascii) : Prop :=
  ~ letter c /\ ~ In c [quote; "="%char; "("%char; ")"%char; ","%char].

(** The text [s] is refused with a span and a reason. *)
Inductive explains (s : str) : nat * nat -> reason -> Prop :=
(** A token that cannot follow. *)
| ex_token pre w rest t ts names :
    s = pre ++ w ++ rest -> fine pre ts -> parted pre (w ++ rest) ->
    spelled t w -> (is_word t -> ~ word_goes_on rest) ->
    ~ begins (ts ++ [t]) -> hints ts names ->
    (t = TClose -> ~ exists l, l <> [] /\ items l ts) ->
    explains s (length pre, length pre + length w) (Unexpected names)
(** A closing parenthesis when no call is open. *)
| ex_unopened pre rest ts l :
    s = pre ++ B ")" ++ rest -> fine pre ts -> items l ts -> l <> [] ->
    explains s (length pre, length pre + 1) UnopenedParens
(** A character that is not part of a token. *)
| ex_stray pre c rest ts :
    s = pre ++ c :: rest -> fine pre ts -> parted pre (c :: rest) -> no_token c ->
    (forall b r, blank b -> c :: rest = b ++ r -> b = []) ->
    explains s (length pre, length pre + 1) (Unexpected ["<key>"; "all"; "any"; "not"]%string)
| ex_quote pre v ts :
    s = pre ++ quote :: v -> fine pre ts -> ~ In quote v ->
    explains s (length pre, length s) UnclosedQuotes
(** [not( )] with no or several arguments. *)
| ex_not pre w rest ts its args :
    s = pre ++ (B "not" ++ w ++ B ")") ++ rest ->
    lexes pre ts -> lexes w (TOpen :: its) -> items args its -> count8 args <> 1 ->
    fine (pre ++ B "not" ++ w) (ts ++ TNot :: TOpen :: its) ->
    explains s (length pre, length pre + length (B "not" ++ w ++ B ")")) (InvalidNot (count8 args))
(** Ends after an equals sign. *)
| ex_value ts :
    fine s (ts ++ [TEquals]) ->
    explains s (length s, length s)
      (Unexpected [String quote ("<value>" ++ String quote EmptyString)]%string)
(** Ends after the name of a call. *)
| ex_name pre f b ts :
    s = pre ++ callee_name f ++ b -> fine pre ts -> begins (ts ++ [callee_token f]) ->
    blank b ->
    explains s (length pre, length pre + 3) (Unexpected ["("]%string)
(** Ends inside a call, whose opening parenthesis is pointed at. *)
| ex_unclosed pre rest ts its args :
    s = pre ++ B "(" ++ rest -> lexes pre ts -> lexes rest its -> items args its ->
    fine s (ts ++ TOpen :: its) ->
    explains s (length pre, length s) UnclosedParens
| ex_empty : blank s -> explains s (0, length s) Empty
(** Several predicates outside any call. *)
| ex_roots roots :
    written roots s -> Forall (proper count8) roots -> 1 < leaves roots ->
    explains s (0, length s) MultipleRootPredicates.

(** Reasons that differ at most in how they name the terms that could follow. *)
Inductive alike : reason -> reason -> Prop :=
| alike_same r : alike r r
| alike_names ts names names' :
    hints ts names -> hints ts names' -> alike (Unexpected names) (Unexpected names').

(** ** Messages *)

Definition newline : ascii := ascii_of_nat 10.

(** The line has a mark in column [i]. *)
Definition marked (line : str) (i : nat) : Prop :=
  nth_error line i = Some "^"%char \/ nth_error line i = Some "-"%char.

(** What is marked: only the beginning of what is left open, otherwise all of it. *)
Definition to_mark (sp : nat * nat) (r : reason) (i : nat) : Prop :=
  match r with
  | UnclosedParens | UnclosedQuotes => i = fst sp
  | _ => fst sp <= i < snd sp
  end.

(** The names of terms contain no backquote. *)
Definition plain_names (r : reason) : Prop :=
  match r with
  | Unexpected names => Forall (fun h => ~ In "`"%char (B h)) names
  | _ => True
  end.

(** The number of characters of a text. *)
Definition characters (s : str) (n : nat) : Prop :=
  exists chars, concat chars = s /\ Forall (fun c => exists k, encodes k c) chars /\ length chars = n.
