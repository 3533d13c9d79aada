(** What a [cfg(...)] expression is and means, stated without the model's lexer,
    parser or evaluator.  Only the data types [token] and [predicate] are shared. *)
From Verif.Model Require Import Base Str Error CfgExpr.
From Verif.Spec Require Import StrSpec.

(** ** Text to tokens *)

(** ASCII letters, digits and the underscore. *)
Definition letter (c : ascii) : Prop :=
  (65 <= nb c <= 90 \/ 97 <= nb c <= 122 \/ nb c = 95)%N.
Definition digit (c : ascii) : Prop := (48 <= nb c <= 57)%N.

(** A letter followed by letters and digits. *)
Definition identifier (w : str) : Prop :=
  exists c r, w = c :: r /\ letter c /\ Forall (fun c => letter c \/ digit c) r.

Definition quote : ascii := ascii_of_N 34.

(** How a token is written. *)
Inductive spelled : token -> str -> Prop :=
| spelled_key w :
    identifier w -> w <> B "all" -> w <> B "any" -> w <> B "not" -> spelled (TKey w) w
| spelled_value v : ~ In quote v -> spelled (TValue v) (quote :: v ++ [quote])
| spelled_equals : spelled TEquals (B "=")
| spelled_open : spelled TOpen (B "(")
| spelled_close : spelled TClose (B ")")
| spelled_comma : spelled TComma (B ",")
| spelled_all : spelled TAll (B "all")
| spelled_any : spelled TAny (B "any")
| spelled_not : spelled TNot (B "not").

(** Words are read as far as possible. *)
Definition is_word (t : token) : Prop :=
  match t with TKey _ | TAll | TAny | TNot => True | _ => False end.
Definition word_goes_on (s : str) : Prop :=
  exists c r, s = c :: r /\ (letter c \/ digit c).

(** A text read as tokens, white space being skipped. *)
Inductive lexes : str -> list token -> Prop :=
| lexes_end s : blank s -> lexes s []
| lexes_token b w rest t ts :
    blank b -> spelled t w -> (is_word t -> ~ word_goes_on rest) -> lexes rest ts ->
    lexes (b ++ w ++ rest) (t :: ts).

(** ** Tokens to trees *)

Inductive callee := CAll | CAny | CNot.

Inductive tree :=
| Leaf (p : predicate)
| Call (f : callee) (args : list tree).

Definition callee_token (f : callee) : token :=
  match f with CAll => TAll | CAny => TAny | CNot => TNot end.

Inductive item : tree -> list token -> Prop :=
| item_flag k : item (Leaf (PFlag k)) [TKey k]
| item_pair k v : item (Leaf (PKeyValue k v)) [TKey k; TEquals; TValue v]
| item_call f args ts :
    items args ts -> item (Call f args) (callee_token f :: TOpen :: ts ++ [TClose])
(** Items separated by one or more commas; commas may follow the last. *)
with items : list tree -> list token -> Prop :=
| items_none : items [] []
| items_last x ts n : item x ts -> items [x] (ts ++ repeat TComma n)
| items_more x ts n y l rest :
    item x ts -> items (y :: l) rest ->
    items (x :: y :: l) (ts ++ repeat TComma (S n) ++ rest).

(** [s] is a way of writing the list of trees [l]. *)
Definition written (l : list tree) (s : str) : Prop := exists ts, lexes s ts /\ items l ts.

(** The [cfg( )] around an expression is optional. *)
Inductive unwrapped : str -> str -> Prop :=
| unwrapped_cfg s : unwrapped (B "cfg(" ++ s ++ B ")") s
| unwrapped_plain s : (forall r, s <> B "cfg(" ++ r ++ B ")") -> unwrapped s s.

(** ** Conditions on trees *)

Definition is_leaf (x : tree) : bool := match x with Leaf _ => true | Call _ _ => false end.
Definition is_call (x : tree) : bool := negb (is_leaf x).
Definition leaves (l : list tree) : nat := length (filter is_leaf l).
Definition calls (l : list tree) : nat := length (filter is_call l).

(** [not] is given one argument, when arguments are counted with [count]. *)
Inductive proper (count : list tree -> nat) : tree -> Prop :=
| proper_leaf p : proper count (Leaf p)
| proper_call f args :
    Forall (proper count) args -> (f = CNot -> count args = 1) ->
    proper count (Call f args).

(** Calls among the arguments counted modulo 256. *)
Definition count8 (l : list tree) : nat := leaves l + calls l mod 256.

(** Fewer than 256 calls in any one argument list. *)
Inductive narrow : tree -> Prop :=
| narrow_leaf p : narrow (Leaf p)
| narrow_call f args : Forall narrow args -> calls args < 256 -> narrow (Call f args).

(** The lists of trees the parser takes. *)
Definition accepted (s : str) (roots : list tree) : Prop :=
  written roots s /\ Forall (proper count8) roots /\ roots <> [] /\ leaves roots <= 1.

(** The number of opening parentheses. *)
Definition opens (s : str) : nat := count_occ ascii_dec s "("%char.

(** An error about the text [original], pointing inside it. *)
Definition err_ok (original : str) (e : parse_error) : Prop :=
  pe_original e = original /\
  fst (pe_span e) <= snd (pe_span e) <= length original.

(** ** Writing trees *)

Definition callee_name (f : callee) : str :=
  match f with CAll => B "all" | CAny => B "any" | CNot => B "not" end.
Fixpoint comma_join (l : list str) : str :=
  match l with
  | [] => []
  | [x] => x
  | x :: rest => x ++ B ", " ++ comma_join rest
  end.
(** The usual way of writing a tree. *)
Fixpoint show (x : tree) : str :=
  match x with
  | Leaf (PFlag k) => k
  | Leaf (PKeyValue k v) => k ++ B " = " ++ quote :: v ++ [quote]
  | Call f args => callee_name f ++ B "(" ++ comma_join (map show args) ++ B ")"
  end.
Definition name_ok (k : str) : Prop :=
  identifier k /\ k <> B "all" /\ k <> B "any" /\ k <> B "not".
Inductive printable : tree -> Prop :=
| printable_flag k : name_ok k -> printable (Leaf (PFlag k))
| printable_pair k v : name_ok k -> ~ In quote v -> printable (Leaf (PKeyValue k v))
| printable_call f args : Forall printable args -> printable (Call f args).

(** ** Meaning *)

Fixpoint meaning (holds : predicate -> bool) (x : tree) : bool :=
  match x with
  | Leaf p => holds p
  | Call CAll args => forallb (meaning holds) args
  | Call CAny args => existsb (meaning holds) args
  | Call CNot args => negb (existsb (meaning holds) args)
  end.

(** Three-valued meaning: [None] is "unknown".  A conjunction is false as soon as
    one member is, and true only if all are; dually for a disjunction. *)
Inductive meaning3 (holds : predicate -> option bool) : tree -> option bool -> Prop :=
| m3_leaf p : meaning3 holds (Leaf p) (holds p)
| m3_all args vs v :
    Forall2 (meaning3 holds) args vs ->
    (v = Some false <-> In (Some false) vs) ->
    (v = Some true <-> Forall (fun v => v = Some true) vs) ->
    meaning3 holds (Call CAll args) v
| m3_any args vs v :
    Forall2 (meaning3 holds) args vs ->
    (v = Some true <-> In (Some true) vs) ->
    (v = Some false <-> Forall (fun v => v = Some false) vs) ->
    meaning3 holds (Call CAny args) v
| m3_not x v : meaning3 holds x v -> meaning3 holds (Call CNot [x]) (option_map negb v).

(** ** What [rustc --print cfg] says *)

(** [w] is one of the lines of [out], without the white space around it. *)
Definition text_line (out w : str) : Prop :=
  exists pieces p,
    intercalate (ascii_of_N 10) pieces = out /\
    Forall (fun p => ~ In (ascii_of_N 10) p) pieces /\ In p pieces /\ trimmed_of p w.

(** A line [name]. *)
Definition says_flag (out f : str) : Prop :=
  text_line out f /\ f <> [] /\ ~ In "="%char f.
(** A line [key="value"]. *)
Definition says_pair (out k v : str) : Prop :=
  text_line out (k ++ "="%char :: quote :: v ++ [quote]) /\ ~ In "="%char k.

(** Names that never hold: they are not known when Cargo reads the configuration. *)
Definition never_flags : list str := [B "test"; B "debug_assertions"; B "proc_macro"].
Definition never_keys : list str := [B "feature"].

Definition holds (out : str) (p : predicate) : Prop :=
  match p with
  | PFlag f => says_flag out f /\ ~ In f never_flags
  | PKeyValue k v => says_pair out k v /\ ~ In k never_keys
  end.
