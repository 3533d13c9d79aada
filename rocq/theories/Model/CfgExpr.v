(** src/cfg_expr: lexer, parser and evaluator of [cfg(...)] expressions. *)
From Verif.Model Require Import Base Str Error.

(** ** Lexer: src/cfg_expr/expr/lexer.rs *)

(** src/cfg_expr/expr/lexer.rs:9-30 [Token]. *)
Inductive token :=
| TKey (s : str)
| TValue (s : str)
| TEquals
| TAll
| TAny
| TNot
| TOpen
| TClose
| TComma.

(** src/cfg_expr/expr/lexer.rs:38-47 [Token::len]. *)
Definition token_len (t : token) : nat :=
  match t with
  | TKey s => length s
  | TValue s => length s + 2
  | TEquals | TOpen | TClose | TComma => 1
  | TAll | TAny | TNot => 3
  end.

(** src/cfg_expr/expr/lexer.rs:64-72 [Lexer::new]: strips [cfg( )]. *)
Definition lexer_text (text : str) : res parse_error str :=
  if (starts_with (B "cfg(") text && ends_with (B ")") text)%bool
  then match slice text 4 (length text - 1) with
       | Some t => Ok t
       | None => Panic PSlice
       end
  else Ok text.

(** src/cfg_expr/expr/lexer.rs:89-98 *)
Definition is_lower (c : ascii) : bool := in_range 97 122 (nb c).
Definition is_upper (c : ascii) : bool := in_range 65 90 (nb c).
Definition is_digit (c : ascii) : bool := in_range 48 57 (nb c).
Definition is_ident_start (c : ascii) : bool :=
  (Ascii.eqb c "_" || is_lower c || is_upper c)%bool.
Definition is_ident_rest (c : ascii) : bool := (is_ident_start c || is_digit c)%bool.

(** [&s[i..]] *)
Definition slice_from (s : str) (i : nat) : option str := slice s i (length s).

(** [s.find(pred)]: index of the first matching byte.  The predicates used are
    either an ASCII character, or say the same of all non-ASCII characters and of
    the bytes such characters consist of. *)
Fixpoint find_byte (f : ascii -> bool) (s : str) : option nat :=
  match s with
  | [] => None
  | c :: t => if f c then Some 0 else option_map S (find_byte f t)
  end.

Definition or_slice {E A} (o : option A) : res E A :=
  match o with Some a => Ok a | None => Panic PSlice end.

(** src/cfg_expr/expr/lexer.rs:111-146: the token at the front of [inner]. *)
Definition lex_token (original inner : str) (offset : nat) (c : ascii)
  : res parse_error token :=
  if Ascii.eqb c "=" then Ok TEquals
  else if Ascii.eqb c "(" then Ok TOpen
  else if Ascii.eqb c ")" then Ok TClose
  else if Ascii.eqb c "," then Ok TComma
  else if Ascii.eqb c dquote then
    rest <- or_slice (slice_from inner 1) ;;
    match find_byte (Ascii.eqb dquote) rest with
    | Some ind => v <- or_slice (slice inner 1 (ind + 1)) ;; Ok (TValue v)
    | None => Err (mkParseError original (offset, length original) UnclosedQuotes)
    end
  else if is_ident_start c then
    rest <- or_slice (slice_from inner 1) ;;
    sub <- match find_byte (fun c => negb (is_ident_rest c)) rest with
           | Some ind => or_slice (slice inner 0 (ind + 1))
           | None => Ok inner
           end ;;
    Ok (if str_eqb sub (B "all") then TAll
        else if str_eqb sub (B "any") then TAny
        else if str_eqb sub (B "not") then TNot
        else TKey sub)
  else Err (mkParseError original (offset, offset + 1)
              (Unexpected ["<key>"; "all"; "any"; "not"]%string)).

(** src/cfg_expr/expr/lexer.rs:85-159 [Lexer::next].  Returns the token, its span
    and the new [inner] and [offset]. *)
Definition lex_next (original inner : str) (offset : nat)
  : res parse_error (option (token * (nat * nat) * str * nat)) :=
  let idx := length inner - length (trim_start inner) in
  inner1 <- or_slice (slice_from inner idx) ;;
  let offset1 := offset + idx in
  match inner1 with
  | [] => Ok None
  | c :: _ =>
      tok <- lex_token original inner1 offset1 c ;;
      let len := token_len tok in
      inner2 <- or_slice (slice_from inner1 len) ;;
      Ok (Some (tok, (offset1, offset1 + len), inner2, offset1 + len))
  end.

(** ** Parser: src/cfg_expr/expr/parser.rs *)

(** src/cfg_expr/expr/mod.rs:11-27 [Func]. *)
Inductive func := FNot | FAll (n : nat) | FAny (n : nat).

Definition span := (nat * nat)%type.

(** src/cfg_expr/expr/mod.rs:39-43 [InnerPredicate]. *)
Record inner_pred := mkPred {
  ip_identifier : span;
  ip_value : option span
}.

(** src/cfg_expr/expr/mod.rs:56-60 [ExprNode]. *)
Inductive expr_node :=
| NFn (f : func)
| NPred (p : inner_pred).

(** src/cfg_expr/expr/mod.rs:62-69 [Expression]. *)
Record expression := mkExpression {
  ex_expr : list expr_node;
  ex_original : str
}.

(** src/cfg_expr/expr/parser.rs:15-22 [FuncAndSpan]. *)
Record func_and_span := mkFs {
  fs_func : func;
  fs_parens_index : nat;
  fs_span : span;
  fs_predicates : list inner_pred;
  fs_nest_level : nat
}.

(** The mutable locals of [Expression::parse], src/cfg_expr/expr/parser.rs:30-67.
    [func_stack] has its top first, [expr_queue] is in order.  Keys and values are
    represented by their spans only, as the code ignores the texts. *)
Record pstate := mkPs {
  ps_stack : list func_and_span;
  ps_queue : list expr_node;
  ps_last : option token;
  ps_key : option span;
  ps_val : option span;
  ps_roots : nat
}.

Definition ps_init : pstate := mkPs [] [] None None None 0.

(** src/cfg_expr/expr/parser.rs:43-62 [token_err!]. *)
Definition expected_after (last : option token) : list string :=
  match last with
  | None => ["<key>"; "all"; "any"; "not"]
  | Some (TAll | TAny | TNot) => ["("]
  | Some TClose => [")"; ","]
  | Some TComma => [")"; "<key>"]
  | Some TEquals => [String (ascii_of_nat 34) EmptyString]
  | Some (TKey _) => ["="; ","; ")"]
  | Some (TValue _) => [","; ")"]
  | Some TOpen => ["<key>"; ")"; "all"; "any"; "not"]
  end%string.

Definition token_err {A} (original : str) (last : option token) (sp : span) : res parse_error A :=
  Err (mkParseError original sp (Unexpected (expected_after last))).

(** [fs.nest_level += 1] on a [u8]. *)
Definition incr_u8 (pr : profile) (n : nat) : res parse_error nat :=
  if Nat.ltb n 255 then Ok (S n)
  else if overflow_checks pr then Panic POverflow
  else Ok 0.

Definition with_last (s : pstate) (t : token) : pstate :=
  mkPs (ps_stack s) (ps_queue s) (Some t) (ps_key s) (ps_val s) (ps_roots s).

(** src/cfg_expr/expr/parser.rs:36-41 [parse_predicate] on [Option]s. *)
Definition preds_of (key val : option span) : list inner_pred :=
  match key with Some k => [mkPred k val] | None => [] end.

(** src/cfg_expr/expr/parser.rs:72-216: one iteration of the token loop. *)
Definition pstep (pr : profile) (original : str) (s : pstate) (t : token) (sp : span)
  : res parse_error pstate :=
  match t with
  | TKey _ =>
      (* 73-79 *)
      match ps_last s with
      | None | Some TOpen | Some TComma =>
          Ok (mkPs (ps_stack s) (ps_queue s) (Some t) (Some sp) (ps_val s) (ps_roots s))
      | _ => token_err original (ps_last s) sp
      end
  | TValue _ =>
      (* 80-91 *)
      match ps_last s with
      | Some TEquals =>
          Ok (mkPs (ps_stack s) (ps_queue s) (Some t) (ps_key s)
                (Some (fst sp + 1, snd sp - 1)) (ps_roots s))
      | _ => token_err original (ps_last s) sp
      end
  | TEquals =>
      (* 92-96 *)
      match ps_last s with
      | Some (TKey _) => Ok (with_last s t)
      | _ => token_err original (ps_last s) sp
      end
  | TAll | TAny | TNot =>
      (* 97-122 *)
      match ps_last s with
      | None | Some TOpen | Some TComma =>
          let new_fn := match t with TAll => FAll 0 | TAny => FAny 0 | _ => FNot end in
          stack <- match ps_stack s with
                   | [] => Ok []
                   | fs :: rest =>
                       n <- incr_u8 pr (fs_nest_level fs) ;;
                       Ok (mkFs (fs_func fs) (fs_parens_index fs) (fs_span fs)
                             (fs_predicates fs) n :: rest)
                   end ;;
          Ok (mkPs (mkFs new_fn 0 sp [] 0 :: stack) (ps_queue s) (Some t)
                (ps_key s) (ps_val s) (ps_roots s))
      | _ => token_err original (ps_last s) sp
      end
  | TOpen =>
      (* 123-131 *)
      match ps_last s with
      | Some (TAll | TAny | TNot) =>
          let stack := match ps_stack s with
                       | [] => []
                       | fs :: rest =>
                           mkFs (fs_func fs) (fst sp) (fs_span fs) (fs_predicates fs)
                             (fs_nest_level fs) :: rest
                       end in
          Ok (mkPs stack (ps_queue s) (Some t) (ps_key s) (ps_val s) (ps_roots s))
      | _ => token_err original (ps_last s) sp
      end
  | TClose =>
      (* 132-187 *)
      match ps_last s with
      | None | Some (TAll | TAny | TNot | TEquals) => token_err original (ps_last s) sp
      | _ =>
          match ps_stack s with
          | top :: rest =>
              let num := length (fs_predicates top)
                         + (if ps_key s then 1 else 0) + fs_nest_level top in
              f <- match fs_func top with
                   | FAll _ => Ok (FAll num)
                   | FAny _ => Ok (FAny num)
                   | FNot =>
                       if negb (Nat.eqb num 1)
                       then Err (mkParseError original (fst (fs_span top), snd sp)
                                   (InvalidNot num))
                       else Ok FNot
                   end ;;
              Ok (mkPs rest
                    (ps_queue s ++ map NPred (fs_predicates top)
                       ++ map NPred (preds_of (ps_key s) (ps_val s)) ++ [NFn f])
                    (Some TClose) None None (ps_roots s))
          | [] => Err (mkParseError original sp UnopenedParens)
          end
      end
  | TComma =>
      (* 188-213 *)
      match ps_last s with
      | None | Some (TOpen | TAll | TAny | TNot | TEquals) =>
          token_err original (ps_last s) sp
      | _ =>
          match ps_key s with
          | Some k =>
              let pred := mkPred k (ps_val s) in
              match ps_stack s with
              | fs :: rest =>
                  Ok (mkPs (mkFs (fs_func fs) (fs_parens_index fs) (fs_span fs)
                              (fs_predicates fs ++ [pred]) (fs_nest_level fs) :: rest)
                        (ps_queue s) (Some t) None None (ps_roots s))
              | [] =>
                  Ok (mkPs [] (ps_queue s ++ [NPred pred]) (Some t) None None
                        (S (ps_roots s)))
              end
          | None => Ok (mkPs (ps_stack s) (ps_queue s) (Some t) None None (ps_roots s))
          end
      end
  end.

(** src/cfg_expr/expr/parser.rs:70-217: the token loop.  Every token is at least
    one byte long, so [length inner + 1] rounds are enough. *)
Fixpoint ploop (fuel : nat) (pr : profile) (original inner : str) (offset : nat) (s : pstate)
  : res parse_error pstate :=
  match fuel with
  | O => Panic PFuel
  | S fuel' =>
      nx <- lex_next original inner offset ;;
      match nx with
      | None => Ok s
      | Some (tok, sp, inner', offset') =>
          s' <- pstep pr original s tok sp ;;
          ploop fuel' pr original inner' offset' s'
      end
  end.

(** src/cfg_expr/expr/parser.rs:219-266: after the loop. *)
Definition pfinish (original : str) (s : pstate) : res parse_error expression :=
  let len := length original in
  match ps_last s with
  | Some TEquals =>
      Err (mkParseError original (len, len)
             (Unexpected [String (ascii_of_nat 34)
                            ("<value>" ++ String (ascii_of_nat 34) EmptyString)]%string))
  | _ =>
      match ps_stack s with
      | top :: _ =>
          if Nat.eqb (fs_parens_index top) 0
          then Err (mkParseError original (fs_span top) (Unexpected ["("]%string))
          else Err (mkParseError original (fs_parens_index top, len) UnclosedParens)
      | [] =>
          let preds := preds_of (ps_key s) (ps_val s) in
          let roots := ps_roots s + length preds in
          let queue := ps_queue s ++ map NPred preds in
          match queue with
          | [] => Err (mkParseError original (0, len) Empty)
          | _ =>
              if Nat.ltb 1 roots
              then Err (mkParseError original (0, len) MultipleRootPredicates)
              else Ok (mkExpression queue original)
          end
      end
  end.

(** src/cfg_expr/expr/parser.rs:14-267 [Expression::parse]. *)
Definition parse_expr (pr : profile) (text : str) : res parse_error expression :=
  original <- lexer_text text ;;
  s <- ploop (S (length original)) pr original original 0 ps_init ;;
  pfinish original s.

(** ** Evaluation: src/cfg_expr/expr/mod.rs *)

(** src/cfg_expr/expr/mod.rs:29-37 [Predicate]. *)
Inductive predicate :=
| PFlag (s : str)
| PKeyValue (key val : str).

(** src/cfg_expr/expr/mod.rs:45-54 [InnerPredicate::to_pred]. *)
Definition to_pred {E} (s : str) (p : inner_pred) : res E predicate :=
  match ip_value p with
  | Some vs =>
      key <- or_slice (slice s (fst (ip_identifier p)) (snd (ip_identifier p))) ;;
      v <- or_slice (slice s (fst vs) (snd vs)) ;;
      Ok (PKeyValue key v)
  | None =>
      key <- or_slice (slice s (fst (ip_identifier p)) (snd (ip_identifier p))) ;;
      Ok (PFlag key)
  end.

(** src/cfg_expr/expr/mod.rs:143-160 [Logic]. *)
Record logic (T : Type) := mkLogic {
  l_top : T;
  l_bottom : T;
  l_and : T -> T -> T;
  l_or : T -> T -> T;
  l_not : T -> T
}.
Arguments l_top {T} l. Arguments l_bottom {T} l. Arguments l_and {T} l.
Arguments l_or {T} l. Arguments l_not {T} l.

(** src/cfg_expr/expr/mod.rs:163-188 [Logic for bool]. *)
Definition logic_bool : logic bool := mkLogic bool true false andb orb negb.

(** src/cfg_expr/expr/mod.rs:194-234 [Logic for Option<bool>]. *)
Definition logic_option : logic (option bool) :=
  mkLogic (option bool) (Some true) (Some false)
    (fun a b => match a, b with
                | Some false, _ | _, Some false => Some false
                | Some true, Some true => Some true
                | _, _ => None
                end)
    (fun a b => match a, b with
                | Some true, _ | _, Some true => Some true
                | Some false, Some false => Some false
                | _, _ => None
                end)
    (option_map negb).

(** [for _ in 0..count { result = op(result, stack.pop().unwrap()) }] *)
Fixpoint pop_n {E T} (op : T -> T -> T) (n : nat) (acc : T) (stack : list T)
  : res E (T * list T) :=
  match n with
  | O => Ok (acc, stack)
  | S n' =>
      match stack with
      | [] => Panic PUnwrapNone
      | r :: stack' => pop_n op n' (op acc r) stack'
      end
  end.

(** src/cfg_expr/expr/mod.rs:99-133: one node. *)
Definition eval_node {E T} (L : logic T) (ep : predicate -> T) (original : str)
  (stack : list T) (n : expr_node) : res E (list T) :=
  match n with
  | NPred p => pred <- to_pred original p ;; Ok (ep pred :: stack)
  | NFn (FAll count) =>
      r <- pop_n (l_and L) count (l_top L) stack ;; Ok (fst r :: snd r)
  | NFn (FAny count) =>
      r <- pop_n (l_or L) count (l_bottom L) stack ;; Ok (fst r :: snd r)
  | NFn FNot =>
      match stack with
      | [] => Panic PUnwrapNone
      | r :: stack' => Ok (l_not L r :: stack')
      end
  end.

Fixpoint eval_nodes {E T} (L : logic T) (ep : predicate -> T) (original : str)
  (stack : list T) (ns : list expr_node) : res E (list T) :=
  match ns with
  | [] => Ok stack
  | n :: rest =>
      stack' <- eval_node L ep original stack n ;;
      eval_nodes L ep original stack' rest
  end.

(** src/cfg_expr/expr/mod.rs:90-137 [Expression::eval]. *)
Definition eval_expr {E T} (L : logic T) (ep : predicate -> T) (e : expression) : res E T :=
  stack <- eval_nodes L ep (ex_original e) [] (ex_expr e) ;;
  match stack with
  | [] => Panic PUnwrapNone
  | r :: _ => Ok r
  end.
