(** src/cfg_expr/error.rs:37-94: the texts of errors in [cfg(...)] expressions. *)
From Coq Require Import DecimalString.
From Verif.Model Require Import Base Str Error.

(** [Display] for [usize]. *)
Definition decimal (n : nat) : str := B (NilZero.string_of_uint (Nat.to_uint n)).

(** src/cfg_expr/error.rs:80-82: the expected terms, each in backquotes, with a
    comma and a space before all but the first. *)
Fixpoint quoted_list (l : list string) : str :=
  match l with
  | [] => []
  | [x] => bt (B x)
  | x :: rest => bt (B x) ++ B ", " ++ quoted_list rest
  end.

(** src/cfg_expr/error.rs:64-94 [Display for Reason]. *)
Definition reason_text (r : reason) : str :=
  match r with
  | UnclosedParens => B "unclosed parens"
  | UnopenedParens => B "unopened parens"
  | UnclosedQuotes => B "unclosed quotes"
  | Empty => B "empty expression"
  | Unexpected expected =>
      match expected with
      | [] => B "the term was not expected here"
      | [x] => B "expected a " ++ bt (B x) ++ B " here"
      | _ => B "expected one of " ++ quoted_list expected ++ B " here"
      end
  | InvalidNot np => B "not() takes 1 predicate, found " ++ decimal np
  | MultipleRootPredicates => B "multiple root predicates"
  end.

(** src/cfg_expr/error.rs:37-62 [Display for ParseError]. *)
Definition parse_error_text (e : parse_error) : str :=
  let '(start, stop) := pe_span e in
  pe_original e ++ B (String (ascii_of_nat 10) EmptyString) ++ repeat " "%char start ++
  match pe_reason e with
  | UnclosedParens | UnclosedQuotes => B "- " ++ reason_text (pe_reason e)
  | UnopenedParens => B "^ " ++ reason_text (pe_reason e)
  | _ => repeat "^"%char (stop - start) ++ B " " ++ reason_text (pe_reason e)
  end.
