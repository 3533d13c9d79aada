(** How text is shown by Debug output, as documented for [char::escape_debug] and
    [str::escape_debug]. *)
From Verif.Model Require Import Base.
From Verif.Spec Require Import StrSpec Utf8Spec.

Section Shown.
(** Which characters beyond ASCII are printable, and whether single quotes in paths are
    escaped. *)
Variable plain : N -> bool.
Variable quote : bool.

Definition short_names : list (N * string) :=
  [(0, "\0"); (9, "\t"); (10, "\n"); (13, "\r"); (34, "\"""); (92, "\\")]%N%string.
Definition has_name (n : N) : Prop := In n (map fst short_names).
Definition visible (n : N) : Prop := (32 <= n < 127)%N \/ ((128 <= n)%N /\ plain n = true).

(** [h] is [n] in base 16. *)
Definition numeral (alphabet : string) (h : str) (n : N) : Prop :=
  exists ds, Forall (fun d => d < 16)%N ds
  /\ h = map (fun d => nth (N.to_nat d) (B alphabet) " "%char) ds
  /\ fold_left (fun a d => 16 * a + d)%N ds 0%N = n.

Inductive char_shown (os : bool) : N -> str -> str -> Prop :=
| by_name n c t : In (n, t) short_names -> char_shown os n c (B t)
| by_quote c : os = true -> quote = true -> char_shown os 39 c (B "\'")
| as_is n c :
    visible n -> ~ has_name n -> ~ (n = 39%N /\ os = true /\ quote = true) -> char_shown os n c c
| by_number n c d h :
    ~ visible n -> ~ has_name n -> numeral "0123456789abcdef" (d :: h) n -> d <> "0"%char ->
    char_shown os n c (B "\u{" ++ (d :: h) ++ B "}").

Definition byte_shown (b : ascii) (t : str) : Prop :=
  exists h, t = B "\x" ++ h /\ length h = 2 /\ numeral "0123456789ABCDEF" h (N_of_ascii b).

Inductive text_shown (os : bool) : str -> str -> Prop :=
| shown_nil : text_shown os [] []
| shown_char n c u s t :
    encodes n c -> char_shown os n c u -> text_shown os s t -> text_shown os (c ++ s) (u ++ t)
| shown_bytes p us s t :
    to_replace p s -> Forall2 byte_shown p us -> text_shown os s t -> text_shown os (p ++ s) (concat us ++ t).
End Shown.

(** Text that can be shown on one line: no control characters. *)
Definition in_line (s : str) : Prop := Forall (fun c => 32 <= N_of_ascii c /\ N_of_ascii c <> 127)%N s.
