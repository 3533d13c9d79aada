(** UTF-8, as defined by Unicode: the bytes of each scalar value, one after the
    other. *)
From Verif.Model Require Import Base.
From Verif.Spec Require Import StrSpec.

(** The encoding of a scalar value: in base 64, most significant digit first, the
    shortest form that fits; surrogates are not scalar values. *)
Inductive encodes : N -> str -> Prop :=
| encodes1 n : (n < 128)%N -> encodes n (bytes [n])
| encodes2 n a b :
    (128 <= n < 2048)%N -> (n = 64 * a + b)%N -> (b < 64)%N ->
    encodes n (bytes [192 + a; 128 + b]%N)
| encodes3 n a b c :
    (2048 <= n < 65536)%N -> ~ (55296 <= n <= 57343)%N ->
    (n = 4096 * a + 64 * b + c)%N -> (b < 64)%N -> (c < 64)%N ->
    encodes n (bytes [224 + a; 128 + b; 128 + c]%N)
| encodes4 n a b c d :
    (65536 <= n <= 1114111)%N ->
    (n = 262144 * a + 4096 * b + 64 * c + d)%N -> (b < 64)%N -> (c < 64)%N -> (d < 64)%N ->
    encodes n (bytes [240 + a; 128 + b; 128 + c; 128 + d]%N).

Inductive utf8 : str -> Prop :=
| utf8_nil : utf8 []
| utf8_cons n c s : encodes n c -> utf8 s -> utf8 (c ++ s).

(** ** Text from any bytes *)

Definition starts_with_char (s : str) : Prop := exists n c r, encodes n c /\ s = c ++ r.
(** The beginning of a character whose end is missing. *)
Definition cut_short (p : str) : Prop := p <> [] /\ exists n c r, encodes n c /\ c = p ++ r /\ r <> [].
(** What is replaced at the start of a text that does not start with a character: as much
    as could be the beginning of one, but at least one byte. *)
Definition to_replace (p s : str) : Prop :=
  ~ starts_with_char (p ++ s)
  /\ ((cut_short p /\ forall q r, s = q ++ r -> q <> [] -> ~ cut_short (p ++ q))
      \/ (length p = 1 /\ forall q r, p ++ s = q ++ r -> ~ cut_short q)).
(** U+FFFD REPLACEMENT CHARACTER *)
Definition replacement_character : str := bytes [239; 191; 189]%N.
Inductive repaired : str -> str -> Prop :=
| repaired_nil : repaired [] []
| repaired_char n c s t : encodes n c -> repaired s t -> repaired (c ++ s) (c ++ t)
| repaired_bytes p s t :
    to_replace p s -> repaired s t -> repaired (p ++ s) (replacement_character ++ t).
