(** The very text of two joined paths on Windows. *)
From Verif.Model Require Import Base.
From Verif.Spec Require Import StrSpec WinSpec WinAnySpec.

(** Nothing need be put behind it: it is empty, ends with a separator, or is a bare drive. *)
Inductive sealed : str -> Prop :=
| sealed_empty : sealed []
| sealed_separator u k : separates k -> sealed (u ++ [k])
| sealed_drive c : is_letter c -> sealed [c; ":"%char].
Definition nowhere (p : str) : Prop := forall s t, ~ starts p s t.
Definition in_long_form (p : str) : Prop := exists s t, starts p s t /\ long s.

Inductive joined : str -> str -> str -> Prop :=
| joined_volume base q s t : starts q s t -> joined base q q
(* from the root: what the volume is written as stays *)
| joined_root h s t q : starts (h ++ t) s t -> ~ long s -> nowhere q -> leads q -> joined (h ++ t) q (h ++ q)
| joined_top base q : nowhere base -> nowhere q -> leads q -> joined base q q
(* below: the text stays *)
| joined_sealed base q : ~ in_long_form base \/ q = [] -> nowhere q -> ~ leads q -> sealed base -> joined base q (base ++ q)
| joined_below base q : ~ in_long_form base \/ q = [] -> nowhere q -> ~ leads q -> ~ sealed base -> joined base q (base ++ back :: q)
(* in the long form: the volume stays, the words are written anew *)
| joined_long h s t r ws q rq wq : starts (h ++ t) s t -> long s -> q <> [] ->
    reads (h ++ t) (Some s) r ws -> reads q None rq wq -> r = true \/ rq = true \/ onto ws wq <> [] ->
    joined (h ++ t) q (h ++ back :: intercalate back (onto (if rq then [] else ws) wq))
| joined_bare h s t ws q wq : starts (h ++ t) s t -> long s -> q <> [] ->
    reads (h ++ t) (Some s) false ws -> reads q None false wq -> onto ws wq = [] -> joined (h ++ t) q h.
