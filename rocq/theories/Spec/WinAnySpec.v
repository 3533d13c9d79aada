(** Any text as a path on Windows: where it starts, and the words that follow. *)
From Verif.Model Require Import Base.
From Verif.Spec Require Import StrSpec WinSpec.

Inductive start :=
| AtDrive (c : ascii)              (* C: *)
| AtShare (server share : str)     (* \\server\share *)
| AtDevice (name : str)            (* \\.\name *)
| LongDrive (c : ascii)            (* \\?\C: *)
| LongShare (server share : str)   (* \\?\UNC\server\share *)
| LongName (name : str).           (* \\?\name *)
Definition long (s : start) : Prop :=
  match s with LongDrive _ | LongShare _ _ | LongName _ => True | _ => False end.
Definition drive (s : start) : Prop := match s with AtDrive _ => True | _ => False end.

Definition backward (k : ascii) : Prop := k = back.
Definition clear_of (sep : ascii -> Prop) (w : str) : Prop := forall k, In k w -> ~ sep k.
(** Nothing, or a separator first. *)
Definition ended (sep : ascii -> Prop) (t : str) : Prop := t = [] \/ exists k u, t = k :: u /\ sep k.
Definition leads (t : str) : Prop := exists k u, t = k :: u /\ separates k.

(** [p] starts at [s], and [t] follows.  Only backward slashes make the long form, and between
    its names only they are separators. *)
Inductive starts : str -> start -> str -> Prop :=
| starts_drive c t : is_letter c -> starts (c :: ":"%char :: t) (AtDrive (capital c)) t
| starts_share k k' a j b t :
    separates k -> separates k' -> separates j -> a <> [] -> b <> [] -> clear_of separates a -> clear_of separates b ->
    ended separates t -> a <> B "." -> ~ (k = back /\ k' = back /\ a = B "?" /\ j = back) ->
    starts (k :: k' :: a ++ j :: b ++ t) (AtShare a b) t
| starts_device k k' j n t :
    separates k -> separates k' -> separates j -> clear_of separates n -> ended separates t ->
    starts (k :: k' :: "."%char :: j :: n ++ t) (AtDevice n) t
| starts_long_drive c t : is_letter c -> ended separates t ->
    starts (B "\\?\" ++ c :: ":"%char :: t) (LongDrive (capital c)) t
| starts_long_share j a b t : separates j -> clear_of backward a -> clear_of backward b -> b <> [] -> ended backward t ->
    starts (B "\\?\UNC" ++ j :: a ++ back :: b ++ t) (LongShare a b) t
| starts_long_server j a t : separates j -> clear_of backward a -> (t = [] \/ exists u, t = back :: u /\ ended backward u) ->
    starts (B "\\?\UNC" ++ j :: a ++ t) (LongShare a []) t
| starts_long_name n t : clear_of backward n -> ended backward t ->
    ~ (exists j u, separates j /\ n ++ t = B "UNC" ++ j :: u) ->
    ~ (exists c u, is_letter c /\ ended separates u /\ n ++ t = c :: ":"%char :: u) ->
    starts (B "\\?\" ++ n ++ t) (LongName n) t.

(** The words between backward slashes; empty ones do not count. *)
Fixpoint cut_back (s : str) : list str :=
  match s with
  | [] => [[]]
  | c :: t => if Ascii.eqb c back then [] :: cut_back t
              else match cut_back t with w :: ws => (c :: w) :: ws | [] => [[c]] end
  end.
Definition long_pieces (s : str) : list str := filter (fun w => match w with [] => false | _ => true end) (cut_back s).
(** A dot counts at the very beginning only. *)
Definition first_dot (s : str) : list str := match cut s with w :: _ => if counts w then [] else match w with [] => [] | _ => [w] end | [] => [] end.

(** What [p] is read as: where it starts, if anywhere; whether from a root there; and the words. *)
Inductive reads : str -> option start -> bool -> list str -> Prop :=
| reads_drive p c t : starts p (AtDrive c) t -> ~ leads t -> reads p (Some (AtDrive c)) false (pieces t)
| reads_root p c t : starts p (AtDrive c) t -> leads t -> reads p (Some (AtDrive c)) true (pieces t)
| reads_share p s t : starts p s t -> ~ drive s -> ~ long s -> reads p (Some s) true (pieces t)
| reads_long p s : starts p s [] -> long s -> reads p (Some s) false []
| reads_long_root p s k t : starts p s (k :: t) -> long s -> reads p (Some s) true (long_pieces t)
| reads_here p : (forall s t, ~ starts p s t) -> ~ leads p -> reads p None false (first_dot p ++ pieces p)
| reads_top p : (forall s t, ~ starts p s t) -> leads p -> reads p None true (pieces p).

(** A dot in front of words that follow others does not count. *)
Definition after (ws : list str) : list str := match ws with w :: l => if counts w then ws else l | [] => [] end.
(** Joining adds to what the path is read as.  Not to a device without a name, a long share without
    one, [\\?\UNC] alone, or a path of no volume with two separators in front: there what is added
    can become part of the start. *)
Definition solid (p : str) (v : option start) : Prop :=
  match v with
  | Some s => s <> AtDevice [] /\ s <> LongName (B "UNC") /\ forall a, s <> LongShare a []
  | None => ~ exists k k' t, separates k /\ separates k' /\ p = k :: k' :: t
  end.
(** In the long form dots are resolved while joining. *)
Definition is_dots (w : str) : bool := match w with ["."%char] => true | ["."%char; "."%char] => true | _ => false end.
Definition one_up (ws : list str) : list str :=
  match rev ws with w :: l => if is_dots w then ws else rev l | [] => [] end.
Fixpoint onto (ws q : list str) : list str :=
  match q with
  | [] => ws
  | ["."%char] :: q' => onto ws q'
  | ["."%char; "."%char] :: q' => onto (one_up ws) q'
  | w :: q' => onto (ws ++ [w]) q'
  end.
(** What is in a volume in the long form is always below its root. *)
Definition entered (v : option start) (r : bool) : bool :=
  match v with Some (LongDrive _) | Some (LongShare _ _) | Some (LongName _) => true | _ => r end.
