(** The text of [Debug] output ([{:?}]), as in the report of a failed merge
    (src/merge.rs:191-196).  The code is that of std, which is not part of the repository;
    this is written by hand from [core::fmt::builders], [core::str::lossy] and
    [char::escape_debug_ext].  For [{:#?}] see Model/PrettyText.v.

    Two things are left open: which characters beyond ASCII are written as they are
    ([plain], tables of Unicode in std), and whether a single quote in a path is escaped
    ([quote], which depends on the version of std). *)
From Verif.Model Require Import Base Str Error JsonText.

Section Text.
Variable plain : N -> bool.
Variable quote : bool.

(** Hexadecimal digits without leading zeros: [{:x}]. *)
Fixpoint hex_fuel (k : nat) (n : N) : str :=
  match k with
  | O => []
  | S k' => (if N.ltb n 16 then [] else hex_fuel k' (N.div n 16)) ++ [hex (N.modulo n 16)]
  end.
Definition hex_N (n : N) : str := hex_fuel (S (N.to_nat (N.log2 n))) n.

(** The number of a character: [core::str::validations::next_code_point]. *)
Definition code_point (c : str) : N :=
  match c with
  | [a] => nb a
  | [a; b] => 64 * (nb a - 192) + (nb b - 128)
  | [a; b; c] => 4096 * (nb a - 224) + 64 * (nb b - 128) + (nb c - 128)
  | [a; b; c; d] => 262144 * (nb a - 240) + 4096 * (nb b - 128) + 64 * (nb c - 128) + (nb d - 128)
  | _ => 0
  end%N.

(** [char::escape_debug_ext]; [os] in a path or other text of the system. *)
Definition debug_char (os : bool) (c : str) : str :=
  let n := code_point c in
  if N.eqb n 0 then B "\0" else if N.eqb n 9 then B "\t" else if N.eqb n 13 then B "\r"
  else if N.eqb n 10 then B "\n" else if N.eqb n 92 then B "\\" else if N.eqb n 34 then B "\"""
  else if (N.eqb n 39 && os && quote)%bool then B "\'"
  else if (if N.ltb n 128 then (N.leb 32 n && N.ltb n 127)%bool else plain n) then c
  else B "\u{" ++ hex_N n ++ B "}".
(** A byte that is not part of a character: [\x{:02X}]. *)
Definition upper_hex (n : N) : ascii := if N.ltb n 10 then digit n else ascii_of_N (55 + n).
Definition debug_byte (b : ascii) : str := B "\x" ++ [upper_hex (N.div (nb b) 16); upper_hex (N.modulo (nb b) 16)].

(** One character or one byte after the other.  [core::str::lossy] goes by the same
    maximal invalid parts as [to_string_lossy] and writes each byte of such a part by
    itself; the bytes after the first one do not start a character, so that going byte by
    byte is the same (C76_string). *)
Fixpoint debug_bytes (os : bool) (s : str) : str :=
  match s with
  | [] => []
  | a :: t1 =>
      if N.ltb (nb a) 128 then debug_char os [a] ++ debug_bytes os t1
      else if in_range 194 223 (nb a) then
        match t1 with
        | b :: t2 => if cont b then debug_char os [a; b] ++ debug_bytes os t2 else debug_byte a ++ debug_bytes os t1
        | [] => debug_byte a
        end
      else if in_range 224 239 (nb a) then
        match t1 with
        | b :: c :: t3 =>
            if (second3 a b && cont c)%bool then debug_char os [a; b; c] ++ debug_bytes os t3
            else debug_byte a ++ debug_bytes os t1
        | _ => debug_byte a ++ debug_bytes os t1
        end
      else if in_range 240 244 (nb a) then
        match t1 with
        | b :: c :: d :: t4 =>
            if (second4 a b && cont c && cont d)%bool then debug_char os [a; b; c; d] ++ debug_bytes os t4
            else debug_byte a ++ debug_bytes os t1
        | _ => debug_byte a ++ debug_bytes os t1
        end
      else debug_byte a ++ debug_bytes os t1
  end.
Definition debug_str (os : bool) (s : str) : str := """"%char :: debug_bytes os s ++ [""""%char].

Fixpoint comma_separated (l : list str) : str :=
  match l with
  | [] => []
  | [x] => x
  | x :: t => x ++ B ", " ++ comma_separated t
  end.

(** [DebugStruct], [DebugTuple], [DebugList], [DebugSet], [DebugMap]. *)
Fixpoint debug_text (t : dbg) : str :=
  match t with
  | DStr s => debug_str false s
  | DOs s => debug_str true s
  | DNum z => decimal_Z z
  | DBool b => if b then B "true" else B "false"
  | DUnit n => B n
  | DTuple n l => B n ++ match l with [] => [] | _ => B "(" ++ comma_separated (map debug_text l) ++ B ")" end
  | DStruct n l =>
      B n ++ match l with
             | [] => []
             | _ => B " { " ++ comma_separated (map (fun '(k, v) => B k ++ B ": " ++ debug_text v) l) ++ B " }"
             end
  | DList l => B "[" ++ comma_separated (map debug_text l) ++ B "]"
  | DMap l => B "{" ++ comma_separated (map (fun '(k, v) => debug_text k ++ B ": " ++ debug_text v) l) ++ B "}"
  | DSet l => B "{" ++ comma_separated (map debug_text l) ++ B "}"
  end.
End Text.
