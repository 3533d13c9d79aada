(** [serde_json::to_string], as used at examples/get.rs:78.  Its code is not part of the
    repository; this is written by hand from its [ser::Serializer] with [CompactFormatter].
    The [Serialize] implementations are those of [Model/Serde.v]; structures, maps and optional
    fields come in the same order and with the same fields left out as in TOML. *)
From Verif.Model Require Import Base Str BMap Value De Serde.

(** [itoa] *)
Definition digit (n : N) : ascii := ascii_of_N (48 + n).
Fixpoint decimal_fuel (k : nat) (n : N) : str :=
  match k with
  | O => []
  | S k' => (if N.ltb n 10 then [] else decimal_fuel k' (N.div n 10)) ++ [digit (N.modulo n 10)]
  end.
Definition decimal_N (n : N) : str := decimal_fuel (S (N.to_nat (N.log2 n))) n.
Definition decimal_Z (z : Z) : str :=
  if Z.ltb z 0 then "-"%char :: decimal_N (Z.to_N (- z)) else decimal_N (Z.to_N z).

(** [format_escaped_str_contents] with the table [ESCAPE], [CompactFormatter::write_char_escape] *)
Definition hex (n : N) : ascii := if N.ltb n 10 then digit n else ascii_of_N (87 + n).
Definition json_char (c : ascii) : str :=
  let n := nb c in
  if N.eqb n 34 then B "\""" else if N.eqb n 92 then B "\\"
  else if N.eqb n 8 then B "\b" else if N.eqb n 9 then B "\t" else if N.eqb n 10 then B "\n"
  else if N.eqb n 12 then B "\f" else if N.eqb n 13 then B "\r"
  else if N.ltb n 32 then B "\u00" ++ [hex (N.div n 16); hex (N.modulo n 16)]
  else [c].
Definition json_string (s : str) : str := """"%char :: flat_map json_char s ++ [""""%char].

(** Texts with commas between *)
Fixpoint with_commas (l : list str) : str :=
  match l with
  | [] => []
  | [x] => x
  | x :: t => x ++ ","%char :: with_commas t
  end.
(** Configurations have no floats and dates (C74). *)
Fixpoint json_text (t : toml) : str :=
  match t with
  | TomlBool b => if b then B "true" else B "false"
  | TomlInt z => decimal_Z z
  | TomlFloat s | TomlDate s => s
  | TomlStr s => json_string s
  | TomlArr l => "["%char :: with_commas (map json_text l) ++ B "]"
  | TomlTab l => "{"%char :: with_commas (map (fun '(k, v) => json_string k ++ ":"%char :: json_text v) l) ++ B "}"
  end.
