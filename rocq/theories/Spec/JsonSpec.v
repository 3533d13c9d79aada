(** A reader of JSON texts (RFC 8259).  Not read, as not needed here: numbers with a fraction or
    an exponent, and [\u] escapes beyond ASCII. *)
From Verif.Model Require Import Base Str Serde.
From Verif.Spec Require Import StrSpec Utf8Spec.

Inductive json :=
| JNull
| JBool (b : bool)
| JNumber (z : Z)
| JString (s : str)
| JArray (l : list json)
| JObject (l : list (str * json)).

Definition code (c : ascii) : N := N_of_ascii c.
Definition among (c : ascii) (s : str) : bool := existsb (Ascii.eqb c) s.
Definition blanks : str := map ascii_of_N [32; 9; 10; 13]%N.
Fixpoint skip (s : str) : str :=
  match s with
  | c :: t => if among c blanks then skip t else s
  | [] => []
  end.
Definition prepend (c : ascii) (r : option (str * str)) : option (str * str) :=
  match r with Some (a, b) => Some (c :: a, b) | None => None end.
(** The place of a character in a text, counted from 0. *)
Fixpoint place_in (c : ascii) (s : str) : option N :=
  match s with
  | [] => None
  | d :: t => if Ascii.eqb c d then Some 0%N else match place_in c t with Some n => Some (N.succ n) | None => None end
  end.
Definition hex_value (c : ascii) : option N :=
  match place_in c (B "0123456789abcdef") with
  | Some n => Some n
  | None => place_in c (B "0123456789ABCDEF")
  end.
(** What the letter after a backslash stands for. *)
Definition short_escape (c : ascii) : option ascii :=
  match place_in c (B """\/bfnrt") with
  | Some n => Some (nth (N.to_nat n) (B """\/" ++ map ascii_of_N [8; 12; 10; 13; 9]%N) c)
  | None => None
  end.
(** After the opening quote: the characters, and what follows the closing one. *)
Fixpoint characters (s : str) : option (str * str) :=
  match s with
  | [] => None
  | c :: t =>
      if Ascii.eqb c """" then Some ([], t)
      else if Ascii.eqb c "\" then
        match t with
        | e :: t1 =>
            if Ascii.eqb e "u" then
              match t1 with
              | a :: b :: c :: d :: t2 =>
                  match hex_value a, hex_value b, hex_value c, hex_value d with
                  | Some 0%N, Some 0%N, Some x, Some y =>
                      if N.ltb x 8 then prepend (ascii_of_N (16 * x + y)) (characters t2) else None
                  | _, _, _, _ => None
                  end
              | _ => None
              end
            else match short_escape e with Some x => prepend x (characters t1) | None => None end
        | [] => None
        end
      else if N.ltb (code c) 32 then None
      else prepend c (characters t)
  end.
(** The digits at the start of a text, and the rest. *)
Fixpoint digits_of (s : str) : list N * str :=
  match s with
  | c :: t => match place_in c (B "0123456789") with
              | Some n => let (l, r) := digits_of t in (n :: l, r)
              | None => ([], s)
              end
  | [] => ([], [])
  end.
Definition amount (l : list N) : N := fold_left (fun a d => 10 * a + d)%N l 0%N.
Definition natural (s : str) : option (N * str) :=
  match digits_of s with
  | ([], _) => None
  | (0%N :: _ :: _, _) => None
  | (l, r) => match r with c :: _ => if among c (B ".eE") then None else Some (amount l, r) | [] => Some (amount l, r) end
  end.
Definition number (s : str) : option (json * str) :=
  match s with
  | c :: t => if Ascii.eqb c "-"
              then match natural t with Some (n, r) => Some (JNumber (- Z.of_N n), r) | None => None end
              else match natural s with Some (n, r) => Some (JNumber (Z.of_N n), r) | None => None end
  | [] => None
  end.
Fixpoint after (w s : str) : option str :=
  match w, s with
  | [], _ => Some s
  | a :: w', b :: s' => if Ascii.eqb a b then after w' s' else None
  | _ :: _, [] => None
  end.
Definition literal (s : str) : option (json * str) :=
  match after (B "true") s, after (B "false") s, after (B "null") s with
  | Some r, _, _ => Some (JBool true, r)
  | _, Some r, _ => Some (JBool false, r)
  | _, _, Some r => Some (JNull, r)
  | None, None, None => number s
  end.
(** A value; the values and the entries up to the closing bracket.  Each step takes a character
    or more, so as many steps as characters are enough. *)
Fixpoint read_value (n : nat) (s : str) : option (json * str) :=
  match n with
  | O => None
  | S n =>
      match skip s with
      | [] => None
      | c :: t =>
          if Ascii.eqb c "{" then
            match skip t with
            | [] => None
            | d :: r => if Ascii.eqb d "}" then Some (JObject [], r)
                        else match read_entries n t with Some (l, r) => Some (JObject l, r) | None => None end
            end
          else if Ascii.eqb c "[" then
            match skip t with
            | [] => None
            | d :: r => if Ascii.eqb d "]" then Some (JArray [], r)
                        else match read_values n t with Some (l, r) => Some (JArray l, r) | None => None end
            end
          else if Ascii.eqb c """" then
            match characters t with Some (x, r) => Some (JString x, r) | None => None end
          else literal (c :: t)
      end
  end
with read_values (n : nat) (s : str) : option (list json * str) :=
  match n with
  | O => None
  | S n =>
      match read_value n s with
      | None => None
      | Some (v, r) =>
          match skip r with
          | [] => None
          | c :: t => if Ascii.eqb c "]" then Some ([v], t)
                      else if Ascii.eqb c "," then match read_values n t with Some (l, r) => Some (v :: l, r) | None => None end
                      else None
          end
      end
  end
with read_entries (n : nat) (s : str) : option (list (str * json) * str) :=
  match n with
  | O => None
  | S n =>
      match skip s with
      | [] => None
      | q :: t0 =>
          if Ascii.eqb q """" then
            match characters t0 with
            | None => None
            | Some (k, r0) =>
                match skip r0 with
                | [] => None
                | q1 :: t1 =>
                    if Ascii.eqb q1 ":" then
                      match read_value n t1 with
                      | None => None
                      | Some (v, r) =>
                          match skip r with
                          | [] => None
                          | c :: t => if Ascii.eqb c "}" then Some ([(k, v)], t)
                                      else if Ascii.eqb c "," then match read_entries n t with Some (l, r) => Some ((k, v) :: l, r) | None => None end
                                      else None
                          end
                      end
                    else None
                end
            end
          else None
      end
  end.
Definition read_json (s : str) : option json :=
  match read_value (S (length s)) s with
  | Some (v, r) => match skip r with [] => Some v | _ => None end
  | None => None
  end.

(** The same tree, in both notations. *)
Inductive alike : toml -> json -> Prop :=
| alike_bool b : alike (TomlBool b) (JBool b)
| alike_int z : alike (TomlInt z) (JNumber z)
| alike_str s : alike (TomlStr s) (JString s)
| alike_arr l m : Forall2 alike l m -> alike (TomlArr l) (JArray m)
| alike_tab l m : Forall2 (fun a b => fst a = fst b /\ alike (snd a) (snd b)) l m -> alike (TomlTab l) (JObject m).

(** What is found going down the keys. *)
Definition json_entry (k : str) (l : list (str * json)) : option json :=
  option_map snd (find (fun e => str_eqb k (fst e)) l).
Fixpoint json_at (p : list str) (j : json) : option json :=
  match p with
  | [] => Some j
  | k :: r => match j with
              | JObject l => match json_entry k l with Some u => json_at r u | None => None end
              | _ => None
              end
  end.

(** All texts in a tree are UTF-8. *)
Fixpoint texts (t : toml) : Prop :=
  match t with
  | TomlStr s => utf8 s
  | TomlArr l => (fix go l := match l with [] => True | x :: r => texts x /\ go r end) l
  | TomlTab l => (fix go l := match l with [] => True | x :: r => (utf8 (fst x) /\ texts (snd x)) /\ go r end) l
  | _ => True
  end.
