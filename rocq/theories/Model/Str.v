(** Model of the [str]/[OsStr] methods of the Rust standard library that the
    crate uses.  No code of the crate is modelled here; the call sites are cited
    next to the definitions that use them. *)
From Verif.Model Require Import Base.

Definition sp : ascii := " "%char.
Definition nl : ascii := byte_of 10.
Definition cr : ascii := byte_of 13.
Definition us : ascii := byte_of 31.   (* '\x1f' *)
Definition slash : ascii := "/"%char.
Definition backslash : ascii := "\"%char.
Definition dquote : ascii := byte_of 34.

Fixpoint str_eqb (a b : str) : bool :=
  match a, b with
  | [], [] => true
  | x :: a', y :: b' => Ascii.eqb x y && str_eqb a' b'
  | _, _ => false
  end.

(** Byte-wise lexicographic order: [Ord] for [str], [String] and [OsStr]. *)
Fixpoint str_cmp (a b : str) : comparison :=
  match a, b with
  | [], [] => Eq
  | [], _ :: _ => Lt
  | _ :: _, [] => Gt
  | x :: a', y :: b' =>
      match N.compare (nb x) (nb y) with
      | Eq => str_cmp a' b'
      | c => c
      end
  end.

Definition is_empty (s : str) : bool := match s with [] => true | _ => false end.

(** [str::strip_prefix] with a string pattern. *)
Fixpoint strip_prefix (p s : str) : option str :=
  match p, s with
  | [], _ => Some s
  | x :: p', y :: s' => if Ascii.eqb x y then strip_prefix p' s' else None
  | _ :: _, [] => None
  end.

Definition starts_with (p s : str) : bool := is_some (strip_prefix p s).

(** [str::strip_suffix] with a string pattern. *)
Definition strip_suffix (p s : str) : option str :=
  match strip_prefix (rev p) (rev s) with
  | Some r => Some (rev r)
  | None => None
  end.

Definition ends_with (p s : str) : bool := is_some (strip_suffix p s).

(** [str::contains] with an ASCII [char] pattern. *)
Definition contains (c : ascii) (s : str) : bool := existsb (Ascii.eqb c) s.

(** [str::split] with an ASCII [char] pattern; never returns an empty list. *)
Fixpoint split_on (c : ascii) (s : str) : list str :=
  match s with
  | [] => [[]]
  | x :: t =>
      if Ascii.eqb x c then [] :: split_on c t
      else match split_on c t with
           | [] => [[x]]          (* unreachable *)
           | w :: ws => (x :: w) :: ws
           end
  end.

(** [str::split_once] with an ASCII [char] pattern. *)
Fixpoint split_once (c : ascii) (s : str) : option (str * str) :=
  match s with
  | [] => None
  | x :: t =>
      if Ascii.eqb x c then Some ([], t)
      else match split_once c t with
           | Some (a, b) => Some (x :: a, b)
           | None => None
           end
  end.

(** [str::splitn] with an ASCII [char] pattern. *)
Fixpoint splitn (n : nat) (c : ascii) (s : str) : list str :=
  match n with
  | O => []
  | S O => [s]
  | S n' =>
      match split_once c s with
      | None => [s]
      | Some (a, b) => a :: splitn n' c b
      end
  end.

(** Concatenation with a separator: [slice::join]. *)
Fixpoint join_with (c : ascii) (l : list str) : str :=
  match l with
  | [] => []
  | [w] => w
  | w :: ws => w ++ c :: join_with c ws
  end.

(** ** White space

    [char::is_whitespace] is Unicode [White_Space]:
    U+0009..U+000D, U+0020, U+0085, U+00A0, U+1680, U+2000..U+200A, U+2028,
    U+2029, U+202F, U+205F, U+3000.  The predicates below recognise the UTF-8
    encodings of these characters. *)
Definition in_range (lo hi n : N) : bool := (N.leb lo n && N.leb n hi)%bool.

Definition ws1 (a : ascii) : bool := (in_range 9 13 (nb a) || N.eqb (nb a) 32)%bool.
Definition ws2 (a b : ascii) : bool :=
  (N.eqb (nb a) 194 && (N.eqb (nb b) 133 || N.eqb (nb b) 160))%bool.
Definition ws3 (a b c : ascii) : bool :=
  ((N.eqb (nb a) 225 && N.eqb (nb b) 154 && N.eqb (nb c) 128)
   || (N.eqb (nb a) 226 && N.eqb (nb b) 128
       && (in_range 128 138 (nb c) || N.eqb (nb c) 168 || N.eqb (nb c) 169 || N.eqb (nb c) 175))
   || (N.eqb (nb a) 226 && N.eqb (nb b) 129 && N.eqb (nb c) 159)
   || (N.eqb (nb a) 227 && N.eqb (nb b) 128 && N.eqb (nb c) 128))%bool.

(** [str::trim_start]. *)
Fixpoint trim_start (s : str) : str :=
  match s with
  | [] => []
  | a :: t1 =>
      if ws1 a then trim_start t1
      else match t1 with
           | b :: t2 =>
               if ws2 a b then trim_start t2
               else match t2 with
                    | c :: t3 => if ws3 a b c then trim_start t3 else s
                    | [] => s
                    end
           | [] => s
           end
  end.

(** [str::trim_end] on the reversed string. *)
Fixpoint trim_end_rev (s : str) : str :=
  match s with
  | [] => []
  | a :: t1 =>
      if ws1 a then trim_end_rev t1
      else match t1 with
           | b :: t2 =>
               if ws2 b a then trim_end_rev t2
               else match t2 with
                    | c :: t3 => if ws3 c b a then trim_end_rev t3 else s
                    | [] => s
                    end
           | [] => s
           end
  end.

Definition trim_end (s : str) : str := rev (trim_end_rev (rev s)).

(** [str::trim]. *)
Definition trim (s : str) : str := trim_end (trim_start s).

(** ** Lines: [str::lines] *)
Definition strip_cr (s : str) : str :=
  match strip_suffix [cr] s with Some r => r | None => s end.

Fixpoint lines_of (pieces : list str) : list str :=
  match pieces with
  | [] => []
  | [last] => if is_empty last then [] else [last]
  | p :: ps => strip_cr p :: lines_of ps
  end.

Definition lines (s : str) : list str := lines_of (split_on nl s).

(** ** Integers: [u32::from_str], [i32::from_str], [bool::from_str] *)
Definition digit_val (c : ascii) : option N :=
  if in_range 48 57 (nb c) then Some (nb c - 48)%N else None.

Fixpoint parse_digits (acc : N) (s : str) : option N :=
  match s with
  | [] => Some acc
  | c :: t =>
      match digit_val c with
      | Some d => parse_digits (acc * 10 + d)%N t
      | None => None
      end
  end.

Definition parse_nat (s : str) : option N :=
  match s with
  | [] => None
  | _ => parse_digits 0%N s
  end.

Definition u32_max : N := 4294967295%N.

(** An optional leading [+] is accepted; overflow is an error. *)
Definition parse_u32 (s : str) : option N :=
  let digits := match s with c :: t => if Ascii.eqb c "+" then t else s | [] => s end in
  match parse_nat digits with
  | Some n => if N.leb n u32_max then Some n else None
  | None => None
  end.

Definition parse_i32 (s : str) : option Z :=
  let '(neg, digits) :=
    match s with
    | c :: t =>
        if Ascii.eqb c "+" then (false, t)
        else if Ascii.eqb c "-" then (true, t) else (false, s)
    | [] => (false, s)
    end in
  match parse_nat digits with
  | Some n =>
      if (neg : bool)
      then if N.leb n 2147483648 then Some (- Z.of_N n)%Z else None
      else if N.leb n 2147483647 then Some (Z.of_N n) else None
  | None => None
  end.

Definition parse_bool (s : str) : option bool :=
  if str_eqb s (B "true") then Some true
  else if str_eqb s (B "false") then Some false
  else None.

(** ** Case: [str::make_ascii_uppercase] *)
Definition upper_byte (c : ascii) : ascii :=
  if in_range 97 122 (nb c) then byte_of (nb c - 32) else c.
Definition ascii_uppercase (s : str) : str := map upper_byte s.

(** ** UTF-8: [String::from_utf8], [OsStr::to_str], [to_string_lossy] *)
Definition cont (c : ascii) : bool := in_range 128 191 (nb c).

(** Allowed second byte after a three-byte lead. *)
Definition second3 (a b : ascii) : bool :=
  if N.eqb (nb a) 224 then in_range 160 191 (nb b)
  else if N.eqb (nb a) 237 then in_range 128 159 (nb b)
  else cont b.
(** Allowed second byte after a four-byte lead. *)
Definition second4 (a b : ascii) : bool :=
  if N.eqb (nb a) 240 then in_range 144 191 (nb b)
  else if N.eqb (nb a) 244 then in_range 128 143 (nb b)
  else cont b.

Fixpoint utf8_valid (s : str) : bool :=
  match s with
  | [] => true
  | a :: t1 =>
      if N.ltb (nb a) 128 then utf8_valid t1
      else if in_range 194 223 (nb a) then
        match t1 with
        | b :: t2 => cont b && utf8_valid t2
        | _ => false
        end
      else if in_range 224 239 (nb a) then
        match t1 with
        | b :: c :: t3 => second3 a b && cont c && utf8_valid t3
        | _ => false
        end
      else if in_range 240 244 (nb a) then
        match t1 with
        | b :: c :: d :: t4 => second4 a b && cont c && cont d && utf8_valid t4
        | _ => false
        end
      else false
  end.

(** [OsStr::to_str] / [OsString::into_string] / [String::from_utf8]. *)
Definition to_str (s : str) : option str := if utf8_valid s then Some s else None.

(** U+FFFD. *)
Definition replacement : str := [byte_of 239; byte_of 191; byte_of 189].

(** [OsStr::to_string_lossy]: each maximal invalid prefix becomes U+FFFD. *)
Fixpoint lossy (s : str) : str :=
  match s with
  | [] => []
  | a :: t1 =>
      if N.ltb (nb a) 128 then a :: lossy t1
      else if in_range 194 223 (nb a) then
        match t1 with
        | b :: t2 => if cont b then a :: b :: lossy t2 else replacement ++ lossy t1
        | [] => replacement
        end
      else if in_range 224 239 (nb a) then
        match t1 with
        | b :: t2 =>
            if second3 a b then
              match t2 with
              | c :: t3 => if cont c then a :: b :: c :: lossy t3 else replacement ++ lossy t2
              | [] => replacement
              end
            else replacement ++ lossy t1
        | [] => replacement
        end
      else if in_range 240 244 (nb a) then
        match t1 with
        | b :: t2 =>
            if second4 a b then
              match t2 with
              | c :: t3 =>
                  if cont c then
                    match t3 with
                    | d :: t4 =>
                        if cont d then a :: b :: c :: d :: lossy t4 else replacement ++ lossy t3
                    | [] => replacement
                    end
                  else replacement ++ lossy t2
              | [] => replacement
              end
            else replacement ++ lossy t1
        | [] => replacement
        end
      else replacement ++ lossy t1
  end.

(** ** Slicing: [&s[a..b]] *)
Definition is_char_boundary (s : str) (i : nat) : bool :=
  if Nat.eqb i 0 then true
  else match nth_error s i with
       | Some c => negb (cont c)
       | None => Nat.eqb i (length s)
       end.

Definition slice (s : str) (a b : nat) : option str :=
  if (Nat.leb a b && is_char_boundary s a && is_char_boundary s b)%bool
  then Some (firstn (b - a) (skipn a s))
  else None.
