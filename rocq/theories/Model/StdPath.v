(** [std::path], byte by byte and for both families of systems.

    The code of the standard library is not part of the repository; this is its algorithm
    ([Components] and what is built on it) written down by hand.  The library relies on it in
    src/walk.rs:23-98, src/value.rs:32-84, src/de.rs:460-470 and src/resolve.rs:425-471, 637-648.
    [Model/Path.v] is the short form for Unix used in the rest of the model; that both agree is
    C71.  Slices out of range panic in Rust and give what there is here. *)
From Verif.Model Require Import Base Str.

(** ** Prefixes of paths (only on Windows) *)
Inductive prefix :=
| PVerbatim (s : str)            (* \\?\s *)
| PVerbatimUnc (server share : str)   (* \\?\UNC\server\share *)
| PVerbatimDisk (d : ascii)      (* \\?\C: *)
| PDevice (s : str)              (* \\.\s *)
| PUnc (server share : str)      (* \\server\share *)
| PDisk (d : ascii).             (* C: *)
(** [Prefix::len] *)
Definition share_len (y : str) : nat := match y with [] => 0 | _ => 1 + length y end.
Definition px_len (x : prefix) : nat :=
  match x with
  | PVerbatim s => 4 + length s
  | PVerbatimUnc a b => 8 + length a + share_len b
  | PVerbatimDisk _ => 6
  | PDevice s => 4 + length s
  | PUnc a b => 2 + length a + share_len b
  | PDisk _ => 2
  end.
Definition px_verbatim (x : prefix) : bool :=
  match x with PVerbatim _ | PVerbatimUnc _ _ | PVerbatimDisk _ => true | _ => false end.
Definition px_drive (x : prefix) : bool := match x with PDisk _ => true | _ => false end.
Definition px_implicit_root (x : prefix) : bool := negb (px_drive x).

Inductive part :=
| Pre (raw : str) (x : prefix)
| Root
| Cur
| Up
| Name (s : str).

(** What differs between systems ([std::sys::path]). *)
Record system := mkSystem {
  os_sep : ascii -> bool;             (* is_sep_byte *)
  os_verbatim_sep : ascii -> bool;    (* is_verbatim_sep *)
  os_main : ascii;                    (* MAIN_SEP *)
  os_prefix : str -> option prefix;   (* parse_prefix *)
  os_needs_prefix : bool              (* is_absolute: also a prefix on Windows *)
}.

Definition is_slash (c : ascii) : bool := Ascii.eqb c slash.
Definition is_backslash (c : ascii) : bool := Ascii.eqb c backslash.
Definition unix : system := mkSystem is_slash is_slash slash (fun _ => None) false.

(** [parse_drive], [parse_drive_exact] *)
Definition alphabetic (c : ascii) : bool := (in_range 65 90 (nb c) || in_range 97 122 (nb c))%bool.
Definition win_sep (c : ascii) : bool := (is_slash c || is_backslash c)%bool.
Definition parse_drive (s : str) : option ascii :=
  match s with
  | d :: c :: _ => if (alphabetic d && Ascii.eqb c ":")%bool then Some (upper_byte d) else None
  | _ => None
  end.
Definition parse_drive_exact (s : str) : option ascii :=
  match s with
  | _ :: _ :: c :: _ => if win_sep c then parse_drive s else None
  | _ => parse_drive s
  end.
(** [parse_next_component] of the Windows prefix parser: up to the separator, and after it *)
Fixpoint until (f : ascii -> bool) (s : str) : str * str :=
  match s with
  | [] => ([], [])
  | c :: t => if f c then ([], t) else let '(a, b) := until f t in (c :: a, b)
  end.
(** [PrefixParser::strip_prefix]: separators are taken alike *)
Definition alike_sep (c : ascii) : ascii := if is_slash c then backslash else c.
Fixpoint strip_alike (p s : str) : option str :=
  match p, s with
  | [], _ => Some s
  | a :: p', c :: s' => if Ascii.eqb a (alike_sep c) then strip_alike p' s' else None
  | _, [] => None
  end.
(** [parse_prefix] *)
Definition parse_prefix (s : str) : option prefix :=
  match strip_alike (B "\\") s with
  | Some s2 =>
      match (if existsb is_slash (firstn 4 s) then None else strip_alike (B "?\") s2) with
      | Some s4 =>
          match strip_alike (B "UNC\") s4 with
          | Some s8 =>
              let '(server, r) := until is_backslash s8 in
              let '(share, _) := until is_backslash r in
              Some (PVerbatimUnc server share)
          | None =>
              match parse_drive_exact s4 with
              | Some d => Some (PVerbatimDisk d)
              | None => Some (PVerbatim (fst (until is_backslash s4)))
              end
          end
      | None =>
          match strip_alike (B ".\") s2 with
          | Some s4 => Some (PDevice (fst (until win_sep s4)))
          | None =>
              let '(server, r) := until win_sep s2 in
              let '(share, _) := until win_sep r in
              if (is_empty server || is_empty share)%bool then None else Some (PUnc server share)
          end
      end
  | None => option_map PDisk (parse_drive s)
  end.
Definition windows : system := mkSystem win_sep is_backslash backslash parse_prefix true.

(** ** [Components] *)
Inductive stage := AtPrefix | AtStart | AtBody | AtDone.
Definition stage_rank (s : stage) : nat := match s with AtPrefix => 0 | AtStart => 1 | AtBody => 2 | AtDone => 3 end.
Record comps := mkComps {
  cs_path : str;
  cs_prefix : option prefix;
  cs_root : bool;       (* has_physical_root *)
  cs_front : stage;
  cs_back : stage
}.

Section Machine.
Context (os : system).

Definition physical_root (s : str) (x : option prefix) : bool :=
  match skipn (match x with Some p => px_len p | None => 0 end) s with [] => false | c :: _ => os_sep os c end.
(** [Path::components] *)
Definition comps_of (p : str) : comps := mkComps p (os_prefix os p) (physical_root p (os_prefix os p)) AtPrefix AtBody.
Definition prefix_len (c : comps) : nat := match cs_prefix c with Some x => px_len x | None => 0 end.
Definition prefix_verbatim (c : comps) : bool := match cs_prefix c with Some x => px_verbatim x | None => false end.
Definition prefix_remaining (c : comps) : nat := match cs_front c with AtPrefix => prefix_len c | _ => 0 end.
Definition cs_sep (c : comps) : ascii -> bool := if prefix_verbatim c then os_verbatim_sep os else os_sep os.
Definition cs_has_root (c : comps) : bool :=
  (cs_root c || match cs_prefix c with Some x => px_implicit_root x | None => false end)%bool.
Definition include_cur_dir (c : comps) : bool :=
  if cs_has_root c then false
  else match skipn (prefix_remaining c) (cs_path c) with
       | [d] => Ascii.eqb d "."
       | d :: b :: _ => (Ascii.eqb d "." && cs_sep c b)%bool
       | [] => false
       end.
Definition before_body (c : comps) : bool := match cs_front c with AtPrefix | AtStart => true | _ => false end.
Definition len_before_body (c : comps) : nat :=
  prefix_remaining c + (if (before_body c && cs_root c)%bool then 1 else 0)
  + (if (before_body c && include_cur_dir c)%bool then 1 else 0).
Definition finished (c : comps) : bool :=
  match cs_front c, cs_back c with
  | AtDone, _ | _, AtDone => true
  | a, b => Nat.ltb (stage_rank b) (stage_rank a)
  end.
(** [parse_single_component] *)
Definition single (c : comps) (w : str) : option part :=
  if is_empty w then None
  else if str_eqb w (B ".") then (if prefix_verbatim c then Some Cur else None)
  else if str_eqb w (B "..") then Some Up
  else Some (Name w).
(** Position of the first and of the last byte that is a separator *)
Fixpoint position (f : ascii -> bool) (s : str) : option nat :=
  match s with
  | [] => None
  | a :: t => if f a then Some 0 else option_map S (position f t)
  end.
Fixpoint rposition (f : ascii -> bool) (s : str) : option nat :=
  match s with
  | [] => None
  | a :: t => match rposition f t with Some i => Some (S i) | None => if f a then Some 0 else None end
  end.
Definition parse_next (c : comps) : nat * option part :=
  match position (cs_sep c) (cs_path c) with
  | None => (length (cs_path c), single c (cs_path c))
  | Some i => (S (length (firstn i (cs_path c))), single c (firstn i (cs_path c)))
  end.
Definition parse_next_back (c : comps) : nat * option part :=
  let start := len_before_body c in
  let body := skipn start (cs_path c) in
  match rposition (cs_sep c) body with
  | None => (length body, single c body)
  | Some i => let w := skipn (start + i + 1) (cs_path c) in (S (length w), single c w)
  end.
Definition with_path (c : comps) (p : str) : comps := mkComps p (cs_prefix c) (cs_root c) (cs_front c) (cs_back c).
Definition with_front (c : comps) (s : stage) : comps := mkComps (cs_path c) (cs_prefix c) (cs_root c) s (cs_back c).
Definition with_back (c : comps) (s : stage) : comps := mkComps (cs_path c) (cs_prefix c) (cs_root c) (cs_front c) s.
Definition drop_front (c : comps) (n : nat) : comps := with_path c (skipn n (cs_path c)).
Definition drop_back (c : comps) (n : nat) : comps := with_path c (firstn (length (cs_path c) - n) (cs_path c)).

(** [trim_left], [trim_right]: each turn takes away a byte or more *)
Fixpoint trim_left_fuel (n : nat) (c : comps) : comps :=
  match n with
  | O => c
  | S n' =>
      if is_empty (cs_path c) then c
      else match parse_next c with
           | (_, Some _) => c
           | (size, None) => trim_left_fuel n' (drop_front c size)
           end
  end.
Definition trim_left (c : comps) : comps := trim_left_fuel (length (cs_path c)) c.
Fixpoint trim_right_fuel (n : nat) (c : comps) : comps :=
  match n with
  | O => c
  | S n' =>
      if Nat.ltb (len_before_body c) (length (cs_path c))
      then match parse_next_back c with
           | (_, Some _) => c
           | (size, None) => trim_right_fuel n' (drop_back c size)
           end
      else c
  end.
Definition trim_right (c : comps) : comps := trim_right_fuel (length (cs_path c)) c.
(** [Components::as_path] *)
Definition as_path (c : comps) : str :=
  let c1 := match cs_front c with AtBody => trim_left c | _ => c end in
  let c2 := match cs_back c1 with AtBody => trim_right c1 | _ => c1 end in
  cs_path c2.

(** One turn of the loops of [next] and [next_back]: the result, or go on *)
Definition turn : Type := option (option part) * comps.
Definition start_part (c : comps) : option (part * nat) :=
  if cs_root c then Some (Root, 1)
  else match cs_prefix c with
       | Some x => if (px_implicit_root x && negb (px_verbatim x))%bool then Some (Root, 0) else None
       | None => if include_cur_dir c then Some (Cur, 1) else None
       end.
Definition next_turn (c : comps) : turn :=
  match cs_front c with
  | AtPrefix =>
      match cs_prefix c with
      | Some x => if Nat.ltb 0 (px_len x)
                  then (Some (Some (Pre (firstn (px_len x) (cs_path c)) x)), drop_front (with_front c AtStart) (px_len x))
                  else (None, with_front c AtStart)
      | None => (None, with_front c AtStart)
      end
  | AtStart =>
      let c1 := with_front c AtBody in
      match start_part c1 with
      | Some (q, n) => (Some (Some q), drop_front c1 n)
      | None => (None, c1)
      end
  | AtBody =>
      if is_empty (cs_path c) then (None, with_front c AtDone)
      else let '(size, q) := parse_next c in
           (match q with Some _ => Some q | None => None end, drop_front c size)
  | AtDone => (Some None, c)
  end.
Definition back_turn (c : comps) : turn :=
  match cs_back c with
  | AtBody =>
      if Nat.ltb (len_before_body c) (length (cs_path c))
      then let '(size, q) := parse_next_back c in
           (match q with Some _ => Some q | None => None end, drop_back c size)
      else (None, with_back c AtStart)
  | AtStart =>
      let c1 := with_back c AtPrefix in
      match start_part c1 with
      | Some (q, n) => (Some (Some q), drop_back c1 n)
      | None => (None, c1)
      end
  | AtPrefix =>
      let c1 := with_back c AtDone in
      match cs_prefix c with
      | Some x => if Nat.ltb 0 (px_len x) then (Some (Some (Pre (cs_path c) x)), c1) else (Some None, c1)
      | None => (Some None, c1)
      end
  | AtDone => (Some None, c)
  end.
Fixpoint loop (step : comps -> turn) (n : nat) (c : comps) : option part * comps :=
  match n with
  | O => (None, c)
  | S n' =>
      if finished c then (None, c)
      else match step c with
           | (Some r, c') => (r, c')
           | (None, c') => loop step n' c'
           end
  end.
Definition fuel (c : comps) : nat := length (cs_path c) + 5.
Definition next (c : comps) : option part * comps := loop next_turn (fuel c) c.
Definition next_back (c : comps) : option part * comps := loop back_turn (fuel c) c.

(** All parts, from the front and from the back *)
Fixpoint collect (step : comps -> option part * comps) (n : nat) (c : comps) : list part :=
  match n with
  | O => []
  | S n' => match step c with (Some q, c') => q :: collect step n' c' | (None, _) => [] end
  end.
Definition parts (p : str) : list part := collect next (length p + 4) (comps_of p).
Definition parts_back (p : str) : list part := collect next_back (length p + 4) (comps_of p).

(** ** [Path] *)
Definition std_parent (p : str) : option str :=
  match next_back (comps_of p) with
  | (Some (Name _), c) | (Some Cur, c) | (Some Up, c) => Some (as_path c)
  | _ => None
  end.
Definition std_file_name (p : str) : option str :=
  match next_back (comps_of p) with (Some (Name w), _) => Some w | _ => None end.
(** [rsplit_file_at_dot]: what is before the last dot, and after it *)
Definition is_dot (c : ascii) : bool := Ascii.eqb c ".".
Definition rsplit_at_dot (w : str) : option str * option str :=
  if str_eqb w (B "..") then (Some w, None)
  else match rposition is_dot w with
       | None => (None, Some w)
       | Some i => if Nat.eqb i 0 then (Some w, None) else (Some (firstn i w), Some (skipn (S i) w))
       end.
Definition std_file_stem (p : str) : option str :=
  match std_file_name p with
  | None => None
  | Some w => match rsplit_at_dot w with (Some a, _) => Some a | (None, b) => b end
  end.
Definition std_extension (p : str) : option str :=
  match std_file_name p with
  | None => None
  | Some w => match rsplit_at_dot w with (Some _, b) => b | (None, _) => None end
  end.
(** [Path::has_root], [Path::is_absolute] *)
Definition std_has_root (p : str) : bool := cs_has_root (comps_of p).
Definition std_is_absolute (p : str) : bool :=
  (std_has_root p && (negb (os_needs_prefix os) || is_some (os_prefix os p)))%bool.
(** [PartialEq]: the same bytes (for paths alike in being verbatim), or the same parts, which
    are compared from the back *)
Definition prefix_eqb (a b : prefix) : bool :=
  match a, b with
  | PVerbatim x, PVerbatim y | PDevice x, PDevice y => str_eqb x y
  | PVerbatimUnc x y, PVerbatimUnc x' y' | PUnc x y, PUnc x' y' => (str_eqb x x' && str_eqb y y')%bool
  | PVerbatimDisk x, PVerbatimDisk y | PDisk x, PDisk y => Ascii.eqb x y
  | _, _ => false
  end.
Definition part_eqb (a b : part) : bool :=
  match a, b with
  | Pre _ x, Pre _ y => prefix_eqb x y
  | Root, Root | Cur, Cur | Up, Up => true
  | Name x, Name y => str_eqb x y
  | _, _ => false
  end.
Fixpoint list_eqb {A} (f : A -> A -> bool) (a b : list A) : bool :=
  match a, b with
  | [], [] => true
  | x :: a', y :: b' => (f x y && list_eqb f a' b')%bool
  | _, _ => false
  end.
Definition std_eqb (p q : str) : bool :=
  ((Bool.eqb (prefix_verbatim (comps_of p)) (prefix_verbatim (comps_of q)) && str_eqb p q)
   || list_eqb part_eqb (parts_back p) (parts_back q))%bool.
(** [Path::ancestors]: a parent is shorter *)
Fixpoint std_ancestors_fuel (n : nat) (p : str) : list str :=
  p :: match n with
       | O => []
       | S n' => match std_parent p with Some q => std_ancestors_fuel n' q | None => [] end
       end.
Definition std_ancestors (p : str) : list str := std_ancestors_fuel (length p) p.
(** [PathBuf::push] onto a verbatim path, part by part *)
Definition push_part (buf : list part) (c : part) : list part :=
  match c with
  | Root => firstn 1 buf ++ [Root]
  | Cur => buf
  | Up => match rev buf with Name _ :: r => rev r | _ => buf end
  | _ => buf ++ [c]
  end.
Definition part_text (c : part) : str :=
  match c with Pre raw _ => raw | Root => [os_main os] | Cur => B "." | Up => B ".." | Name w => w end.
Definition is_root_part (c : part) : bool := match c with Root => true | _ => false end.
Fixpoint write_parts (need_sep : bool) (l : list part) : str :=
  match l with
  | [] => []
  | c :: t =>
      (if (need_sep && negb (is_root_part c))%bool then [os_main os] else []) ++ part_text c
      ++ write_parts (match c with Root => false | Pre _ x => (negb (px_drive x) && Nat.ltb 0 (px_len x))%bool | _ => true end) t
  end.
(** [PathBuf::push], [Path::join] *)
Definition last_is_sep (p : str) : bool := match rev p with c :: _ => os_sep os c | [] => true end.
Definition std_join (base p : str) : str :=
  let c := comps_of base in
  let need_sep :=
    match cs_prefix c with
    | Some x => if (Nat.ltb 0 (px_len x) && Nat.eqb (px_len x) (length base) && px_drive x)%bool then false
                else negb (last_is_sep base)
    | None => negb (last_is_sep base)
    end in
  if (std_is_absolute p || is_some (os_prefix os p))%bool then p
  else if (prefix_verbatim c && negb (is_empty p))%bool
  then write_parts false (fold_left push_part (parts p) (parts base))
  else if std_has_root p then firstn (prefix_remaining c) base ++ p
  else if need_sep then base ++ os_main os :: p
  else base ++ p.
(** [PathBuf::pop]: the text of the parent is the beginning of that of the path *)
Definition std_pop (p : str) : str :=
  match std_parent p with Some q => firstn (length q) p | None => p end.
End Machine.
