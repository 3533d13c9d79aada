(** Model of [std::path] on Unix, restricted to what the crate uses.

    [Path::parent] is given in closed form on the ['/']-separated pieces instead
    of the byte-wise backward component parser of std; both skip empty and ["."]
    pieces (except a leading ["."]) and keep the text of the remaining prefix.
    That they agree, and so do the other operations, is C71. *)
From Verif.Model Require Import Base Str.

Definition path := str.

Inductive component :=
| RootDir
| CurDir
| ParentDir
| Normal (s : str).

(** Pieces that [Components] skips: empty and ["."]. *)
Definition junk (w : str) : bool := (is_empty w || str_eqb w (B "."))%bool.

Definition comp_of (w : str) : list component :=
  if junk w then []
  else if str_eqb w (B "..") then [ParentDir]
  else [Normal w].

(** How a path starts. *)
Inductive start :=
| SRoot     (* "/..." *)
| SCur      (* "." or "./..." *)
| SNone.

(** A path is its start together with the pieces of its body. *)
Definition decompose (p : path) : start * list str :=
  match split_on slash p with
  | w :: ws =>
      if is_empty w then match ws with [] => (SNone, []) | _ => (SRoot, ws) end
      else if str_eqb w (B ".") then (SCur, ws)
      else (SNone, w :: ws)
  | [] => (SNone, [])
  end.

(** The text of a start followed by the given body pieces. *)
Definition recompose (st : start) (ws : list str) : path :=
  match st with
  | SRoot => slash :: join_with slash ws
  | SCur => match ws with [] => B "." | _ => B "./" ++ join_with slash ws end
  | SNone => join_with slash ws
  end.

(** [Path::components]. *)
Definition components (p : path) : list component :=
  let '(st, ws) := decompose p in
  (match st with SRoot => [RootDir] | SCur => [CurDir] | SNone => [] end)
  ++ flat_map comp_of ws.

(** Drops skipped pieces from the front (used on reversed lists). *)
Fixpoint drop_junk (ws : list str) : list str :=
  match ws with
  | w :: t => if junk w then drop_junk t else ws
  | [] => []
  end.

(** [Path::parent]. *)
Definition parent (p : path) : option path :=
  let '(st, ws) := decompose p in
  match drop_junk (rev ws) with
  | _ :: r => Some (recompose st (rev (drop_junk r)))
  | [] => match st with
          | SRoot => None
          | SCur => Some []
          | SNone => None
          end
  end.

(** [Path::ancestors]; [parent] is strictly shorter, so [length p] steps of fuel
    are enough. *)
Fixpoint ancestors_fuel (n : nat) (p : path) : list path :=
  p :: match n with
       | O => []
       | S n' => match parent p with
                 | Some q => ancestors_fuel n' q
                 | None => []
                 end
       end.
Definition ancestors (p : path) : list path := ancestors_fuel (length p) p.

(** [Path::is_absolute] (= [has_root] on Unix). *)
Definition is_absolute (p : path) : bool :=
  match p with c :: _ => Ascii.eqb c slash | [] => false end.

Definition ends_with_slash (p : path) : bool :=
  match rev p with c :: _ => Ascii.eqb c slash | [] => false end.

(** [Path::join] / [PathBuf::push]. *)
Definition join (base p : path) : path :=
  if is_absolute p then p
  else if is_empty base then p
  else if ends_with_slash base then base ++ p
  else base ++ slash :: p.

(** [PathBuf::pop]: truncates to the parent, which is a prefix of the text. *)
Definition pop (p : path) : path :=
  match parent p with Some q => q | None => p end.

(** [Path::file_name]. *)
Definition file_name (p : path) : option str :=
  match drop_junk (rev (snd (decompose p))) with
  | w :: _ => if str_eqb w (B "..") then None else Some w
  | [] => None
  end.

(** [rsplit_once] at the last ['.'] of a file name, [None] if there is no dot. *)
Definition rsplit_dot (w : str) : option (str * str) :=
  match split_once "."%char (rev w) with
  | Some (a, b) => Some (rev b, rev a)
  | None => None
  end.

(** [Path::file_stem]. *)
Definition file_stem (p : path) : option str :=
  match file_name p with
  | None => None
  | Some w =>
      match rsplit_dot w with
      | None => Some w
      | Some (before, _) => if is_empty before then Some w else Some before
      end
  end.

(** [Path::extension]. *)
Definition extension (p : path) : option str :=
  match file_name p with
  | None => None
  | Some w =>
      match rsplit_dot w with
      | None => None
      | Some (before, after) => if is_empty before then None else Some after
      end
  end.

(** [PartialEq for Path]: equality of components. *)
Definition component_eqb (a b : component) : bool :=
  match a, b with
  | RootDir, RootDir | CurDir, CurDir | ParentDir, ParentDir => true
  | Normal x, Normal y => str_eqb x y
  | _, _ => false
  end.
Fixpoint comps_eqb (a b : list component) : bool :=
  match a, b with
  | [], [] => true
  | x :: a', y :: b' => component_eqb x y && comps_eqb a' b'
  | _, _ => false
  end.
Definition path_eqb (p q : path) : bool := comps_eqb (components p) (components q).
