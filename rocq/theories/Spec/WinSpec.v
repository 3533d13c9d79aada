(** Directories on Windows, stated without the model's functions. *)
From Verif.Model Require Import Base.
From Verif.Spec Require Import StrSpec.

Definition back : ascii := "\".
Definition separates (c : ascii) : Prop := c = "\"%char \/ c = "/"%char.
(** What a file or directory can be called: no separators, no colon, and not a dot or two. *)
Definition win_name (n : str) : Prop :=
  n <> [] /\ n <> B "." /\ n <> B ".." /\ ~ In "\"%char n /\ ~ In "/"%char n /\ ~ In ":"%char n.
Definition is_letter (c : ascii) : Prop := In c (B "abcdefghijklmnopqrstuvwxyzABCDEFGHIJKLMNOPQRSTUVWXYZ").
Fixpoint assoc_letter (c : ascii) (small large : str) : ascii :=
  match small, large with
  | a :: s, b :: l => if Ascii.eqb c a then b else assoc_letter c s l
  | _, _ => c
  end.
(** The letter of a drive, whichever case it is written in. *)
Definition capital (c : ascii) : ascii :=
  assoc_letter c (B "abcdefghijklmnopqrstuvwxyz") (B "ABCDEFGHIJKLMNOPQRSTUVWXYZ").

(** Where a path starts: a drive, a share of a server, or a drive in the long form. *)
Inductive volume :=
| Drive (c : ascii)
| Share (server share : str)
| Long (c : ascii).
Definition volume_ok (v : volume) : Prop :=
  match v with
  | Drive c | Long c => is_letter c
  | Share a b => win_name a /\ a <> B "?" /\ win_name b
  end.
(** [C:], [\\server\share], [\\?\C:] *)
Definition volume_text (v : volume) : str :=
  match v with
  | Drive c => [c; ":"%char]
  | Share a b => B "\\" ++ a ++ B "\" ++ b
  | Long c => B "\\?\" ++ [c; ":"%char]
  end.
(** Not in the long form, in which texts are taken as they are. *)
Definition plain_volume (v : volume) : Prop := match v with Long _ => False | _ => True end.
(** The directory reached from the root of a volume by the given names. *)
Definition dir (v : volume) (names : list str) : str :=
  volume_text v ++ back :: intercalate back names.

(** The directory and those above it. *)
Fixpoint above {A} (l : list A) : list (list A) :=
  match l with [] => [[]] | x :: t => map (cons x) (above t) ++ [[]] end.

(** Other spellings: the pieces between separators of either kind; empty ones and dots do not count. *)
Fixpoint cut (s : str) : list str :=
  match s with
  | [] => [[]]
  | c :: t => if (Ascii.eqb c "\" || Ascii.eqb c "/")%bool then [] :: cut t
              else match cut t with w :: ws => (c :: w) :: ws | [] => [[c]] end
  end.
Definition counts (w : str) : bool := match w with [] => false | ["."%char] => false | _ => true end.
Definition pieces (s : str) : list str := filter counts (cut s).
(** [C:] and then a path from the root, or from the current directory of the drive. *)
Inductive on_drive : str -> ascii -> bool -> list str -> Prop :=
| from_root c k s : is_letter c -> separates k -> on_drive (c :: ":"%char :: k :: s) (capital c) true (pieces s)
| from_there c s : is_letter c -> (forall k t, s = k :: t -> ~ separates k) ->
    on_drive (c :: ":"%char :: s) (capital c) false (pieces s).

(** A path with neither a volume nor a separator in front. *)
Definition relative (s : str) : Prop :=
  s <> [] /\ (forall k t, s = k :: t -> ~ separates k) /\ (forall c t, s = c :: ":"%char :: t -> ~ is_letter c).

(** Names with a separator of either kind between them. *)
Inductive names_text : str -> list str -> Prop :=
| one_name_text n : win_name n -> names_text n [n]
| more_names_text n k s l : win_name n -> separates k -> names_text s l -> names_text (n ++ k :: s) (n :: l).
(** A separator in front, but not two (that would be a server), and no volume. *)
Definition rooted (s : str) : Prop :=
  exists k t, s = k :: t /\ separates k /\ (forall k' t', t = k' :: t' -> ~ separates k').
Definition has_separator (s : str) : Prop := exists k, In k s /\ separates k.

(** The file found in a directory: [config] is preferred to [config.toml]. *)
Definition found (ex : str -> bool) (v : volume) (l : list str) : list str :=
  if ex (dir v (l ++ [B "config"])) then [dir v (l ++ [B "config"])]
  else if ex (dir v (l ++ [B "config.toml"])) then [dir v (l ++ [B "config.toml"])]
  else [].
(** Drives and servers are the same whichever case the letter of the drive is written in. *)
Definition same_volume (v w : volume) : Prop :=
  match v, w with
  | Drive a, Drive b | Long a, Long b => capital a = capital b
  | Share a b, Share c d => a = c /\ b = d
  | _, _ => False
  end.
