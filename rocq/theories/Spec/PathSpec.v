(** Unix paths as users understand them: names separated by slashes. *)
From Verif.Model Require Import Base.
From Verif.Spec Require Import StrSpec.

Definition separator : ascii := "/"%char.

(** How a path starts: at the root, at an explicit [.], or plainly. *)
Inductive anchor := AtRoot | AtDot | Plain.

(** [p] is [anchor] followed by the names [l]: empty pieces and [.] pieces do not
    count. *)
Definition counts (w : str) : bool :=
  match w with
  | [] => false
  | [c] => negb (Ascii.eqb c ".")
  | _ => true
  end.
Definition reads_as (p : str) (a : anchor) (l : list str) : Prop :=
  exists parts,
    parts <> [] /\ Forall (fun w => ~ In separator w) parts
    /\ intercalate separator parts = p
    /\ l = filter counts parts
    /\ a = match parts with
           | [] :: _ :: _ => AtRoot
           | ["."%char] :: _ => AtDot
           | _ => Plain
           end.

(** Two spellings of the same path. *)
Definition same_place (p q : str) : Prop :=
  exists a l, reads_as p a l /\ reads_as q a l.

(** A path without a trailing separator, nor a trailing [/.]. *)
Definition tidy (p : str) : Prop :=
  (forall q, p <> q ++ B "/." ) /\ (p <> B "/" -> forall q, p <> q ++ B "/").

(** [q] is the directory [p] is in. *)
Definition parent_dir (p q : str) : Prop :=
  (exists rest, p = q ++ rest)                       (* its text is a prefix *)
  /\ tidy q
  /\ ((exists a l n, reads_as p a (l ++ [n]) /\ reads_as q a l)
      \/ (reads_as p AtDot [] /\ q = [])).

(** [p], its parent, the parent of that, ... until there is none. *)
Inductive upwards : str -> list str -> Prop :=
| up_stop p : (forall q, ~ parent_dir p q) -> upwards p [p]
| up_step p q l : parent_dir p q -> upwards q l -> upwards p (p :: l).

(** [/a/b/c] *)
Definition abs (names : list str) : str :=
  match names with
  | [] => [separator]
  | _ => separator :: intercalate separator names
  end.
Definition name_ok (n : str) : Prop := n <> [] /\ n <> B "." /\ ~ In separator n.

(** [dir/name] *)
Definition child (dir name : str) : str :=
  match rev dir with
  | [] => name
  | c :: _ => if Ascii.eqb c separator then dir ++ name else dir ++ separator :: name
  end.
