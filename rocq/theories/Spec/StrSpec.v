(** Specifications of text operations, stated without the model's functions. *)
From Verif.Model Require Import Base.

(** [w1 sep w2 sep ... sep wn] *)
Fixpoint intercalate (sep : ascii) (l : list str) : str :=
  match l with
  | [] => []
  | w :: ws => match ws with [] => w | _ => w ++ sep :: intercalate sep ws end
  end.

(** The Unicode characters with property White_Space, UTF-8 encoded: U+0009..U+000D,
    U+0020, U+0085, U+00A0, U+1680, U+2000..U+200A, U+2028, U+2029, U+202F, U+205F,
    U+3000. *)
Definition bytes (l : list N) : str := map ascii_of_N l.
Definition white_space : list str :=
  map bytes
    [[9]; [10]; [11]; [12]; [13]; [32]; [194; 133]; [194; 160]; [225; 154; 128];
     [226; 128; 128]; [226; 128; 129]; [226; 128; 130]; [226; 128; 131]; [226; 128; 132];
     [226; 128; 133]; [226; 128; 134]; [226; 128; 135]; [226; 128; 136]; [226; 128; 137];
     [226; 128; 138]; [226; 128; 168]; [226; 128; 169]; [226; 128; 175]; [226; 129; 159];
     [227; 128; 128]]%N.

(** A run of white space characters. *)
Inductive blank : str -> Prop :=
| blank_nil : blank []
| blank_cons c s : In c white_space -> blank s -> blank (c ++ s).

Definition no_leading_ws (s : str) : Prop :=
  forall c r, In c white_space -> s <> c ++ r.
Definition no_trailing_ws (s : str) : Prop :=
  forall c r, In c white_space -> s <> r ++ c.

(** [t] is [s] without the white space at both ends. *)
Definition trimmed_of (s t : str) : Prop :=
  exists a b, s = a ++ t ++ b /\ blank a /\ blank b /\ no_leading_ws t /\ no_trailing_ws t.

Definition is_trimmed (s : str) : Prop := no_leading_ws s /\ no_trailing_ws s.
