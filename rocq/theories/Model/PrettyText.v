(** The text of Debug output on several lines ([{:#?}], as by [dbg!]).  The code is that of
    std, which is not part of the repository; this is written by hand from
    [core::fmt::builders].  The types whose output it is are those of src/de.rs and
    src/easy.rs (Model/Debug.v, Model/EasySerde.v). *)
From Verif.Model Require Import Base Str Error JsonText DebugText.

Definition line_feed : ascii := ascii_of_N 10.

(** [PadAdapter]: four spaces at the start of each line on which something is written. *)
Fixpoint pad (on_newline : bool) (s : str) : str :=
  match s with
  | [] => []
  | c :: t => (if on_newline then B "    " else []) ++ c :: pad (Ascii.eqb c line_feed) t
  end.
(** One field, entry or element: a new adapter, then a comma and the end of the line. *)
Definition padded (s : str) : str := pad true (s ++ [","%char; line_feed]).

Section Text.
Variable plain : N -> bool.
Variable quote : bool.

Fixpoint pretty_text (t : dbg) : str :=
  match t with
  | DTuple n l =>
      B n ++ match l with
             | [] => []
             | _ => B "(" ++ [line_feed] ++ concat (map (fun x => padded (pretty_text x)) l) ++ B ")"
             end
  | DStruct n l =>
      B n ++ match l with
             | [] => []
             | _ => B " {" ++ [line_feed] ++ concat (map (fun '(k, v) => padded (B k ++ B ": " ++ pretty_text v)) l) ++ B "}"
             end
  | DList l =>
      B "[" ++ match l with
               | [] => []
               | _ => [line_feed] ++ concat (map (fun x => padded (pretty_text x)) l)
               end ++ B "]"
  | DMap l =>
      B "{" ++ match l with
               | [] => []
               | _ => [line_feed] ++ concat (map (fun '(k, v) => padded (pretty_text k ++ B ": " ++ pretty_text v)) l)
               end ++ B "}"
  | DSet l =>
      B "{" ++ match l with
               | [] => []
               | _ => [line_feed] ++ concat (map (fun x => padded (pretty_text x)) l)
               end ++ B "}"
  | _ => debug_text plain quote t
  end.
End Text.
