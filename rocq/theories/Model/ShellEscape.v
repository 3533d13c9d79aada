(** [shell_escape::unix::escape] (version 0.1), which examples/get.rs:67 uses for the values
    it lists on stderr.  Its code is not part of the repository; this is written by hand.  On
    characters: those beyond ASCII are escaped, and copied, byte by byte. *)
From Verif.Model Require Import Base Str.

(** [!non_whitelisted] *)
Definition whitelisted (c : ascii) : bool :=
  (in_range 97 122 (nb c) || in_range 65 90 (nb c) || in_range 48 57 (nb c)
   || existsb (Ascii.eqb c) (B "-_=/,.+"))%bool.
Fixpoint escape_chars (s : str) : str :=
  match s with
  | [] => []
  | c :: t =>
      (if (Ascii.eqb c "'" || Ascii.eqb c "!")%bool then ["'"; "\"; c; "'"]%char else [c]) ++ escape_chars t
  end.
Definition shell_escape (s : str) : str :=
  if (negb (is_empty s) && forallb whitelisted s)%bool then s
  else "'"%char :: escape_chars s ++ ["'"%char].
