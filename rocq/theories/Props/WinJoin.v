(** C86: the very text of two joined paths on Windows. *)
From Verif.Model Require Import Base Str Path StdPath OsPaths.
From Verif.Spec Require Import StrSpec WinSpec WinAnySpec WinJoinSpec.
From Verif.Proof Require Import WinAnyProof WinJoinProof.
From Verif.Props Require Import WinAny.

Theorem C86_join_text base q x : std_join windows base q = x <-> joined base q x.
Proof.
  split; [|exact (joined_is base q x)]. intros <-. destruct (joined_total base q) as (y & J). now rewrite (joined_is _ _ _ J).
Qed.
Print Assumptions C86_join_text.

(** *** Examples *)
Ltac nowhere := unfold nowhere; apply no_start; vm_compute; reflexivity.
Ltac leading := eexists _, _; split; [reflexivity|first [left; reflexivity|right; reflexivity]].
Ltac unleading := intros (? & ? & X & [K|K]); vm_compute in X; congruence.
(** A root in the long form is written once, and forward slashes become backward. *)
Example C86_ex_join_text :
  joined (B "\\?\c:\a\.") (B "/x/../y") (B "\\?\c:\y")
  /\ joined (B "\\?\c:\a\.") (B "x/./y") (B "\\?\c:\a\.\x\y")
  /\ joined (B "\\?\c:") (B ".") (B "\\?\c:")
  /\ joined (B "//s/t/a") (B "/x") (B "//s/t/x")
  /\ joined (B "c:") (B "x") (B "c:x") /\ joined (B "c:a") (B "./x") (B "c:a\./x") /\ joined (B "c:a/") (B "x") (B "c:a/x")
  /\ joined (B "c:a") (B "d:x") (B "d:x").
Proof.
  assert (Lc : starts (B "\\?\c:" ++ B "\a\.") (LongDrive "C") (B "\a\.")) by (apply starts_iff; split; vm_compute; reflexivity).
  split; [|split; [|split; [|split; [|split; [|split; [|split]]]]]].
  - exact (joined_long (B "\\?\c:") (LongDrive "C") (B "\a\.") true [B "a"; B "."] (B "/x/../y") true [B "x"; B ".."; B "y"] Lc I
      ltac:(discriminate) ltac:(change [B "a"; B "."] with (long_pieces (B "a\.")); read)
      ltac:(change [B "x"; B ".."; B "y"] with (pieces (B "/x/../y")); read) (or_introl eq_refl)).
  - exact (joined_long (B "\\?\c:") (LongDrive "C") (B "\a\.") true [B "a"; B "."] (B "x/./y") false [B "x"; B "y"] Lc I
      ltac:(discriminate) ltac:(change [B "a"; B "."] with (long_pieces (B "a\.")); read)
      ltac:(change [B "x"; B "y"] with (first_dot (B "x/./y") ++ pieces (B "x/./y")); read) (or_introl eq_refl)).
  - exact (joined_bare (B "\\?\c:") (LongDrive "C") [] [] (B ".") [B "."] ltac:(apply starts_iff; split; vm_compute; reflexivity) I
      ltac:(discriminate) ltac:(read) ltac:(change [B "."] with (first_dot (B ".") ++ pieces (B ".")); read) eq_refl).
  - exact (joined_root (B "//s/t") (AtShare (B "s") (B "t")) (B "/a") (B "/x") ltac:(apply starts_iff; split; vm_compute; reflexivity)
      ltac:(intros []) ltac:(nowhere) ltac:(leading)).
  - refine (joined_sealed (B "c:") (B "x") (or_introl _) ltac:(nowhere) ltac:(unleading) (sealed_drive "c" _)).
    + intros (s & t & S & L). apply starts_iff in S as [S _]. destruct s; try contradiction; discriminate S.
    + unfold is_letter. cbn. tauto.
  - refine (joined_below (B "c:a") (B "./x") (or_introl _) ltac:(nowhere) ltac:(unleading) _).
    + intros (s & t & S & L). apply starts_iff in S as [S _]. destruct s; try contradiction; discriminate S.
    + intros H. apply sealed_iff in H. discriminate H.
  - refine (joined_sealed (B "c:a/") (B "x") (or_introl _) ltac:(nowhere) ltac:(unleading) (sealed_separator (B "c:a") "/" _)).
    + intros (s & t & S & L). apply starts_iff in S as [S _]. destruct s; try contradiction; discriminate S.
    + now right.
  - exact (joined_volume (B "c:a") (B "d:x") (AtDrive "D") (B "x") ltac:(apply starts_iff; split; vm_compute; reflexivity)).
Qed.
