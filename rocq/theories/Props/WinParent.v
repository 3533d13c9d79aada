(** C86: the very text of parents on Windows. *)
From Verif.Model Require Import Base Str Path StdPath OsPaths.
From Verif.Spec Require Import StrSpec WinSpec WinAnySpec WinParentSpec.
From Verif.Proof Require Import WinAnyProof WinParentProof.
From Verif.Props Require Import WinAny.

Theorem C86_parent_text p q : std_parent windows p = Some q <-> parent_text p q.
Proof. exact (parent_text_iff p q). Qed.
Print Assumptions C86_parent_text.

(** *** Examples *)
Ltac nowhere := apply no_start; vm_compute; reflexivity.
Ltac unleading := intros (? & ? & X & [K|K]); vm_compute in X; congruence.
(** Separators and dots at the end go, but for those that belong to the start. *)
Example C86_ex_parent_text :
  parent_text (B "c:/a//.\b\") (B "c:/a") /\ parent_text (B "C:./a") (B "C:.") /\ parent_text (B "\\s/h\\a") (B "\\s/h\")
  /\ parent_text (B "\\?\C:\a\.\b") (B "\\?\C:\a\.") /\ parent_text (B "./a") (B ".") /\ parent_text (B "./.") [] /\ parent_text (B "a/") [].
Proof. repeat split; apply parent_text_iff; vm_compute; reflexivity. Qed.
(** The same in the words of the specification. *)
Example C86_ex_parent_begun : parent_text (B "C:./a") (B "C:.").
Proof.
  apply parent_first with (Some (AtDrive "C")) false (B "a").
  - change [B "a"] with (pieces (B "./a")). read.
  - apply (begun_drive (B "C:./a") "C" (B "C:") (B "./a")); [apply starts_iff; split; vm_compute; reflexivity|unleading|reflexivity].
Qed.
Example C86_ex_parent_shortest : parent_text (B "a/.\b") (B "a").
Proof.
  apply parent_further with None false [] (B "a") (B "b") (B "/.\b").
  - change ([] ++ [B "a"; B "b"]) with (first_dot (B "a/.\b") ++ pieces (B "a/.\b")). read.
  - reflexivity.
  - change ([] ++ [B "a"]) with (first_dot (B "a") ++ pieces (B "a")). read.
  - intros [|x q] t Eq R.
    + exfalso. assert (R' : reads [] None false (first_dot [] ++ pieces [])) by (apply reads_here; [nowhere|unleading]).
      destruct (reads_unique _ _ _ _ _ _ _ R R') as (_ & _ & X). discriminate X.
    + change (B "a") with ["a"%char] in Eq. cbn [app] in Eq. injection Eq as _ Eq. symmetry in Eq. now apply app_eq_nil in Eq as [_ ->].
Qed.
