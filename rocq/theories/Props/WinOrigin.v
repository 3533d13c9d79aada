(** C85: equal commands on Windows. *)
From Verif.Model Require Import Base Str Path StdPath EasyTypes Equal.
From Verif.Spec Require Import StrSpec WinSpec WinAnySpec.
From Verif.Proof Require Import StrFacts StdPathProof StdUnixProof StdParentProof WinPrefixProof WinDirProof WinAnyProof EqualProof.
From Verif.Spec Require Import WinSpec WinAnySpec.
From Coq Require Import RelationClasses.

(** The system of the paths is a parameter: on Unix, what [C85_command] is about. *)
Theorem C85_unix_command a b : os_epa_eqb unix a b = epa_eqb a b.
Proof. unfold os_epa_eqb, epa_eqb. now rewrite unix_eqb. Qed.
Print Assumptions C85_unix_command.
(** On Windows the programs are read alike, and the arguments are the same byte by byte. *)
Theorem C85_windows_command a b : os_epa_eqb windows a b = true
  <-> (exists v r ws, reads (epa_path a) v r ws /\ reads (epa_path b) v r ws) /\ epa_args a = epa_args b.
Proof.
  unfold os_epa_eqb. rewrite andb_true_iff, strs_eqb.
  destruct (reads_total (epa_path a)) as (v & r & ws & Ra), (reads_total (epa_path b)) as (v' & r' & ws' & Rb).
  rewrite (reads_equal _ _ _ _ _ _ _ _ Ra Rb). split; intros [H Ea]; (split; [|exact Ea]).
  - destruct H as (-> & -> & ->). eauto.
  - destruct H as (x & y & z & Xa & Xb). destruct (reads_unique _ _ _ _ _ _ _ Ra Xa) as (-> & -> & ->).
    destruct (reads_unique _ _ _ _ _ _ _ Rb Xb) as (-> & -> & ->). auto.
Qed.
Print Assumptions C85_windows_command.
Theorem C85_windows_equivalence : Equivalence (fun a b => os_epa_eqb windows a b = true).
Proof.
  split.
  - intros a. apply C85_windows_command. split; [|reflexivity]. destruct (reads_total (epa_path a)) as (v & r & ws & Ra). eauto.
  - intros a b H. apply C85_windows_command in H as [(v & r & ws & Ra & Rb) E]. apply C85_windows_command. split; [eauto|congruence].
  - intros a b c H K. apply C85_windows_command in H as [(v & r & ws & Ra & Rb) E]. apply C85_windows_command in K as [(v' & r' & ws' & Rb' & Rc) E'].
    destruct (reads_unique _ _ _ _ _ _ _ Rb Rb') as (-> & -> & ->). apply C85_windows_command. split; [eauto|congruence].
Qed.
Print Assumptions C85_windows_equivalence.

Example C85_ex_windows :
  os_epa_eqb windows (mkEpa (B "c:/bin//sh.exe") [B "-c"]) (mkEpa (B "C:\bin\.\sh.exe\") [B "-c"]) = true
  /\ os_epa_eqb windows (mkEpa (B "C:\bin\sh.exe") []) (mkEpa (B "C:\bin\SH.exe") []) = false
  /\ os_epa_eqb windows (mkEpa (B "sh") [B "a/b"]) (mkEpa (B "sh") [B "a\b"]) = false
  /\ os_epa_eqb windows (mkEpa (B "\\?\C:\a") []) (mkEpa (B "C:\a") []) = false
  /\ os_epa_eqb unix (mkEpa (B "bin\sh") []) (mkEpa (B "bin/sh") []) = false.
Proof. repeat split; vm_compute; reflexivity. Qed.
Example C85_ex_windows_read : exists v r ws, reads (B "c:/bin//sh.exe") v r ws /\ reads (B "C:\bin\.\sh.exe\") v r ws.
Proof.
  exists (Some (AtDrive "C")), true, (pieces (B "/bin//sh.exe")). split;
    [|change (pieces (B "/bin//sh.exe")) with (pieces (B "\bin\.\sh.exe\"))];
    (apply reads_root; [apply starts_iff; split; vm_compute; reflexivity|]).
  - exists "/"%char, (B "bin//sh.exe"). split; [reflexivity|]. now right.
  - exists back, (B "bin\.\sh.exe\"). split; [reflexivity|]. now left.
Qed.
