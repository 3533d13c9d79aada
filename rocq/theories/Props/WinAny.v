(** C86: any text as a path on Windows. *)
From Verif.Model Require Import Base Str Path StdPath OsPaths.
From Verif.Spec Require Import StrSpec WinSpec WinAnySpec.
From Verif.Proof Require Import StrFacts StdPathProof StdParentProof WinPrefixProof WinDirProof WinUseProof WinAnyProof.
From Verif.Spec Require Import WinSpec WinAnySpec.

(** Every text is read in one way. *)
Theorem C86_read p : exists v r ws, reads p v r ws
  /\ forall v' r' ws', reads p v' r' ws' -> v' = v /\ r' = r /\ ws' = ws.
Proof.
  destruct (reads_total p) as (v & r & ws & H). exists v, r, ws. split; [exact H|]. intros v' r' ws' H'. now apply (reads_unique p).
Qed.
Print Assumptions C86_read.
(** Paths are equal if they are read alike. *)
Theorem C86_equal p q v r ws v' r' ws' : reads p v r ws -> reads q v' r' ws' ->
  (std_eqb windows p q = true <-> v = v' /\ r = r' /\ ws = ws').
Proof. exact (reads_equal p q v r ws v' r' ws'). Qed.
Print Assumptions C86_equal.
(** Absolute: in a volume, and from its root if that is a drive. *)
Theorem C86_absolute p v r ws : reads p v r ws ->
  (std_is_absolute windows p = true <-> exists s, v = Some s /\ (drive s -> r = true)).
Proof. exact (reads_absolute p v r ws). Qed.
Print Assumptions C86_absolute.
(** The parent is without the last word, and the text of it the beginning of that of the path. *)
Theorem C86_parent p v r ws : reads p v r ws ->
  (ws = [] -> std_parent windows p = None)
  /\ (forall l w, ws = l ++ [w] ->
       exists q rest, std_parent windows p = Some q /\ rest <> [] /\ p = q ++ rest /\ reads q v r l).
Proof. exact (reads_parent p v r ws). Qed.
Print Assumptions C86_parent.
Theorem C86_above p v r ws : reads p v r ws -> Forall2 (fun q l => reads q v r l) (std_ancestors windows p) (above ws).
Proof. intros H. eapply forall2_weaken; [|exact (reads_ancestors _ _ _ _ H)]. now intros a c [A _]. Qed.
Print Assumptions C86_above.
(** The last word is the name of the file, unless it is dots. *)
Theorem C86_file_name p v r ws : reads p v r ws ->
  forall n, std_file_name windows p = Some n <-> (exists l, ws = l ++ [n]) /\ n <> B "." /\ n <> B "..".
Proof.
  intros H n. rewrite (reads_file_name p v r ws H n), is_dots_iff, orb_false_iff. unfold not. rewrite <- !str_eqb_eq.
  destruct (str_eqb n (B ".")), (str_eqb n (B "..")); intuition discriminate.
Qed.
Print Assumptions C86_file_name.

(** ** Joining *)

(** A path in a volume replaces the other ... *)
Theorem C86_join_volume base q s r ws : reads q (Some s) r ws -> std_join windows base q = q.
Proof. exact (join_volume base q s r ws). Qed.
Print Assumptions C86_join_volume.
(** ... one from the root leaves the volume ... *)
Theorem C86_join_root base s r ws q wq : reads base (Some s) r ws -> ~ long s -> reads q None true wq ->
  reads (std_join windows base q) (Some s) true wq.
Proof. exact (join_root base s r ws q wq). Qed.
Print Assumptions C86_join_root.
(** ... and any other is added, its first dot apart. *)
Theorem C86_join base v r ws q wq : reads base v r ws -> (forall s, v = Some s -> ~ long s) -> solid base v -> base <> [] ->
  reads q None false wq -> reads (std_join windows base q) v r (ws ++ after wq).
Proof. intros H L So N Q. assert (J := join_plain base v r ws q wq H L So Q). now destruct base. Qed.
Print Assumptions C86_join.
Theorem C86_join_empty q : std_join windows [] q = q.
Proof.
  destruct (reads_total q) as (v & r & ws & Q). destruct v as [s|]; [exact (join_volume [] q s r ws Q)|].
  destruct (none_plain _ _ _ Q) as (P & A & R). unfold std_join. rewrite P, A, R. now destruct r.
Qed.
Print Assumptions C86_join_empty.
(** In the long form dots are resolved. *)
Theorem C86_join_long base s r ws q rq wq : reads base (Some s) r ws -> long s -> solid base (Some s) ->
  reads q None rq wq -> q <> [] ->
  exists r', reads (std_join windows base q) (Some s) r' (onto (if rq then [] else ws) wq)
    /\ (r' = false <-> r = false /\ rq = false /\ onto ws wq = []).
Proof.
  intros H L So Q N. eexists. split; [exact (join_long_form base s r ws q rq wq H L So Q N)|].
  rewrite !orb_false_iff. destruct rq; [intuition discriminate|]. destruct (onto ws wq); cbn; intuition discriminate.
Qed.
Print Assumptions C86_join_long.

(** ** Searching *)

(** The files looked for in a directory. *)
Theorem C86_config_path ex d v r ws : reads d v r ws -> solid d v ->
  exists a b, reads a v (entered v r) (ws ++ [B "config"]) /\ reads b v (entered v r) (ws ++ [B "config.toml"])
    /\ os_config_path windows ex d = if ex a then Some a else if ex b then Some b else None.
Proof.
  intros H So. exists (std_join windows d (B "config")), (std_join windows d (B "config.toml")).
  split; [apply join_word; auto using config_name|]. split; [apply join_word; auto using toml_name|]. reflexivity.
Qed.
Print Assumptions C86_config_path.
(** [.cargo] of the current directory and of those above it; then the home, unless it is one of
    these, however it is written. *)
Theorem C86_walk ex cwd v r ws : reads cwd v r ws -> solid cwd v ->
  exists dirs, Forall2 (fun d l => reads d v (entered v r) (l ++ [B ".cargo"])) dirs (above ws)
    /\ let look d := match os_config_path windows ex d with Some f => [f] | None => [] end in
       os_walk windows ex cwd None = flat_map look dirs
       /\ forall h vh rh wh, reads h vh rh wh ->
          let seen := vh = v /\ rh = entered v r /\ exists k, In k (above ws) /\ wh = k ++ [B ".cargo"] in
          (seen -> os_walk windows ex cwd (Some h) = flat_map look dirs)
          /\ (~ seen -> os_walk windows ex cwd (Some h) = flat_map look dirs ++ look h).
Proof.
  intros H So. assert (F := reads_cargo_dirs cwd v r ws H So). eexists. split; [exact F|]. cbv zeta.
  split; [rewrite walk_closed; unfold left_over; now rewrite app_nil_r|].
  intros h vh rh wh Hh. assert (S := reads_seen h vh rh wh v (entered v r) _ _ Hh F). rewrite walk_closed. unfold left_over.
  destruct (existsb _ _) eqn:E; split; intros X.
  - now rewrite app_nil_r.
  - elim X. now apply S.
  - apply S in X. congruence.
  - reflexivity.
Qed.
Print Assumptions C86_walk.
(** [CARGO_HOME], relative to the current directory. *)
Theorem C86_cargo_home h d cwd v r ws vh rh wh : reads cwd v r ws -> (forall s, v = Some s -> ~ long s) -> solid cwd v -> cwd <> [] ->
  h <> [] -> reads h vh rh wh ->
  exists x, os_cargo_home windows (Some h) d cwd = Some x
    /\ (vh <> None -> x = h)
    /\ (forall s, vh = None -> rh = true -> v = Some s -> reads x v true wh)
    /\ (vh = None -> rh = false -> reads x v r (ws ++ after wh)).
Proof.
  intros H L So N Nh Q. unfold os_cargo_home. assert (is_empty h = false) as -> by now destruct h.
  destruct (std_is_absolute windows h) eqn:A.
  - exists h. split; [reflexivity|]. apply (reads_absolute _ _ _ _ Q) in A as (s & -> & _). split; [reflexivity|]. split; [intros s' E; discriminate E|discriminate].
  - exists (std_join windows cwd h). split; [reflexivity|]. split; [|split].
    + destruct vh as [s|]; [|easy]. intros _. exact (join_volume cwd h s rh wh Q).
    + intros s -> -> ->. apply (join_root cwd s r ws h wh H); auto.
    + intros -> ->. now apply C86_join.
Qed.
Print Assumptions C86_cargo_home.

(** ** Examples *)
Ltac read := first
  [ apply reads_share; [apply starts_iff; split; vm_compute; reflexivity|intros []|intros []]
  | apply reads_root; [apply starts_iff; split; vm_compute; reflexivity|eexists _, _; split; [vm_compute; reflexivity|first [left; reflexivity|right; reflexivity]]]
  | apply reads_drive; [apply starts_iff; split; vm_compute; reflexivity|intros (? & ? & E & [K|K]); vm_compute in E; congruence]
  | eapply reads_long_root; [apply starts_iff; split; vm_compute; reflexivity|exact I]
  | apply reads_long; [apply starts_iff; split; vm_compute; reflexivity|exact I]
  | apply reads_top; [apply no_start; vm_compute; reflexivity|eexists _, _; split; [vm_compute; reflexivity|first [left; reflexivity|right; reflexivity]]]
  | apply reads_here; [apply no_start; vm_compute; reflexivity|intros (? & ? & E & [K|K]); vm_compute in E; congruence] ].
Example C86_ex_read :
  reads (B "c:a\./b\") (Some (AtDrive "C")) false [B "a"; B "b"]
  /\ reads (B "//server/share") (Some (AtShare (B "server") (B "share"))) true []
  /\ reads (B "\\.\COM1\x\..") (Some (AtDevice (B "COM1"))) true [B "x"; B ".."]
  /\ reads (B "\\?\c:/a\.\b/c") (Some (LongDrive "C")) true [B "a"; B "."; B "b/c"]
  /\ reads (B "\\?\UNC\s\t\u") (Some (LongShare (B "s") (B "t"))) true [B "u"]
  /\ reads (B "\\?\pipe") (Some (LongName (B "pipe"))) false []
  /\ reads (B "\\server") None true [B "server"]
  /\ reads (B ".\a//.\b") None false [B "."; B "a"; B "b"]
  /\ reads (B "//?/c:/a") (Some (AtShare (B "?") (B "c:"))) true [B "a"].
Proof.
  repeat split.
  - change [B "a"; B "b"] with (pieces (B "a\./b\")). read.
  - change (@nil str) with (pieces []). read.
  - change [B "x"; B ".."] with (pieces (B "\x\..")). read.
  - change [B "a"; B "."; B "b/c"] with (long_pieces (B "a\.\b/c")). read.
  - change [B "u"] with (long_pieces (B "u")). read.
  - read.
  - change [B "server"] with (pieces (B "\\server")). read.
  - change [B "."; B "a"; B "b"] with (first_dot (B ".\a//.\b") ++ pieces (B ".\a//.\b")). read.
  - change [B "a"] with (pieces (B "/a")). read.
Qed.
Example C86_ex_join :
  std_join windows (B "\\server\share\x") (B ".\a") = B "\\server\share\x\.\a"
  /\ after [B "."; B "a"] = [B "a"]
  /\ std_join windows (B "\\server\share\x") (B "\a") = B "\\server\share\a"
  /\ std_join windows (B "\\?\C:\x\y") (B "..\.\a/b") = B "\\?\C:\x\a\b"
  /\ onto [B "x"; B "y"] [B ".."; B "a"; B "b"] = [B "x"; B "a"; B "b"]
  /\ std_join windows (B "C:a") (B "D:b") = B "D:b"
  /\ solid (B "\\server\share\x") (Some (AtShare (B "server") (B "share")))
  /\ ~ solid (B "\\server") None.
Proof.
  repeat (split; [vm_compute; reflexivity|]). split; [repeat split; discriminate|].
  intros N. apply N. exists "\"%char, "\"%char, (B "server"). split; [now left|]. split; [now left|reflexivity].
Qed.
(** What [solid] is for: the words become a start. *)
Theorem C86_join_refuted : exists base q v r ws wq v' r' ws', reads base v r ws /\ reads q None false wq
  /\ reads (std_join windows base q) v' r' ws' /\ v' <> v.
Proof.
  exists (B "\\server"), (B "a"), None, true, [B "server"], [B "a"], (Some (AtShare (B "server") (B "a"))), true, [].
  split; [change [B "server"] with (pieces (B "\\server")); read|].
  split; [change [B "a"] with (first_dot (B "a") ++ pieces (B "a")); read|].
  split; [|discriminate]. replace (std_join windows (B "\\server") (B "a")) with (B "\\server\a") by (vm_compute; reflexivity).
  change (@nil str) with (pieces []). read.
Qed.
Print Assumptions C86_join_refuted.
(** A home that is seen though it is written otherwise, and one that is not. *)
Example C86_ex_walk :
  reads (B "\\server\share\p\q") (Some (AtShare (B "server") (B "share"))) true [B "p"; B "q"]
  /\ reads (B "//server/share/p/./.cargo/") (Some (AtShare (B "server") (B "share"))) true ([B "p"] ++ [B ".cargo"])
  /\ In [B "p"] (above [B "p"; B "q"])
  /\ os_walk windows (fun _ => true) (B "\\server\share\p\q") (Some (B "//server/share/p/./.cargo/"))
     = [B "\\server\share\p\q\.cargo\config"; B "\\server\share\p\.cargo\config"; B "\\server\share\.cargo\config"]
  /\ os_walk windows (fun _ => true) (B "\\server\share\p\q") (Some (B "\\server\other\.cargo"))
     = [B "\\server\share\p\q\.cargo\config"; B "\\server\share\p\.cargo\config"; B "\\server\share\.cargo\config";
        B "\\server\other\.cargo\config"].
Proof.
  split; [change [B "p"; B "q"] with (pieces (B "\p\q")); read|].
  split; [change ([B "p"] ++ [B ".cargo"]) with (pieces (B "/p/./.cargo/")); read|].
  split; [cbn; auto|]. split; vm_compute; reflexivity.
Qed.
Example C86_ex_home :
  option_map (fun x => x) (os_cargo_home windows (Some (B "./h")) None (B "C:\w")) = Some (B "C:\w\./h")
  /\ os_cargo_home windows (Some (B "/h")) None (B "C:\w") = Some (B "C:/h")
  /\ os_cargo_home windows (Some (B "D:h")) None (B "C:\w") = Some (B "D:h").
Proof. repeat split; vm_compute; reflexivity. Qed.
