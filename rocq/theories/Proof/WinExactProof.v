(** The compiler on Windows to the letter, for any text of cargo. *)
From Verif.Model Require Import Base Str Path StdPath OsPaths BMap Error Value De CfgExpr Triple EasyTypes Context ApplyEnv
  Process Walk Load Resolve Easy OsLoad.
From Verif.Spec Require WinAnySpec WinJoinSpec WinParentSpec.
From Verif.Spec Require Import StrSpec LoadSpec EnvSpec FinalSpec TargetSpec QuerySpec OsTargetSpec WinTargetSpec OsQuerySpec WinAnyLoadSpec WinAnyTargetSpec WinExactSpec.
From Verif.Proof Require WinAnyProof WinJoinProof WinParentProof.
From Verif.Proof Require Import OsTargetProof OsQueryProof WinAnyLoadProof WinAnyTargetProof.

Lemma folder_iff cargo d : folder cargo d <-> std_pop windows cargo = d.
Proof.
  destruct (WinParentProof.pop_text cargo) as [(q & Q & E)|((v & r & R) & E)]; rewrite E.
  - split; [|intros <-; now apply folder_parent]. intros [d' D|v r R]; [now apply (WinParentProof.parent_text_functional cargo)|].
    exfalso. apply WinParentProof.parent_text_iff in Q. destruct (WinAnyProof.reads_parent _ _ _ _ R) as [P _]. rewrite P in Q by reflexivity. discriminate Q.
  - split; [|intros <-; now apply folder_self with v r]. intros [d' D|v' r' R']; [|reflexivity].
    exfalso. apply WinParentProof.parent_text_iff in D. destruct (WinAnyProof.reads_parent _ _ _ _ R) as [P _]. rewrite P in D by reflexivity. discriminate D.
Qed.
Lemma join_iff d x : WinJoinSpec.joined d (B "rustc.exe") x <-> std_join windows d (B "rustc.exe") = x.
Proof.
  split; [exact (WinJoinProof.joined_is d _ x)|]. intros <-. destruct (WinJoinProof.joined_total d (B "rustc.exe")) as (y & J).
  now rewrite (WinJoinProof.joined_is _ _ _ J).
Qed.
Lemma exact_one b cargo there : exists p, exact_compiler b cargo there p /\ forall p', exact_compiler b cargo there p' -> p' = p.
Proof.
  destruct (eb_rustc b) as [r|] eqn:E.
  - exists r. split; [now constructor|]. intros p' [r' E'|d x E' _ _ _|d x E' _ _ _]; congruence.
  - set (d := std_pop windows cargo). set (x := std_join windows d (B "rustc.exe")).
    assert (F : folder cargo d) by now apply folder_iff. assert (J : WinJoinSpec.joined d (B "rustc.exe") x) by now apply join_iff.
    assert (U : forall d' x', folder cargo d' -> WinJoinSpec.joined d' (B "rustc.exe") x' -> x' = x).
    { intros d' x' F' J'. apply folder_iff in F'. apply join_iff in J'. subst. reflexivity. }
    destruct (there x) eqn:T.
    + exists x. split; [now apply exact_beside with d|]. intros p' [r' E'|d' x' E' F' J' T'|d' x' E' F' J' T']; [congruence|now apply (U d')|].
      rewrite (U d' x' F' J') in T'. congruence.
    + exists (B "rustc"). split; [now apply exact_name with d x|]. intros p' [r' E'|d' x' E' F' J' T'|d' x' E' F' J' T']; [congruence| |reflexivity].
      rewrite (U d' x' F' J') in T'. congruence.
Qed.
Lemma exact_iff w ec n p : exact_compiler (ec_build ec) (cx_cargo (ec_cx ec)) (w_exists w n) p <-> p = os_compiler windows (B ".exe") w ec n.
Proof.
  unfold os_compiler. destruct (eb_rustc (ec_build ec)) as [r|] eqn:E.
  - split; [|intros ->; now constructor]. intros [r' E'|d x E' _ _ _|d x E' _ _ _]; congruence.
  - unfold os_rustc_path. cbv zeta. change (B "rustc" ++ B ".exe") with (B "rustc.exe").
    assert (J := proj2 (join_iff (std_pop windows (cx_cargo (ec_cx ec))) _) eq_refl).
    assert (F := proj2 (folder_iff (cx_cargo (ec_cx ec)) _) eq_refl). split.
    + intros [r E'|d x _ D X T|d x _ D X T]; [congruence| |]; apply folder_iff in D; apply join_iff in X; subst d; subst x; now rewrite T.
    + intros ->. destruct (w_exists w n _) eqn:T; [eapply exact_beside|eapply exact_name]; eauto.
Qed.
Lemma exact_context f p cwd o cargo ec : cargo_of f p cwd o cargo ec ->
  cx_cargo (ec_cx ec) = cargo /\ cx_rustc0 (ec_cx ec) = o_rustc o /\ cx_host0 (ec_cx ec) = o_host_triple o.
Proof.
  intros (L & env & En & Hc). rewrite (any_cx f p cwd o ec L).
  assert (G := any_env p cwd o env En). split; [|split; reflexivity].
  cbn [into_context cx_cargo]. cbv zeta. destruct Hc as [x E|x E1 E2|E1 E2].
  - now rewrite E.
  - rewrite E1. rewrite G in E2. cbn [into_context cx_env] in E2. now rewrite E2.
  - rewrite E1. rewrite G in E2. cbn [into_context cx_env] in E2. now rewrite E2.
Qed.
Section Found.
Context (f : fs) (p : process_env) (cwd : str) (o : options) (cargo : str) (ec : econfig) (w : world).
Context (A : cargo_of f p cwd o cargo ec).
Lemma exact_mono n m x : n <= m -> exact_found w (ec_build ec) cargo n x -> exact_found w (ec_build ec) cargo m x.
Proof. intros Le (k & Lk & H). exists k. split; [lia|exact H]. Qed.
Lemma exact_now n m : n <= m -> exact_found w (ec_build ec) cargo m (os_compiler windows (B ".exe") w ec n).
Proof.
  intros Le. exists n. split; [exact Le|]. destruct (exact_context _ _ _ _ _ _ A) as (E & _). rewrite <- E. now apply exact_iff.
Qed.
Lemma exact_only n x : exact_found w (ec_build ec) cargo n x -> exists k, x = os_compiler windows (B ".exe") w ec k.
Proof.
  intros (k & _ & H). exists k. destruct (exact_context _ _ _ _ _ _ A) as (E & _). rewrite <- E in H. now apply exact_iff.
Qed.
Lemma exact_told pr s : os_reached windows (B ".exe") pr w ec s -> told w ec (exact_found w (ec_build ec) cargo) s.
Proof. exact (reached_told windows (B ".exe") pr w ec _ exact_mono exact_now s). Qed.
End Found.
(** Where joining does not add to the start, the folder is where [WinAnyTargetSpec] has it. *)
Lemma exact_any b cargo there x : (eb_rustc b = None -> forall m, read_as cargo m -> WinAnySpec.solid cargo (fst (fst m))) ->
  exact_compiler b cargo there x -> any_compiler b cargo there x.
Proof.
  intros H. destruct (read_total cargo) as (m & M). intros [r E|d y E D J T|d y E D J T]; [now constructor| |];
  apply folder_iff in D; apply join_iff in J; destruct (pop_reading _ m M (H E m M)) as [Pr Ps]; assert (K := join_into _ _ _ Pr Ps rustc_name);
  rewrite D, J in K; [now apply any_compiler_beside with m|eapply any_compiler_name; eauto].
Qed.
