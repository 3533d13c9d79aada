(** Queries look at few fields, and what is answered stays. *)
From Verif.Model Require Import Base Str Path BMap Error Value De CfgExpr Triple EasyTypes Context
  ApplyEnv Process Resolve Easy Edit.
From Verif.Spec Require Import StrSpec TargetSpec QuerySpec EditSpec.
From Verif.Proof Require Import StateProof TargetProof QueryProof.

Lemma bind_ext {A A'} (m m' : M A) (f f' : A -> M A') s :
  m s = m' s -> (forall a s1, f a s1 = f' a s1) -> bindM m f s = bindM m' f' s.
Proof. intros E F. rewrite !bindM_eq, <- E. destruct (m s) as [[a|e|p] s1]; auto. Qed.

(** ** One query on two configurations *)
Definition part_same (x : part) (b b' : ebuild) : Prop :=
  match x with
  | Compiler => eb_rustc b = eb_rustc b'
  | Wrapper => eb_rustc_wrapper b = eb_rustc_wrapper b'
  | WorkspaceWrapper => eb_rustc_workspace_wrapper b = eb_rustc_workspace_wrapper b'
  | DefaultTarget => eb_target b = eb_target b'
  | HiddenFlags =>
      eb_override_target_rustflags b = eb_override_target_rustflags b' /\ eb_de_rustflags b = eb_de_rustflags b'
      /\ eb_override_target_rustdocflags b = eb_override_target_rustdocflags b'
      /\ eb_de_rustdocflags b = eb_de_rustdocflags b'
  end.

Section Two.
Context (pr : profile) (w : world) (cx : context) (b b' : ebuild).

Section Version.
Context (C : part_same Compiler b b') (W : part_same Wrapper b b').
Lemma base_ext s : base_rustc w cx b s = base_rustc w cx b' s.
Proof. unfold base_rustc. cbn in C. now rewrite C. Qed.
Lemma for_version_ext s : rustc_for_version w cx b s = rustc_for_version w cx b' s.
Proof. unfold rustc_for_version. cbn in W. rewrite W. apply bind_ext; [apply base_ext|easy]. Qed.
Lemma rustc_host_ext s : rustc_host pr w cx b s = rustc_host pr w cx b' s.
Proof. unfold rustc_host. apply bind_ext; [apply for_version_ext|easy]. Qed.
Lemma host_ext s : cx_host_triple pr w cx b s = cx_host_triple pr w cx b' s.
Proof.
  unfold cx_host_triple. apply bind_ext; [easy|]. intros a s1. destruct (s_host a); [easy|].
  apply bind_ext; [|easy]. unfold or_else. destruct (cargo_host pr w cx s1) as [[x|e|p] s2]; [easy|apply rustc_host_ext|easy].
Qed.
Lemma ignore_ext s : ignore_err (cx_host_triple pr w cx b) s = ignore_err (cx_host_triple pr w cx b') s.
Proof. unfold ignore_err. now rewrite host_ext. Qed.
Lemma rv_ext s : cx_rustc_version pr w cx b s = cx_rustc_version pr w cx b' s.
Proof.
  unfold cx_rustc_version. apply bind_ext; [easy|]. intros a s1. destruct (s_rustc_version a); [easy|].
  apply bind_ext; [apply ignore_ext|]. intros [] s2. apply bind_ext; [easy|]. intros s3 s4.
  destruct (s_rustc_version s3); [easy|]. apply bind_ext; [apply for_version_ext|easy].
Qed.
Lemma cv_ext s : cx_cargo_version pr w cx b s = cx_cargo_version pr w cx b' s.
Proof.
  unfold cx_cargo_version. apply bind_ext; [easy|]. intros a s1. destruct (s_cargo_version a); [easy|].
  apply bind_ext; [apply ignore_ext|easy].
Qed.

Context (V : part_same WorkspaceWrapper b b').
Lemma rustc_ext s : cx_rustc w cx b s = cx_rustc w cx b' s.
Proof.
  unfold cx_rustc. apply bind_ext; [easy|]. intros a s1. destruct (s_rustc a); [easy|].
  cbn in V, W. rewrite V, W. apply bind_ext; [apply base_ext|easy].
Qed.
Lemma target_cfg_ext t s : target_cfg w cx b t s = target_cfg w cx b' t s.
Proof.
  unfold target_cfg. apply bind_ext; [easy|]. intros a s1. destruct (cfg_get _ _); [easy|].
  apply bind_ext; [apply rustc_ext|easy].
Qed.
Lemma eval_ext k t s : eval_cfg pr w cx b k t s = eval_cfg pr w cx b' k t s.
Proof.
  unfold eval_cfg. apply bind_ext; [easy|]. intros e s1. apply bind_ext; [apply target_cfg_ext|easy].
Qed.
Lemma cfgs_ext t tables : forall acc s, resolve_cfgs pr w cx b t tables acc s = resolve_cfgs pr w cx b' t tables acc s.
Proof.
  induction tables as [|[k v] tables IH]; intros acc s; cbn [resolve_cfgs]; [easy|].
  destruct (negb _); [apply IH|]. apply bind_ext; [apply eval_ext|]. intros m s1. destruct acc as [[x y] z]. apply IH.
Qed.
Context (F : part_same HiddenFlags b b').
Lemma resolve_ext tables t s : resolve_target pr w cx b tables t s = resolve_target pr w cx b' tables t s.
Proof.
  unfold resolve_target. cbv zeta. destruct (starts_with _ _); [easy|].
  destruct F as (F1 & F2 & F3 & F4). rewrite F1, F2, F3, F4.
  do 5 (apply bind_ext; [easy|intros ? ?]). apply bind_ext; [apply cfgs_ext|easy].
Qed.
End Version.
End Two.

Lemma target_of_ext pr w c c' t s :
  ec_cx c = ec_cx c' -> ec_de_target c = ec_de_target c' ->
  (forall x, x <> DefaultTarget -> part_same x (ec_build c) (ec_build c')) ->
  q_target_of pr w c t s = q_target_of pr w c' t s.
Proof.
  intros X T H. unfold q_target_of. apply bind_ext; [|easy]. unfold init_target_config. rewrite X, T.
  apply bind_ext; [easy|]. intros a s1. destruct (bget _ _); [easy|].
  apply bind_ext; [|easy]. apply resolve_ext; apply H; discriminate.
Qed.
Lemma q_target_ext pr w c c' a s :
  ec_cx c = ec_cx c' -> ec_de_target c = ec_de_target c' ->
  (forall x, x <> DefaultTarget -> part_same x (ec_build c) (ec_build c')) ->
  q_target pr w c a s = q_target pr w c' a s.
Proof. intros X T H. unfold q_target. apply bind_ext; [easy|]. intros t s1. now apply target_of_ext. Qed.

Lemma query_ext pr w c c' q s :
  ec_cx c = ec_cx c' -> ec_de_target c = ec_de_target c' ->
  (forall x, consults q x -> part_same x (ec_build c) (ec_build c')) ->
  run_query pr w c q s = run_query pr w c' q s.
Proof.
  intros X T H. destruct q as [a|a|a|a|a|l|l| | | | | ]; cbn [run_query consults] in *; unfold mapM.
  - apply bind_ext; [now apply q_target_ext|easy].
  - apply bind_ext; [|easy]. unfold q_linker. apply bind_ext; [now apply q_target_ext|easy].
  - apply bind_ext; [|easy]. unfold q_runner. apply bind_ext; [now apply q_target_ext|easy].
  - apply bind_ext; [|easy]. unfold q_rustflags. apply bind_ext; [now apply q_target_ext|easy].
  - apply bind_ext; [|easy]. unfold q_rustdocflags. apply bind_ext; [now apply q_target_ext|easy].
  - apply bind_ext; [|easy]. unfold q_build_target_for_config. rewrite !bind_lift.
    destruct l as [|a l].
    + cbn [traverse]. assert (D := H DefaultTarget (conj eq_refl (or_introl eq_refl))). cbn in D. rewrite <- D.
      destruct (eb_target (ec_build c)) as [[|t ts]|]; try easy; rewrite X; (apply bind_ext; [|easy]);
        (apply host_ext; apply H; auto).
    + destruct (traverse to_triple (a :: l)) as [[|t ts]|e|p] eqn:E; try easy. exfalso.
      cbn in E. destruct (to_triple a); [|discriminate..]. cbn in E. destruct (traverse to_triple l); discriminate.
  - destruct l as [|a l]; [|easy]. unfold q_build_target_for_cli.
    assert (D := H DefaultTarget (conj eq_refl eq_refl)). cbn in D. now rewrite <- D.
  - apply bind_ext; [|easy]. unfold q_rustc. rewrite X. apply rustc_ext; apply H; auto.
  - unfold q_cargo. now rewrite X.
  - apply bind_ext; [|easy]. unfold q_host_triple. rewrite X. apply host_ext; apply H; auto.
  - apply bind_ext; [|easy]. unfold q_rustc_version. rewrite X. apply rv_ext; apply H; auto.
  - apply bind_ext; [|easy]. unfold q_cargo_version. rewrite X. apply cv_ext; apply H; auto.
Qed.

(** ** Assignments *)
Lemma edit_part e c x : ~ changes e x -> part_same x (ec_build c) (ec_build (apply_edit e c)).
Proof.
  intros N. cbn [apply_edit ec_build]. destruct (ec_build c), e, x; cbn in *; try tauto; try congruence; repeat split.
Qed.
Lemma edit_cx e c : ec_cx (apply_edit e c) = ec_cx c. Proof. reflexivity. Qed.
Lemma edit_tables e c : ec_de_target (apply_edit e c) = ec_de_target c. Proof. reflexivity. Qed.

Lemma query_edit pr w c e q s :
  (forall x, changes e x -> ~ consults q x) -> run_query pr w (apply_edit e c) q s = run_query pr w c q s.
Proof.
  intros H. symmetry. apply query_ext; [reflexivity|reflexivity|]. intros x Cx. apply edit_part.
  intros K. now apply (H x).
Qed.

Lemma steps_config pr w l : forall c s, fst (snd (run_steps pr w l c s)) = edited l c.
Proof.
  induction l as [|[q|e] l IH]; intros c s; cbn [run_steps]; [easy| |].
  - destruct (run_query pr w c q s) as [r s1]. specialize (IH c s1). now destruct (run_steps pr w l c s1).
  - exact (IH _ _).
Qed.

(** Only the calls, on configurations that may differ where no call looks. *)
Lemma steps_ext pr w l : forall c c' s,
  ec_cx c = ec_cx c' -> ec_de_target c = ec_de_target c' -> undisturbed l ->
  (forall q x, In (Call q) l -> consults q x -> part_same x (ec_build c) (ec_build c')) ->
  fst (run_steps pr w l c s) = fst (run_steps pr w (map Call (calls l)) c' s)
  /\ snd (snd (run_steps pr w l c s)) = run_queries pr w c' (calls l) s.
Proof.
  induction l as [|[q|e] l IH]; intros c c' s X T U P; [easy| |]; cbn [run_steps].
  - change (calls (Call q :: l)) with (q :: calls l). cbn [map run_steps run_queries].
    rewrite (query_ext pr w c c' q s X T) by (intros x; apply P; now left).
    destruct (run_query pr w c' q s) as [r s1] eqn:Q. cbn [snd].
    destruct (IH c c' s1 X T) as [E1 E2].
    + intros before e after q' x ->. apply (U (Call q :: before) e after q' x eq_refl).
    + intros q' x I. apply P. now right.
    + destruct (run_steps pr w l c s1) as [rs cs]. destruct (run_steps pr w (map Call (calls l)) c' s1) as [rs' cs'].
      cbn [fst snd] in *. now rewrite E1, E2.
  - apply (IH (apply_edit e c) c' s X T).
    + intros before e' after q x ->. apply (U (Edit e :: before) e' after q x eq_refl).
    + intros q x I Cx. assert (K := edit_part e c x). assert (D := P q x (or_intror I) Cx).
      assert (N : ~ changes e x) by (intros N; apply (U [] e l q x eq_refl I N Cx)).
      specialize (K N). destruct x; cbn in *; try congruence. intuition congruence.
Qed.

(** ** What was answered *)
Lemma steps_grow pr w l : forall c s, grows s (snd (snd (run_steps pr w l c s))).
Proof.
  induction l as [|[q|e] l IH]; intros c s; cbn [run_steps]; [apply grows_refl| |].
  - assert (G := query_grows pr w c q s). destruct (run_query pr w c q s) as [r s1]. specialize (IH c s1).
    destruct (run_steps pr w l c s1) as [rs [c2 s2]]. cbn in *. eapply grows_trans; eassumption.
  - apply IH.
Qed.

Lemma target_kept pr w c c' q a s x s1 s2 : target_query q a -> run_query pr w c q s = (Ok x, s1) -> grows s1 s2 ->
  run_query pr w c' q s2 = (Ok x, s2).
Proof.
  intros Q H G. apply (target_query_ok _ _ _ _ _ _ _ _ Q) in H as (e & H & ->).
  apply q_target_ok in H as (t & Ht & He). destruct G as (_ & _ & _ & _ & _ & _ & _ & G). apply G in He.
  rewrite (target_query_run _ _ _ _ _ _ Q). unfold q_target. rewrite bindM_assoc, bind_lift. rewrite Ht.
  unfold q_target_of. rewrite bindM_eq. unfold init_target_config. rewrite !bindM_eq. cbn [get]. rewrite He.
  unfold ret at 1. rewrite bindM_eq. cbn [get]. now rewrite He.
Qed.
Lemma tool_kept pr w c c' q s x s1 s2 : tool_query q -> run_query pr w c q s = (Ok x, s1) -> grows s1 s2 ->
  run_query pr w c' q s2 = (Ok x, s2).
Proof.
  intros Q H G. destruct G as (_ & _ & G1 & G2 & G3 & G4 & _).
  destruct Q as [-> | [-> | [-> | -> ]]]; cbn [run_query] in *; unfold mapM in *; apply bindM_ok in H as (y & s0 & H & K); injection K as <- <-.
  - unfold q_rustc in *. apply cx_rustc_ok in H. apply G1 in H. unfold cx_rustc. rewrite !bindM_eq. cbn [get]. now rewrite H.
  - assert (K : s_host s0 = Some y).
    { unfold q_host_triple, cx_host_triple in H. rewrite bindM_eq in H. cbn [get] in H. destruct (s_host s) as [h|] eqn:E; [now injection H as <- <-|].
      apply bindM_ok in H as (h & s3 & _ & H). apply bindM_ok in H as ([] & s4 & Hs & H). injection H as <- <-. now injection Hs as <-. }
    apply G2 in K. unfold q_host_triple, cx_host_triple. rewrite !bindM_eq. cbn [get]. now rewrite K.
  - assert (K : s_rustc_version s0 = Some y).
    { unfold q_rustc_version, cx_rustc_version in H. rewrite bindM_eq in H. cbn [get] in H.
      destruct (s_rustc_version s) as [v|] eqn:E; [now injection H as <- <-|].
      apply bindM_ok in H as (h & s3 & _ & H). rewrite bindM_eq in H. cbn [get] in H.
      destruct (s_rustc_version s3) as [v|] eqn:E3; [now injection H as <- <-|].
      apply bindM_ok in H as (r & s4 & _ & H). apply bindM_ok in H as (vv & s5 & _ & H). apply bindM_ok in H as (v & s6 & _ & H).
      apply bindM_ok in H as ([] & s7 & Hs & H). injection H as <- <-. now injection Hs as <-. }
    apply G3 in K. unfold q_rustc_version, cx_rustc_version. rewrite !bindM_eq. cbn [get]. now rewrite K.
  - assert (K : s_cargo_version s0 = Some y).
    { unfold q_cargo_version, cx_cargo_version in H. rewrite bindM_eq in H. cbn [get] in H.
      destruct (s_cargo_version s) as [v|] eqn:E; [now injection H as <- <-|].
      apply bindM_ok in H as (h & s3 & _ & H). rewrite bindM_eq in H. cbn [get] in H.
      destruct (s_cargo_version s3) as [v|] eqn:E3; [now injection H as <- <-|].
      apply bindM_ok in H as (vv & s5 & _ & H). apply bindM_ok in H as (v & s6 & _ & H).
      apply bindM_ok in H as ([] & s7 & Hs & H). injection H as <- <-. now injection Hs as <-. }
    apply G4 in K. unfold q_cargo_version, cx_cargo_version. rewrite !bindM_eq. cbn [get]. now rewrite K.
Qed.
