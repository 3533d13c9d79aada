(** Lemmas about what cargo and rustc are asked on Windows. *)
From Verif.Model Require Import Base Str Path StdPath OsPaths BMap Error Value De CfgExpr Triple EasyTypes
  Context ApplyEnv Process Walk Load Resolve Easy OsLoad.
From Verif.Spec Require Import StrSpec ConfigSpec LoadSpec EnvSpec TargetSpec FinalSpec QuerySpec WinSpec WinLoadSpec
  OsTargetSpec WinTargetSpec OsQuerySpec.
From Verif.Proof Require Import StateProof VersionProof WinPrefixProof WinDirProof WinUseProof WinLoadProof OsTargetProof
  WinTargetProof OsQueryProof.

(** ** Where the programs come from *)
Lemma win_context f p cwd o env l ec cargo :
  win_sources f p cwd o env l -> os_easy_load windows f p (at_place cwd) o = Ok ec -> win_cargo o env cargo ->
  cx_cargo (ec_cx ec) = cargo /\ cx_rustc0 (ec_cx ec) = o_rustc o /\ cx_host0 (ec_cx ec) = o_host_triple o
  /\ (forall n, env_get n env = env_get n (cx_env (ec_cx ec))).
Proof.
  intros S H Hc. unfold os_easy_load in H. cbv zeta in H. apply bind_okk in H as (c & Hl & H).
  change (cx_current_dir (into_context p o (at_place cwd))) with (at_place cwd) in Hl.
  destruct (win_merged f p cwd o env l c S Hl) as (_ & G & _).
  destruct (os_unresolved_ok windows c _ ec H) as (de & _ & Ecx & _). rewrite Ecx.
  split; [|split; [reflexivity|split; [reflexivity|exact G]]].
  cbn [into_context cx_cargo]. cbv zeta. destruct Hc as [x E|x E1 E2|E1 E2].
  - now rewrite E.
  - rewrite E1. rewrite G in E2. cbn [into_context cx_env] in E2. now rewrite E2.
  - rewrite E1. rewrite G in E2. cbn [into_context cx_env] in E2. now rewrite E2.
Qed.
Lemma compiler_only w ec n p :
  WinTargetSpec.compiler (ec_build ec) (cx_cargo (ec_cx ec)) (w_exists w n) p -> p = os_compiler windows (B ".exe") w ec n.
Proof.
  unfold os_compiler. intros [r E|(v & l) x E C (V & N) W T|(v & l) x E C (V & N) W T|E W T|E W T]; rewrite E; [reflexivity|..].
  1,2: rewrite C; unfold at_place, in_place in *; cbn [fst snd] in *; rewrite rustc_beside; [|exact V|apply Forall_app; auto];
       now rewrite T.
  all: unfold os_rustc_path; rewrite (pop_name _ W);
    change (std_join windows [] (B "rustc" ++ B ".exe")) with (B "rustc.exe"); now rewrite T.
Qed.

Section Found.
Context (w : world) (ec : econfig) (cargo : str) (Ec : cx_cargo (ec_cx ec) = cargo)
        (Sh : eb_rustc (ec_build ec) = None -> cargo_placed cargo).
Lemma win_mono n m p : n <= m -> win_found w (ec_build ec) cargo n p -> win_found w (ec_build ec) cargo m p.
Proof. intros L (k & Lk & H). exists k. split; [lia|exact H]. Qed.
Lemma win_now n m : n <= m -> win_found w (ec_build ec) cargo m (os_compiler windows (B ".exe") w ec n).
Proof.
  intros L. exists n. split; [exact L|]. rewrite <- Ec. apply compiler_is. rewrite Ec. exact Sh.
Qed.
Lemma win_only n p : win_found w (ec_build ec) cargo n p -> exists k, p = os_compiler windows (B ".exe") w ec k.
Proof. intros (k & _ & H). exists k. rewrite <- Ec in H. now apply compiler_only. Qed.
End Found.

(** ** Tools that do not change *)
Section Steady.
Context (os : system) (suffix : str) (pr : profile) (w : world) (c : econfig) (found : nat -> str -> Prop)
  (found_mono : forall n m p, n <= m -> found n p -> found m p)
  (found_now : forall n m, n <= m -> found m (os_compiler os suffix w c n))
  (St : steady w) (found_only : forall n p, found n p -> exists k, p = os_compiler os suffix w c k)
  (D : debug_assertions pr = false).
Let cx := ec_cx c.
Let b := ec_build c.

Lemma asked_rustcQ n : asked_rustc found b n (rustcQ os suffix w c).
Proof.
  exists (baseP os suffix w c). split; [apply found_now; lia|]. unfold ask, rustcQ, versionP, maybe, opt_list.
  fold b. destruct (eb_rustc_wrapper b); reflexivity.
Qed.
Lemma rustc_vv_prints out cmd : rustc_vv os suffix w c = Ok (out, cmd) <-> cmd = rustcQ os suffix w c /\ prints w cmd out.
Proof.
  unfold rustc_vv, rd, prints. split.
  - destruct (read_outcome _ _) as [x|e|p] eqn:E; cbn; try discriminate. intros [= <- <-]. auto.
  - intros [-> E]. now rewrite E.
Qed.
Lemma cargo_vv_prints out cmd : cargo_vv w c = Ok (out, cmd) <-> cmd = asked_cargo (cx_cargo cx) /\ prints w cmd out.
Proof.
  unfold cargo_vv, rd, prints. fold cx. split.
  - destruct (read_outcome _ _) as [x|e|p] eqn:E; cbn; try discriminate. intros [= <- <-]. auto.
  - intros [-> E]. now rewrite E.
Qed.
Lemma rustc_always s v : told w c found s ->
  fst (os_run_query os suffix pr w c QRustcVersion s) = Ok (ARustcVersion v)
  <-> exists cmd out, asked_rustc found b 0 cmd /\ prints w cmd out /\ says_rustc out v.
Proof.
  intros T. cbn [os_run_query]. rewrite mapM_fst.
  destruct (rv_answers os suffix pr w c found found_mono found_now St found_only s T) as [E|[D' _]]; [|unfold asserts in D'; congruence].
  rewrite E. unfold rvP. split.
  - intros H. destruct (rustc_vv os suffix w c) as [[out cmd]|e|p] eqn:V; try discriminate. cbn [bind] in H.
    apply rustc_vv_prints in V as [-> P]. exists (rustcQ os suffix w c), out. split; [apply asked_rustcQ|]. split; [exact P|].
    destruct (rustc_version_of _) as [v'|?|?] eqn:Hv in H; try discriminate. injection H as ->.
    now apply (rustc_version_iff (out, _)) in Hv.
  - intros (cmd & out & A & P & Hv). assert (Ec := rustc_question_value os suffix w c found St found_only 0 cmd A).
    assert (V := proj2 (rustc_vv_prints out cmd) (conj Ec P)). rewrite V. cbn [bind].
    apply (rustc_version_iff (out, cmd)) in Hv. now rewrite Hv.
Qed.
Lemma cargo_always s v : told w c found s ->
  fst (os_run_query os suffix pr w c QCargoVersion s) = Ok (ACargoVersion v)
  <-> exists out, prints w (asked_cargo (cx_cargo cx)) out /\ says_cargo out v.
Proof.
  intros T. cbn [os_run_query]. rewrite mapM_fst.
  destruct (cv_answers os suffix pr w c found found_mono found_now St found_only s T) as [E|[D' _]]; [|unfold asserts in D'; congruence].
  rewrite E. unfold cargoP. split.
  - intros H. destruct (cargo_vv w c) as [[out cmd]|e|p] eqn:V; try discriminate. cbn [bind] in H.
    apply cargo_vv_prints in V as [-> P]. exists out. split; [exact P|].
    destruct (cargo_version_of _) as [v'|?|?] eqn:Hv in H; try discriminate. injection H as ->.
    now apply (cargo_version_iff (out, _)) in Hv.
  - intros (out & P & Hv). assert (V := proj2 (cargo_vv_prints out _) (conj eq_refl P)). rewrite V. cbn [bind].
    apply (cargo_version_iff (out, asked_cargo (cx_cargo cx))) in Hv. now rewrite Hv.
Qed.
Lemma cargo_host_iff h : cargo_hostP w c = Ok h
  <-> exists out v, prints w (asked_cargo (cx_cargo cx)) out /\ says_cargo out v /\ says_host out h.
Proof.
  unfold cargo_hostP. split.
  - intros H. destruct (cargo_vv w c) as [[out cmd]|e|p] eqn:V; try discriminate. cbn [bind] in H.
    apply cargo_vv_prints in V as [-> P]. destruct (cargo_version_of _) as [v|?|?] eqn:Hv in H; try discriminate. cbn [bind] in H.
    exists out, v. split; [exact P|]. split; [now apply (cargo_version_iff (out, _)) in Hv|now apply (host_iff (out, _)) in H].
  - intros (out & v & P & Hv & Hh). assert (V := proj2 (cargo_vv_prints out _) (conj eq_refl P)). rewrite V. cbn [bind].
    apply (cargo_version_iff (out, asked_cargo (cx_cargo cx))) in Hv. rewrite Hv. cbn [bind]. now apply (host_iff (out, _)).
Qed.
Lemma rustc_host_iff h : rustc_hostP os suffix w c = Ok h
  <-> exists cmd out v, asked_rustc found b 0 cmd /\ prints w cmd out /\ says_rustc out v /\ says_host out h.
Proof.
  unfold rustc_hostP. split.
  - intros H. destruct (rustc_vv os suffix w c) as [[out cmd]|e|p] eqn:V; try discriminate. cbn [bind] in H.
    apply rustc_vv_prints in V as [-> P]. destruct (rustc_version_of _) as [v|?|?] eqn:Hv in H; try discriminate. cbn [bind] in H.
    exists (rustcQ os suffix w c), out, v. split; [apply asked_rustcQ|]. split; [exact P|].
    split; [now apply (rustc_version_iff (out, _)) in Hv|now apply (host_iff (out, _)) in H].
  - intros (cmd & out & v & A & P & Hv & Hh). assert (Ec := rustc_question_value os suffix w c found St found_only 0 cmd A).
    assert (V := proj2 (rustc_vv_prints out cmd) (conj Ec P)). rewrite V. cbn [bind].
    apply (rustc_version_iff (out, cmd)) in Hv. rewrite Hv. cbn [bind]. now apply (host_iff (out, _)).
Qed.
Lemma host_always s h : told w c found s ->
  fst (os_run_query os suffix pr w c QHostTriple s) = Ok (AStr h) <-> steady_host found w b (cx_cargo cx) (cx_host0 cx) h.
Proof.
  intros T. cbn [os_run_query]. rewrite mapM_fst.
  destruct (host_answers os suffix pr w c found St found_only s T) as [E|[D' _]]; [|unfold asserts in D'; congruence].
  rewrite E. unfold hostP, steady_host. fold cx. destruct (cx_host0 cx) as [h0|].
  { cbn. split; [intros [= ->]; auto|]. intros [[= ->]|[[=] _]]. reflexivity. }
  assert (K : forall r : result str, map_ok AStr r = Ok (AStr h) <-> r = Ok h).
  { intros [x|e|p]; cbn; split; intros [=]; congruence. }
  rewrite K. destruct (cargo_hostP w c) as [h'|e|p] eqn:C.
  - apply cargo_host_iff in C as C'. split.
    + intros [= ->]. right. split; [reflexivity|]. now left.
    + intros [[=]|[_ [H|[N _]]]].
      * apply cargo_host_iff in H. congruence.
      * destruct C' as (out & v & P & Hv & Hh). destruct (N out v h' P Hv Hh).
  - assert (N : forall out v h', prints w (asked_cargo (cx_cargo cx)) out -> says_cargo out v -> ~ says_host out h').
    { intros out v h' P Hv Hh. assert (X : cargo_hostP w c = Ok h') by (apply cargo_host_iff; eauto). congruence. }
    rewrite rustc_host_iff. split.
    + intros H. right. split; [reflexivity|]. right. auto.
    + intros [[=]|[_ [H|[_ H]]]]; [|exact H]. apply cargo_host_iff in H. congruence.
  - destruct (cargo_host_no_panic w c p C).
Qed.
End Steady.

(** ** Build targets *)
Lemma traverse_all {E A A'} (g : A -> res E A') l ts : traverse g l = Ok ts -> Forall2 (fun a t => g a = Ok t) l ts.
Proof.
  revert ts. induction l as [|v vs IH]; intros ts H; cbn in H.
  - injection H as <-. constructor.
  - apply bind_okk in H as (x & Hx & H). apply bind_okk in H as (xs & Hxs & H). injection H as <-. constructor; auto.
Qed.
Lemma win_build_targets f p cwd o env l ec : win_sources f p cwd o env l -> os_easy_load windows f p (at_place cwd) o = Ok ec ->
  match words_of env l BuildTarget with
  | None => eb_target (ec_build ec) = None
  | Some ws => exists ts, eb_target (ec_build ec) = Some ts
      /\ Forall2 (fun v t => os_triple (E := error) windows (val v) (def v) (Some (at_place cwd)) = Ok t) (snd ws) ts
  end.
Proof.
  intros S H. unfold os_easy_load in H. cbv zeta in H. apply bind_okk in H as (c & Hc & H).
  change (cx_current_dir (into_context p o (at_place cwd))) with (at_place cwd) in Hc. unfold os_from_unresolved in H.
  apply bind_okk in H as (de & Ha & H). destruct (win_applied f p cwd o env l c de S Hc Ha) as (_ & D2 & _).
  rewrite <- (D2 BuildTarget). clear D2. cbv zeta in H.
  apply bind_okk in H as (b & Hb & H). apply bind_okk in H as (d & _ & H). apply bind_okk in H as (en & _ & H).
  assert (E : forall x y : econfig, Ok (E := error) x = Ok y -> y = x) by (intros ? ? [= ->]; reflexivity).
  apply E in H. subst ec. cbn [ec_build]. unfold os_ebuild_of in Hb. cbv zeta in Hb.
  do 4 (apply bind_okk in Hb as (? & _ & Hb)). apply bind_okk in Hb as (ts & Ht & Hb). do 2 (apply bind_okk in Hb as (? & _ & Hb)).
  assert (Eb : forall u v : ebuild, Ok (E := error) u = Ok v -> v = u) by (intros ? ? [= ->]; reflexivity).
  apply Eb in Hb. subst b. cbn [eb_target]. cbn [look_list].
  change (cx_current_dir (into_context p o (at_place cwd))) with (at_place cwd) in Ht.
  destruct (b_target (c_build de)) as [t|]; cbn [opt_traverse] in Ht.
  - apply bind_okk in Ht as (ts' & Ht & E'). injection E' as <-. 
    destruct t as [v|vs]; exists ts'; (split; [reflexivity|]); now apply traverse_all.
  - now injection Ht as <-.
Qed.
Lemma own_targets cwd vs ps ts : place_ok cwd -> Forall2 (win_target_at cwd) vs ps ->
  Forall2 (fun v t => os_triple (E := error) windows (val v) (def v) (Some (at_place cwd)) = Ok t) vs ts ->
  map cli_target ts = ps /\ Forall2 (fun p t => os_triple (E := error) windows p None None = Ok t) ps ts.
Proof.
  intros K F. revert ts. induction F as [|v p vs ps H F IH]; intros ts G; inversion_clear G as [|? t ? ts' Ht G'].
  - now split.
  - destruct (IH ts' G') as [E F']. destruct (@target_spec error cwd v p K H) as (t' & Ht' & Ep). split.
    + cbn [map]. rewrite E. f_equal. congruence.
    + constructor; [|exact F']. now apply (target_own cwd v p t).
Qed.
