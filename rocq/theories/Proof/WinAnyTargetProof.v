(** Lemmas about targets and the compiler on Windows from any directory. *)
From Verif.Model Require Import Base Str Path StdPath OsPaths BMap Error Value De CfgExpr CfgError Triple EasyTypes Context ApplyEnv
  Walk Load Process Resolve Easy OsLoad.
From Verif.Spec Require WinAnySpec.
From Verif.Spec Require Import StrSpec ConfigSpec LoadSpec EnvSpec Utf8Spec TripleSpec CfgSpec TargetSpec QuerySpec FinalSpec PanicSpec WinSpec
  WinLoadSpec WinPanicSpec.
From Verif.Proof Require Import StrFacts BMapFacts Utf8Proof LoadProof EnvProof EnvVarsProof EnvTextProof CfgProof CfgEvalProof CfgPanicProof TripleProof StateProof
  TargetProof TargetEnvProof FinalProof VersionProof QueryProof OsLoadProof WinUseProof WinLoadProof OsTargetProof WinTargetProof OsQueryProof WinPanicProof
  WinQueryPanicProof WinAnyLoadProof.
From Verif.Proof Require WinAnyProof MergeProof.
From Verif.Spec Require Import TargetSpec QuerySpec OsTargetSpec OsQuerySpec WinSpec WinLoadSpec WinPanicSpec WinTargetSpec WinAnyLoadSpec WinAnyTargetSpec.

Lemma runner_first a : exists fm args, program_words a = (fm, pa_path a :: args).
Proof. unfold program_words. eauto. Qed.

Section Load.
Context (f : fs) (p : process_env) (cwd : str) (o : options) (env : env_map) (l : LoadSpec.files) (ps : list str) (ec : econfig).
Let cx := into_context p o cwd.
Let home := os_cx_cargo_home windows p cx cwd.
Context (Wk : os_walk windows (fs_exists f) cwd home = ps) (En : environment p o env) (R : reads f ps l).
Context (L : os_easy_load windows f p cwd o = Ok ec).

Lemma any_tables : tables_of l (ec_de_target ec).
Proof.
  destruct (any_parts f p cwd o ec L) as (c & de & Hc & Ha & Hu).
  destruct (any_merged f p cwd o env l ps Wk En R c Hc) as (N & G & H1 & H2 & H3 & H4 & Ord).
  destruct (os_unresolved_ok windows c _ ec Hu) as (de' & Ha' & _ & Et & _).
  rewrite Et, (proj2 (proj2 (apply_env_env _ _ _ Ha'))).
  split; [apply Ord|]. split; [intros t; apply (H4 (TargetEntry t))|].
  split; [intros t; apply (H1 _ (TargetLinker t))|].
  split; [intros t; apply (H3 (TargetRunner t))|].
  split; [intros t; apply (H2 (TargetRustflags t))|intros t; apply (H2 (TargetRustdocflags t))].
Qed.
Definition told_in (v : Value.value str) : Prop := said ps (def v).
Lemma any_tables_kept k v : In (k, v) (ec_de_target ec) -> kept told_in (t_linker v) (t_runner v).
Proof.
  intros I. destruct any_tables as (Ord & _ & Li & Ru & _).
  apply (sorted_in_bget _ _ _ (proj1 (in_order_sorted _) Ord)) in I. split.
  - intros x Hx. specialize (Li k). unfold under in Li. rewrite I, Hx in Li. cbn in Li.
    assert (H : scalar_of env l (TargetLinker k) = Some x) by (symmetry; exact Li).
    exact (scalar_said f env l ps R _ _ x H).
  - intros a Ha. specialize (Ru k). unfold under, runner_words in Ru. rewrite I, Ha in Ru. cbn in Ru.
    destruct (runner_first a) as (fm & args & E). rewrite E in Ru.
    assert (H : program_in_all env l (TargetRunner k) = Some (fm, pa_path a :: args)) by (symmetry; exact Ru).
    exact (program_said f env l ps R _ _ _ (pa_path a) H (or_introl eq_refl)).
Qed.
Lemma resolved_kept pr w t s de s' :
  os_resolve_target windows (Base.B ".exe") pr w (ec_cx ec) (ec_build ec) (ec_de_target ec) t s = (Ok de, s') ->
  kept told_in (t_linker de) (t_runner de).
Proof.
  apply resolve_target_kept; [|exact any_tables_kept]. intros v n D. left. now exists n.
Qed.
Lemma any_cx : ec_cx ec = cx.
Proof. destruct (any_parts f p cwd o ec L) as (c & de & Hc & Ha & Hu). now destruct (os_unresolved_ok windows c _ ec Hu) as (de' & _ & E & _). Qed.
Lemma any_env n : env_get n env = env_get n (cx_env cx).
Proof. exact (proj2 (environment_cx p o cwd env En) n). Qed.
Lemma linker_env tables m T : target_linker env tables m T = target_linker (cx_env cx) tables m T.
Proof. unfold target_linker. now rewrite (var_ext _ _ _ _ any_env). Qed.
Lemma runner_env tables m T : target_runner env tables m T = target_runner (cx_env cx) tables m T.
Proof. unfold target_runner. now rewrite (var_words_ext _ _ _ _ any_env). Qed.

(** ** The programs of a target *)
Lemma etarget_cases de : kept told_in (t_linker de) (t_runner de) ->
  (exists e, os_etarget_of windows cwd de = Ok e)
    /\ ~ (exists v, t_linker de = Some v /\ lost v) /\ ~ (exists a, t_runner de = Some a /\ lost (pa_path a))
  \/ os_etarget_of windows cwd de = Panic PUnwrapNone
    /\ ((exists v, t_linker de = Some v /\ lost v) \/ (exists a, t_runner de = Some a /\ lost (pa_path a))).
Proof.
  intros [K1 K2].
  assert (Pr : forall v, told_in v -> (exists y, os_program_path windows v cwd = Ok y :> result str) /\ ~ lost v
    \/ os_program_path windows v cwd = Panic PUnwrapNone :> result str /\ lost v).
  { intros v Pv. exact (@program_any error cwd v (said_sayable _ _ Pv)). }
  unfold os_etarget_of, os_epa_of. destruct (t_linker de) as [li|]; cbn [opt_traverse bind].
  - destruct (Pr li (K1 _ eq_refl)) as [[(y & ->) N]|[-> A]]; cbn [bind].
    2:{ right. split; [reflexivity|]. left. eauto. }
    assert (N1 : ~ exists v, Some li = Some v /\ lost v) by (intros (v & [= <-] & A); auto).
    destruct (t_runner de) as [ru|]; cbn [opt_traverse bind].
    2:{ left. split; [eauto|]. split; [exact N1|]. intros (a & [=] & _). }
    destruct (Pr _ (K2 _ eq_refl)) as [[(z & ->) N']|[-> A]]; cbn [bind].
    + left. split; [eauto|]. split; [exact N1|]. intros (a & [= <-] & A). auto.
    + right. split; [reflexivity|]. right. eauto.
  - assert (N1 : ~ exists v, @None (Value.value str) = Some v /\ lost v) by (intros (v & [=] & A)).
    destruct (t_runner de) as [ru|]; cbn [opt_traverse bind].
    2:{ left. split; [eauto|]. split; [exact N1|]. intros (a & [=] & _). }
    destruct (Pr _ (K2 _ eq_refl)) as [[(z & ->) N']|[-> A]]; cbn [bind].
    + left. split; [eauto|]. split; [exact N1|]. intros (a & [= <-] & A). auto.
    + right. split; [reflexivity|]. right. eauto.
Qed.
Lemma lost_resolved de tables m T :
  t_linker de = target_linker (cx_env cx) tables m T -> option_map program_words (t_runner de) = target_runner (cx_env cx) tables m T ->
  (exists v, t_linker de = Some v /\ lost v) \/ (exists a, t_runner de = Some a /\ lost (pa_path a)) <-> lost_tool env tables m T.
Proof.
  intros L1 L2. split.
  - intros [(v & E & Lv)|(a & E & Lv)].
    + apply lost_linker with v; [|exact Lv]. rewrite linker_env. exact (eq_trans (eq_sym L1) E).
    + destruct (runner_first a) as (fm & args & Ea). apply lost_runner with fm (pa_path a) args; [|exact Lv].
      rewrite runner_env, <- L2, E. cbn. now rewrite Ea.
  - intros [v E Lv|fm v args E Lv].
    + left. exists v. split; [|exact Lv]. rewrite linker_env in E. exact (eq_trans L1 E).
    + right. rewrite runner_env, <- L2 in E. destruct (t_runner de) as [a|]; [|discriminate E]. exists a. split; [reflexivity|].
      destruct (runner_first a) as (fm' & args' & Ea). cbn in E. rewrite Ea in E. injection E as _ -> _. exact Lv.
Qed.

Context (U : Forall (fun x => text_keys (c_target (snd x))) l).
Lemma any_keys : keys_utf8 (ec_de_target ec).
Proof. exact (win_keys l U _ any_tables). Qed.

Section Query.
Context (pr : profile) (w : world) (q : query) (a : target_arg) (t : triple) (s : state).
Context (Rs : os_reached windows (Base.B ".exe") pr w ec s) (Q : target_query q a) (Ra : os_real_arg windows a) (Ht : os_to_triple windows a = Ok t).
Let run := os_run_query windows (Base.B ".exe") pr w ec q s.

Lemma any_target_final v0 r0 ws0 x s' : read_as cwd (Some v0, r0, ws0) -> sturdy v0 -> (forall q, In q ps -> grounded q) ->
  run = (Ok x, s') ->
  exists matches e, decided_by w s' (cli_target t) (ec_de_target ec) matches
    /\ any_settings_of env l (ec_de_target ec) (Some v0, r0, ws0) matches (tt_triple t) e
    /\ ~ lost_tool env (ec_de_target ec) matches (tt_triple t) /\ x = part_of q e.
Proof.
  intros H0 So Gr Hq.
  destruct (any_parts f p cwd o ec L) as (c & de & Hc & Ha & Hu). fold cx in Hc, Ha, Hu.
  destruct (any_applied f p cwd o env l ps Wk En R c de Hc Ha) as (_ & D2 & _ & _).
  destruct (os_unresolved_ok windows c cx ec Hu) as (de' & Ha' & Ecx & Et & B1 & B2 & B3 & B4).
  assert (de' = de) as -> by congruence.
  destruct (target_answer windows (Base.B ".exe") _ _ _ _ _ _ _ _ _ Rs Q Ra Ht Hq) as (e & s1 & s2 & r & -> & He & Hr & Hx & Gw & P).
  assert (Kr := resolved_kept _ _ _ _ _ _ Hr). rewrite Ecx in Hr, Hx. change (cx_current_dir cx) with cwd in Hx.
  apply resolve_target_ok in Hr. cbv zeta in Hr. destruct Hr as (C & V & D & L1 & L2 & L3 & L4).
  exists (matched_in pr t s2), e. split; [apply decided_decided_by; auto using any_keys|]. split; [|split].
  - assert (X : both (any_program_at (Some v0, r0, ws0)) (t_linker r) (et_linker e)
      /\ both (any_command_at (Some v0, r0, ws0)) (option_map program_words (t_runner r)) (option_map (fun p => (epa_path p, epa_args p)) (et_runner e))
      /\ et_rustflags e = option_map eflags_of (t_rustflags r) /\ et_rustdocflags e = option_map eflags_of (t_rustdocflags r)).
    { clear - H0 So Gr Hx Kr. destruct Kr as [K1 K2]. unfold os_etarget_of in Hx. apply bind_okk in Hx as (li & X1 & Hx).
      apply bind_okk in Hx as (ru & X2 & Hx). injection Hx as <-. cbn [et_linker et_runner et_rustflags et_rustdocflags]. split; [|split; [|auto]].
      - revert X1. apply both_opt. intros v y Ev. apply (@program_at cwd v0 r0 ws0 H0 So ps Gr). now apply K1.
      - destruct (t_runner r) as [pa|]; cbn in *.
        + apply bind_okk in X2 as (y & X2 & X). injection X as <-. cbn. unfold os_epa_of in X2. apply bind_okk in X2 as (z & Hz & X2). injection X2 as <-.
          cbn. destruct (runner_first pa) as (fm & args & Ea). unfold any_command_at. rewrite Ea. cbn [snd fst].
          exists (pa_path pa), args. split; [reflexivity|]. split; [exact (program_at cwd v0 r0 ws0 H0 So ps Gr _ z (K2 _ eq_refl) Hz)|].
          injection Ea as _ <-. reflexivity.
        + now injection X2 as <-. }
    destruct X as (X1 & X2 & X3 & X4). rewrite L1 in X1. rewrite L2 in X2. rewrite <- linker_env in X1. rewrite <- runner_env in X2.
    split; [exact X1|]. split; [exact X2|]. rewrite <- !D2, X3, X4, !opt_eflags, L3, L4, B1, B2, B3, B4.
    assert (O := apply_env_overrides _ _ _ Ha). unfold MergeProof.overrides in O. injection O as O1 O2. rewrite O1, O2.
    unfold overrides_target, set, target_rustflags, target_rustdocflags. rewrite !(var_words_ext _ _ _ _ any_env), !any_env. split; reflexivity.
  - intros Lt. apply (lost_resolved r _ _ _ L1 L2) in Lt.
    destruct (etarget_cases r Kr) as [(_ & N1 & N2)|[E _]]; [tauto|congruence].
  - destruct Q as [-> | [-> | [-> | [-> | -> ]]]]; reflexivity.
Qed.
Lemma any_target_panic x : fst run = Panic x ->
  (x = POverflow /\ overflow_checks pr = true /\ crowded_key l)
  \/ x = PUnwrapNone /\ exists matches, decided_by w (snd run) (cli_target t) (ec_de_target ec) matches
     /\ lost_tool env (ec_de_target ec) matches (tt_triple t).
Proof.
  assert (Rs' := reached_step windows (Base.B ".exe") pr w ec q s Rs (target_query_real windows _ _ Q Ra)). fold run in Rs'.
  destruct (reached_known windows (Base.B ".exe") _ _ _ _ Rs') as [P _]. revert P. unfold run.
  rewrite (target_query_run windows (Base.B ".exe") _ _ _ _ _ _ Q). unfold os_q_target. rewrite bindM_assoc, bindM_eq.
  unfold lift. rewrite Ht. unfold os_q_target_of. rewrite !bindM_eq. unfold os_init_target_config. rewrite bindM_eq.
  cbn [get]. destruct (bget (cli_target t) (s_target s)) as [y|] eqn:E.
  - unfold ret. rewrite !bindM_eq. cbn [get]. rewrite E. discriminate.
  - rewrite bindM_eq.
    assert (Np := resolve_target_panic windows (Base.B ".exe") pr w (ec_cx ec) (ec_build ec) t (ec_de_target ec) s x any_keys).
    assert (Kp := resolved_kept pr w t s). assert (Ok1 := resolve_target_ok windows (Base.B ".exe") pr w (ec_cx ec) (ec_build ec) (ec_de_target ec) t s).
    destruct (os_resolve_target windows _ _ _ _ _ _ _ _) as [[de|e|y] s1]; [|discriminate|].
    + rewrite bindM_eq. unfold lift. rewrite any_cx in *.
      change (cx_current_dir cx) with cwd. specialize (Kp de s1 eq_refl). specialize (Ok1 de s1 eq_refl). cbv zeta in Ok1.
      destruct Ok1 as (C & V & D & L1 & L2 & _).
      destruct (etarget_cases de Kp) as [((et & ->) & _)|[-> Lt]].
      * cbn. rewrite bget_binsert, str_eqb_refl. discriminate.
      * cbn. intros P [= <-]. right. split; [reflexivity|]. exists (matched_in pr t s1). split.
        -- apply decided_decided_by; auto using any_keys, grows_refl.
        -- now apply (lost_resolved de).
    + cbn. intros _ [= ->]. left. destruct (Np eq_refl) as (-> & O & k & v & z & I & C & Uz & Cr). split; [reflexivity|]. split; [exact O|].
      destruct any_tables as (Ord & H4 & _). specialize (H4 k).
      rewrite (sorted_in_bget _ _ _ (proj1 (in_order_sorted _) Ord) I) in H4. cbn in H4. symmetry in H4. apply existsb_exists in H4 as ((q0 & c0) & Ix & Hx).
      cbn in Hx. destruct (bget k (c_target c0)) as [v0|] eqn:Kb; [|discriminate Hx]. apply bget_in in Kb.
      exists (q0, c0), k, v0, z. auto.
Qed.
Lemma any_target_success : is_cfg (tt_triple t) = false -> target_vars_readable env (tt_triple t) ->
  (forall k v, In (k, v) (ec_de_target ec) -> is_cfg k = true -> is_ok (parse_expr pr k) = true) ->
  (has_cfg (ec_de_target ec) -> win_cfg_available pr w ec s (cli_target t)) ->
  (forall matches, ~ lost_tool env (ec_de_target ec) matches (tt_triple t)) ->
  exists x s', run = (Ok x, s').
Proof.
  intros C V Pk Av Rv. unfold run.
  rewrite (target_query_run windows (Base.B ".exe") pr w ec q a s Q). unfold os_q_target. rewrite bindM_assoc, bindM_eq.
  unfold lift at 1. rewrite Ht. unfold os_q_target_of. rewrite !bindM_eq. unfold os_init_target_config. rewrite bindM_eq.
  cbn [get]. destruct (bget (cli_target t) (s_target s)) as [x|] eqn:E.
  - unfold ret at 1. rewrite bindM_eq. cbn [get]. rewrite E. do 2 eexists. reflexivity.
  - rewrite bindM_eq.
    assert (V' : target_vars_readable (cx_env (ec_cx ec)) (tt_triple t))
      by (rewrite any_cx; destruct V as [V1 V2]; split; intros *; rewrite <- any_env; eauto).
    destruct (resolve_target_success windows (Base.B ".exe") pr w (ec_cx ec) (ec_build ec) t (ec_de_target ec) s any_keys C V' Pk) as (r & s2 & Hr).
    { intros Hcf. now apply (win_cfg_there pr), Av. }
    rewrite Hr. rewrite bindM_eq. unfold lift at 1. assert (Kr := resolved_kept _ _ _ _ _ _ Hr).
    apply resolve_target_ok in Hr. cbv zeta in Hr. destruct Hr as (_ & _ & _ & L1 & L2 & _). rewrite any_cx in *.
    change (cx_current_dir cx) with cwd. destruct (etarget_cases r Kr) as [((e & Ee) & _)|[_ Lt]].
    + rewrite Ee. cbn. rewrite bget_binsert, str_eqb_refl. do 2 eexists. reflexivity.
    + exfalso. apply (lost_resolved r _ _ _ L1 L2) in Lt. exact (Rv _ Lt).
Qed.
Lemma any_target_settled : is_cfg (tt_triple t) = false -> target_vars_readable env (tt_triple t) ->
  (forall k v, In (k, v) (ec_de_target ec) -> is_cfg k = true -> is_ok (parse_expr pr k) = true) ->
  (has_cfg (ec_de_target ec) -> win_cfg_available pr w ec s (cli_target t)) ->
  exists y s', run = (y, s') /\ ((exists x, y = Ok x) \/ y = Panic PUnwrapNone).
Proof.
  intros C V Pk Av. unfold run.
  rewrite (target_query_run windows (Base.B ".exe") pr w ec q a s Q). unfold os_q_target. rewrite bindM_assoc, bindM_eq.
  unfold lift at 1. rewrite Ht. unfold os_q_target_of. rewrite !bindM_eq. unfold os_init_target_config. rewrite bindM_eq.
  cbn [get]. destruct (bget (cli_target t) (s_target s)) as [x|] eqn:E.
  - unfold ret at 1. rewrite bindM_eq. cbn [get]. rewrite E. do 2 eexists. split; [reflexivity|]. left. eexists. reflexivity.
  - rewrite bindM_eq.
    assert (V' : target_vars_readable (cx_env (ec_cx ec)) (tt_triple t))
      by (rewrite any_cx; destruct V as [V1 V2]; split; intros *; rewrite <- any_env; eauto).
    destruct (resolve_target_success windows (Base.B ".exe") pr w (ec_cx ec) (ec_build ec) t (ec_de_target ec) s any_keys C V' Pk) as (r & s2 & Hr).
    { intros Hcf. now apply (win_cfg_there pr), Av. }
    rewrite Hr. rewrite bindM_eq. unfold lift at 1. assert (Kr := resolved_kept _ _ _ _ _ _ Hr).
    apply resolve_target_ok in Hr. cbv zeta in Hr. destruct Hr as (_ & _ & _ & L1 & L2 & _). rewrite any_cx in *.
    change (cx_current_dir cx) with cwd. destruct (etarget_cases r Kr) as [((e & Ee) & _)|[Ee _]].
    + rewrite Ee. cbn. rewrite bget_binsert, str_eqb_refl. do 2 eexists. split; [reflexivity|]. left. eexists. reflexivity.
    + rewrite Ee. do 2 eexists. split; [reflexivity|]. now right.
Qed.
End Query.
End Load.

(** ** The compiler *)
Lemma pop_reading cargo m : read_as cargo m -> WinAnySpec.solid cargo (fst (fst m)) ->
  read_as (std_pop windows cargo) (fst m, removelast (snd m)) /\ WinAnySpec.solid (std_pop windows cargo) (fst (fst m)).
Proof.
  destruct m as [[v r] ws]. intros H So. cbn [fst snd] in *. unfold std_pop. destruct (WinAnyProof.reads_parent _ _ _ _ H) as [P0 P1]. cbn [fst snd] in *.
  destruct ws as [|n ws _] using rev_ind.
  - rewrite (P0 eq_refl). split; [exact H|exact So].
  - destruct (P1 ws n eq_refl) as (d & rest & -> & _ & E & Hd). rewrite E, firstn_app, Nat.sub_diag, firstn_all, firstn_O, app_nil_r, removelast_last.
    split; [exact Hd|]. exact (WinAnyProof.solid_above cargo d rest v So E).
Qed.
Lemma rustc_name : win_name (Base.B "rustc.exe").
Proof. apply nm; try discriminate; [repeat eexists|reflexivity]. Qed.
Lemma any_compiler_is w ec n :
  (eb_rustc (ec_build ec) = None -> forall m, read_as (cx_cargo (ec_cx ec)) m -> WinAnySpec.solid (cx_cargo (ec_cx ec)) (fst (fst m))) ->
  any_compiler (ec_build ec) (cx_cargo (ec_cx ec)) (w_exists w n) (os_compiler windows (Base.B ".exe") w ec n).
Proof.
  intros H. unfold os_compiler. destruct (eb_rustc (ec_build ec)) as [r|] eqn:E; [now constructor|].
  destruct (read_total (cx_cargo (ec_cx ec))) as (m & M). specialize (H eq_refl m M). unfold os_rustc_path. cbv zeta.
  destruct (pop_reading _ m M H) as [Pr Ps]. assert (J := join_into _ _ _ Pr Ps rustc_name).
  change (Base.B "rustc" ++ Base.B ".exe") with (Base.B "rustc.exe").
  destruct (w_exists w n (std_join windows (std_pop windows (cx_cargo (ec_cx ec))) (Base.B "rustc.exe"))) eqn:T.
  - now apply any_compiler_beside with m.
  - eapply any_compiler_name; eauto.
Qed.
Lemma any_context f p cwd o env cargo ec : any_loaded f p cwd o env cargo ec ->
  cx_cargo (ec_cx ec) = cargo /\ cx_rustc0 (ec_cx ec) = o_rustc o /\ cx_host0 (ec_cx ec) = o_host_triple o.
Proof.
  intros (En & L & Hc & _). rewrite (any_cx f p cwd o ec L).
  assert (G := any_env p cwd o env En). split; [|split; reflexivity].
  cbn [into_context cx_cargo]. cbv zeta. destruct Hc as [x E|x E1 E2|E1 E2].
  - now rewrite E.
  - rewrite E1. rewrite G in E2. cbn [into_context cx_env] in E2. now rewrite E2.
  - rewrite E1. rewrite G in E2. cbn [into_context cx_env] in E2. now rewrite E2.
Qed.
Section Found.
Context (f : fs) (p : process_env) (cwd : str) (o : options) (env : env_map) (cargo : str) (ec : econfig) (w : world).
Context (A : any_loaded f p cwd o env cargo ec).
Lemma any_mono n m x : n <= m -> any_found w (ec_build ec) cargo n x -> any_found w (ec_build ec) cargo m x.
Proof. intros Le (k & Lk & H). exists k. split; [lia|exact H]. Qed.
Lemma any_now n m : n <= m -> any_found w (ec_build ec) cargo m (os_compiler windows (Base.B ".exe") w ec n).
Proof.
  intros Le. exists n. split; [exact Le|]. destruct (any_context _ _ _ _ _ _ _ A) as (E & _). rewrite <- E. apply any_compiler_is.
  rewrite E. apply A.
Qed.
Lemma any_told pr s : os_reached windows (Base.B ".exe") pr w ec s -> told w ec (any_found w (ec_build ec) cargo) s.
Proof. exact (reached_told windows (Base.B ".exe") pr w ec _ any_mono any_now s). Qed.
End Found.
