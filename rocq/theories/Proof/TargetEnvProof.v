(** The settings of targets, from a configuration and variables to answers. *)
From Verif.Model Require Import Base Str Path BMap Error Value De CfgExpr Triple EasyTypes Context
  ApplyEnv Walk Load Process Resolve Easy.
From Verif.Spec Require Import StrSpec ConfigSpec LoadSpec EnvSpec Utf8Spec CfgSpec TripleSpec RootSpec TargetSpec.
From Verif.Proof Require Import StrFacts BMapFacts MergeProof LoadProof EnvProof EnvVarsProof EnvTextProof
  Utf8Proof CfgGrammarProof CfgProof CfgEvalProof CfgOutputProof StateProof TripleProof RootProof TargetProof.

(** ** Answers in terms of the configuration *)

Lemma eflags_of_words f : eflags_of f = eflags_words (flags_words f).
Proof. reflexivity. Qed.
Lemma opt_eflags o : option_map eflags_of o = option_map eflags_words (option_map flags_words o).
Proof. now destruct o. Qed.

Lemma target_settings conf cx c pr w q a t s x s' :
  one_value_each (cx_env cx) -> from_unresolved conf cx = Ok c -> keys_utf8 (c_target conf) ->
  reached pr w c s -> target_query q a -> real_arg a -> to_triple a = Ok t ->
  run_query pr w c q s = (Ok x, s') ->
  exists matches e,
    x = answer_of q e /\ decided_by w s' (cli_target t) (c_target conf) matches
    /\ is_cfg (tt_triple t) = false /\ target_vars_readable (cx_env cx) (tt_triple t)
    /\ both (program_at (cx_current_dir cx)) (target_linker (cx_env cx) (c_target conf) matches (tt_triple t))
         (et_linker e)
    /\ both (command_at (cx_current_dir cx)) (target_runner (cx_env cx) (c_target conf) matches (tt_triple t))
         (option_map program_of (et_runner e))
    /\ et_rustflags e = option_map eflags_words
         (target_rustflags (cx_env cx) (c_target conf) matches (tt_triple t)
            (overrides_target (cx_env cx) (B "RUSTFLAGS")) (build_flags (cx_env cx) (B "RUSTFLAGS") (look_list BuildRustflags conf)))
    /\ et_rustdocflags e = option_map eflags_words
         (target_rustdocflags (cx_env cx) (c_target conf) (tt_triple t)
            (overrides_target (cx_env cx) (B "RUSTDOCFLAGS")) (build_flags (cx_env cx) (B "RUSTDOCFLAGS") (look_list BuildRustdocflags conf))).
Proof.
  intros Nd Hc U Rs Q Ra Ht H.
  destruct (target_answer _ _ _ _ _ _ _ _ _ Rs Q Ra Ht H) as (e & s1 & s2 & r & -> & He & Hr & Hx & G & P).
  destruct (from_unresolved_ok _ _ _ Hc) as (de & Ha & Rb & _ & _ & Et & Ecx).
  rewrite Et, Ecx, (proj2 (proj2 (apply_env_env _ _ _ Ha))) in Hr.
  apply resolve_target_ok in Hr. cbv zeta in Hr. destruct Hr as (C & V & D & L1 & L2 & L3 & L4).
  exists (matched_in pr t s2), e. split; [reflexivity|].
  split; [now apply decided_decided_by|]. split; [assumption|]. split; [assumption|].
  rewrite Ecx in Hx. apply target_programs in Hx as (X1 & X2 & X3 & X4).
  rewrite <- L1, <- L2. split; [assumption|]. split; [assumption|].
  rewrite X3, X4, !opt_eflags, L3, L4.
  rewrite (br_override _ _ _ Rb), (br_override_doc _ _ _ Rb), (br_de_rustflags _ _ _ Rb), (br_de_rustdocflags _ _ _ Rb).
  assert (O := apply_env_overrides _ _ _ Ha). unfold overrides in O. injection O as O1 O2. rewrite O1, O2.
  assert (F1 := flags_key BuildRustflags _ _ _ _ _ _
                  (or_introl (conj eq_refl (conj eq_refl (conj eq_refl eq_refl)))) Nd Ha).
  assert (F2 := flags_key BuildRustdocflags _ _ _ _ _ _
                  (or_intror (conj eq_refl (conj eq_refl (conj eq_refl eq_refl)))) Nd Ha).
  split; do 2 f_equal; [exact F1|exact F2].
Qed.

(** ** Failures *)

Lemma cfg_name_fails pr w c q a t s :
  reached pr w c s -> target_query q a -> real_arg a -> to_triple a = Ok t -> is_cfg (tt_triple t) = true ->
  run_query pr w c q s
  = (Err (EOther (MText (B "'" ++ tt_triple t ++ B "' is not valid target triple"))), s).
Proof.
  intros Rs Q Ra Ht C. rewrite (target_query_run _ _ _ _ _ _ Q). unfold q_target. rewrite bindM_assoc, bindM_eq.
  unfold lift at 1. rewrite Ht. unfold q_target_of. rewrite !bindM_eq. unfold init_target_config. rewrite bindM_eq.
  cbn [get]. destruct (bget (cli_target t) (s_target s)) as [e|] eqn:E.
  - destruct (reached_known _ _ _ _ Rs) as [_ K]. destruct (K _ _ E) as (t0 & s1 & s2 & r & M0 & E0 & H1 & _).
    assert (t0 = t) as -> by (apply made_unique; eauto using real_arg_made).
    apply resolve_target_ok in H1 as [C' _]. congruence.
  - rewrite bindM_eq. unfold resolve_target. cbv zeta. now rewrite is_cfg_starts, C.
Qed.

Lemma bad_key_fails conf cx c pr w q a t s k v :
  from_unresolved conf cx = Ok c -> keys_utf8 (c_target conf) ->
  In (k, v) (c_target conf) -> is_cfg k = true ->
  (forall x roots, unwrapped k x -> ~ accepted x roots) ->
  reached pr w c s -> target_query q a -> real_arg a -> to_triple a = Ok t ->
  (forall x, fst (run_query pr w c q s) <> Ok x)
  /\ (overflow_checks pr = false -> exists e, fst (run_query pr w c q s) = Err e).
Proof.
  intros Hc U I K Bad Rs Q Ra Ht.
  destruct (from_unresolved_ok _ _ _ Hc) as (de & Ha & Rb & _ & _ & Et & Ecx).
  rewrite (proj2 (proj2 (apply_env_env _ _ _ Ha))) in Et.
  assert (No : forall s1 r s2, resolve_target pr w (ec_cx c) (ec_build c) (ec_de_target c) t s1 <> (Ok r, s2)).
  { intros s1 r s2 H. rewrite Et in H. apply resolve_target_ok in H as (_ & _ & D & _).
    destruct (D k v I K) as (e & x & P & _). destruct (parse_ok_accepted pr k (U k v I)) as (y & roots & Y1 & Y2);
      [now rewrite P|]. now apply (Bad y roots). }
  split.
  - intros x H. destruct (run_query pr w c q s) as [rr s'] eqn:E. cbn in H. subst rr.
    destruct (target_answer _ _ _ _ _ _ _ _ _ Rs Q Ra Ht E) as (e & s1 & s2 & r & _ & _ & Hr & _).
    now apply No in Hr.
  - intros O. rewrite (target_query_run _ _ _ _ _ _ Q). unfold q_target. rewrite bindM_assoc, bindM_eq.
    unfold lift at 1. rewrite Ht. unfold q_target_of. rewrite !bindM_eq. unfold init_target_config. rewrite bindM_eq.
    cbn [get]. destruct (bget (cli_target t) (s_target s)) as [e|] eqn:E.
    + destruct (reached_known _ _ _ _ Rs) as [_ Kn]. destruct (Kn _ _ E) as (t0 & s1 & s2 & r & M0 & E0 & H1 & _).
      assert (t0 = t) as -> by (apply made_unique; eauto using real_arg_made). now apply No in H1.
    + rewrite bindM_eq.
      assert (Np := resolve_target_no_panic pr w (ec_cx c) (ec_build c) t (ec_de_target c) s).
      assert (No' := No s).
      destruct (resolve_target pr w (ec_cx c) (ec_build c) (ec_de_target c) t s) as [[r|e|p] s2].
      * now destruct (No' r s2).
      * cbn. eauto.
      * destruct (Np p); [now rewrite Et|assumption|reflexivity].
Qed.

(** ** Success *)

Lemma query_succeeds conf cx c pr w q a t s :
  from_unresolved conf cx = Ok c -> keys_utf8 (c_target conf) ->
  reached pr w c s -> target_query q a -> real_arg a -> to_triple a = Ok t ->
  is_cfg (tt_triple t) = false -> target_vars_readable (cx_env cx) (tt_triple t) ->
  (forall k v, In (k, v) (c_target conf) -> is_cfg k = true -> is_ok (parse_expr pr k) = true) ->
  (has_cfg (c_target conf) -> exists x s1, target_cfg w cx (ec_build c) t s = (Ok x, s1)) ->
  forall e, fst (run_query pr w c q s) <> Err e.
Proof.
  intros Hc U Rs Q Ra Ht C V P H e.
  destruct (from_unresolved_ok _ _ _ Hc) as (de & Ha & Rb & _ & _ & Et & Ecx).
  rewrite (proj2 (proj2 (apply_env_env _ _ _ Ha))) in Et.
  rewrite (target_query_run _ _ _ _ _ _ Q). unfold q_target. rewrite bindM_assoc, bindM_eq.
  unfold lift at 1. rewrite Ht. unfold q_target_of. rewrite !bindM_eq. unfold init_target_config. rewrite bindM_eq.
  cbn [get]. destruct (bget (cli_target t) (s_target s)) as [x|] eqn:E.
  - unfold ret at 1. rewrite bindM_eq. cbn [get]. now rewrite E.
  - rewrite bindM_eq, Et, Ecx.
    destruct (resolve_target_success pr w cx (ec_build c) t _ s U C V P H) as (r & s2 & R). rewrite R.
    rewrite bindM_eq. unfold lift at 1.
    assert (N : forall x, etarget_of (cx_current_dir cx) r <> Err x).
    { intros x. unfold etarget_of. destruct (t_linker r) as [v|]; cbn [opt_traverse].
      - destruct (program_cases (E := error) v (cx_current_dir cx)) as [(y & K)|[K _]]; rewrite K; cbn [bind]; [|discriminate].
        destruct (t_runner r) as [v'|]; cbn [opt_traverse bind]; [|discriminate]. unfold epa_of, resolve_program.
        destruct (program_cases (E := error) (pa_path v') (cx_current_dir cx)) as [(y' & K')|[K' _]]; rewrite K'; discriminate.
      - cbn [bind]. destruct (t_runner r) as [v'|]; cbn [opt_traverse bind]; [|discriminate]. unfold epa_of, resolve_program.
        destruct (program_cases (E := error) (pa_path v') (cx_current_dir cx)) as [(y' & K')|[K' _]]; rewrite K'; discriminate. }
    destruct (etarget_of (cx_current_dir cx) r) as [x|x|x]; [|now destruct (N x)|discriminate].
    cbn. rewrite bget_binsert, str_eqb_refl. discriminate.
Qed.

(** ** Only some variables matter *)

Lemma env_var_ext e e' n : env_get n e = env_get n e' -> cx_env_var e n = cx_env_var e' n.
Proof. unfold cx_env_var. now intros ->. Qed.

Section Ext.
Context (pr : profile) (w : world) (cx : context) (env : env_map) (b : ebuild).
Let cx' := with_env cx env.
Lemma target_cfg_env t s : target_cfg w cx b t s = target_cfg w cx' b t s.
Proof. reflexivity. Qed.
Lemma resolve_cfgs_env t tables : forall acc s,
  resolve_cfgs pr w cx b t tables acc s = resolve_cfgs pr w cx' b t tables acc s.
Proof.
  induction tables as [|[k v] tables IH]; intros acc s; [reflexivity|]. cbn [resolve_cfgs].
  destruct (negb _); [apply IH|]. rewrite !bindM_eq. change (eval_cfg pr w cx b k t s) with (eval_cfg pr w cx' b k t s).
  destruct (eval_cfg pr w cx' b k t s) as [[m|e|p] s1]; [|reflexivity|reflexivity].
  destruct acc as [[x y] z]. apply IH.
Qed.
Lemma resolve_target_env tables t s :
  (forall key, In key [B "LINKER"; B "RUNNER"; B "RUSTFLAGS"; B "RUSTDOCFLAGS"] ->
     env_get (target_variable (tt_triple t) key) (cx_env cx) = env_get (target_variable (tt_triple t) key) env) ->
  resolve_target pr w cx b tables t s = resolve_target pr w cx' b tables t s.
Proof.
  intros H. unfold resolve_target. cbv zeta. destruct (starts_with _ _); [reflexivity|].
  change (B "_LINKER") with (B "_" ++ B "LINKER"). change (B "_RUNNER") with (B "_" ++ B "RUNNER").
  change (B "_RUSTFLAGS") with (B "_" ++ B "RUSTFLAGS").
  change (B "_RUSTDOCFLAGS") with (B "_" ++ B "RUSTDOCFLAGS").
  rewrite !target_var_name. change (cx_env cx') with env.
  rewrite (env_var_ext (cx_env cx) env (target_variable (tt_triple t) (B "LINKER"))) by (apply H; cbn; auto).
  rewrite (env_var_ext (cx_env cx) env (target_variable (tt_triple t) (B "RUNNER"))) by (apply H; cbn; auto).
  rewrite (env_var_ext (cx_env cx) env (target_variable (tt_triple t) (B "RUSTFLAGS"))) by (apply H; cbn; auto).
  rewrite (env_var_ext (cx_env cx) env (target_variable (tt_triple t) (B "RUSTDOCFLAGS"))) by (apply H; cbn; auto 10).
  rewrite !bindM_eq. unfold lift at 1 6.
  destruct (cx_env_var env _) as [x1|x1|x1]; [|reflexivity|reflexivity].
  rewrite !bindM_eq. unfold lift at 1 5.
  destruct (cx_env_var env _) as [x2|x2|x2]; [|reflexivity|reflexivity].
  rewrite !bindM_eq. unfold lift at 1 4.
  destruct (opt_traverse _ _) as [x3|x3|x3]; [|reflexivity|reflexivity].
  rewrite !bindM_eq. unfold lift at 1 3.
  destruct (cx_env_var env _) as [x4|x4|x4]; [|reflexivity|reflexivity].
  rewrite !bindM_eq. unfold lift.
  destruct (cx_env_var env _) as [x5|x5|x5]; [|reflexivity|reflexivity].
  rewrite !bindM_eq, resolve_cfgs_env. reflexivity.
Qed.
End Ext.

Lemma q_target_of_env pr w c env t s :
  (forall key, In key [B "LINKER"; B "RUNNER"; B "RUSTFLAGS"; B "RUSTDOCFLAGS"] ->
     env_get (target_variable (tt_triple t) key) (cx_env (ec_cx c)) = env_get (target_variable (tt_triple t) key) env) ->
  q_target_of pr w c t s = q_target_of pr w (config_with_env c env) t s.
Proof.
  intros H. unfold q_target_of. rewrite !bindM_eq. unfold init_target_config. rewrite !(bindM_eq get). cbn [get].
  destruct (bget (cli_target t) (s_target s)); [reflexivity|]. rewrite !bindM_eq.
  cbn [config_with_env ec_cx ec_build ec_de_target]. now rewrite (resolve_target_env pr w (ec_cx c) env _ _ t s H).
Qed.

Lemma target_query_env pr w c env q a s : target_query q a -> arg_vars_same (cx_env (ec_cx c)) env a ->
  run_query pr w c q s = run_query pr w (config_with_env c env) q s.
Proof.
  intros Q H. rewrite !(target_query_run _ _ _ _ _ _ Q). rewrite !bindM_eq. unfold q_target. rewrite !bindM_eq.
  unfold lift. destruct (to_triple a) as [t|e|p] eqn:E; [|reflexivity|reflexivity].
  rewrite (q_target_of_env pr w c env t s) by (intros key; now apply H). reflexivity.
Qed.
Lemma query_env pr w c env q s :
  (forall n, starts_with (B "CARGO_TARGET_") n = true -> env_get n (cx_env (ec_cx c)) = env_get n env) ->
  run_query pr w c q s = run_query pr w (config_with_env c env) q s.
Proof.
  intros H.
  assert (K : forall a, arg_vars_same (cx_env (ec_cx c)) env a).
  { intros a t key _ _. apply H. apply starts_with_iff. eexists. reflexivity. }
  destruct q; try reflexivity; eapply target_query_env; eauto; unfold target_query; eauto 10.
Qed.
Lemma queries_env pr w c env qs : 
  (forall n, starts_with (B "CARGO_TARGET_") n = true -> env_get n (cx_env (ec_cx c)) = env_get n env) ->
  forall s, run_queries pr w c qs s = run_queries pr w (config_with_env c env) qs s.
Proof.
  intros H. induction qs as [|q qs IH]; intros s; [reflexivity|]. cbn [run_queries].
  rewrite (query_env pr w c env q s H). apply IH.
Qed.

(** ** Dropping variables *)

Lemma load_rest_sorted f bp ps : forall base r, cfg_sorted base -> load_rest f bp base ps = Ok r -> cfg_sorted r.
Proof.
  induction ps as [|p ps IH]; intros base r Sb H; cbn in H; [now injection H as <-|].
  apply bind_okk in H as (c' & Hc & H). apply bind_okk in H as (r0 & Hr & H). apply with_context_ok in Hr.
  apply load_file_ok in Hc as (c0 & Hc & ->). assert (Sc := sp_sorted p c0 (contents_sorted _ _ _ Hc)).
  eapply IH; [|eassumption]. eapply merge_sorted; [|eassumption]; eassumption.
Qed.
Lemma load_sorted f cwd home c : load_with_options f cwd home = Ok c -> cfg_sorted c.
Proof.
  unfold load_with_options, load_files. destruct (walk_all _ _) as [|p ps].
  - intros [= <-]. repeat split; constructor.
  - intros H. apply bind_okk in H as (c' & Hc & H). apply load_file_ok in Hc as (c0 & Hc & ->).
    eapply load_rest_sorted; [|eassumption]. eapply sp_sorted, contents_sorted; eauto.
Qed.

Lemma from_unresolved_env conf cx env :
  same_outcome (apply_env (cx_env cx) conf) (apply_env env conf) ->
  (forall n, starts_with (B "CARGO_TARGET_") n = true -> env_get n (cx_env cx) = env_get n env) ->
  same_load (from_unresolved conf cx) (from_unresolved conf (with_env cx env)).
Proof.
  intros Sm H. unfold from_unresolved. cbn [with_env cx_env cx_current_dir].
  destruct (apply_env (cx_env cx) conf) as [de|e|p], (apply_env env conf) as [de'|e'|p']; try contradiction; [|exact I].
  cbn in Sm. subst de'. cbn [bind].
  destruct (ebuild_of _ _) as [b|?|?]; [|exact I|reflexivity].
  cbn [bind]. destruct (edoc_of _ _) as [d|?|?]; [|exact I|reflexivity].
  cbn [bind]. destruct (btraverse _ _) as [en|?|?]; [|exact I|reflexivity]. cbn [bind same_load].
  split.
  - exists env. reflexivity.
  - intros pr w qs q.
    match goal with |- run_query _ _ ?c _ _ = run_query _ _ ?c' _ _ => change c' with (config_with_env c env) end.
    rewrite <- queries_env by exact H. now apply query_env.
Qed.

Lemma filter_target_vars vars n : one_value_each vars -> Forall (fun kv => utf8_valid (fst kv) = true) vars ->
  starts_with (B "CARGO_TARGET_") n = true -> env_get n (env_filter vars) = env_get n vars.
Proof.
  intros N U H. apply env_filter_relevant; auto. unfold env_relevant. apply starts_with_iff in H as (r & ->). reflexivity.
Qed.

Lemma load_filter f p cwd o vars :
  one_value_each vars -> Forall (fun kv => utf8_valid (fst kv) = true) vars ->
  same_load (easy_load_with_options f p cwd (options_with_env o (env_filter vars)))
            (easy_load_with_options f p cwd (options_with_env o vars)).
Proof.
  intros N U. unfold easy_load_with_options. cbv zeta.
  assert (E : into_context p (options_with_env o vars) cwd
              = with_env (into_context p (options_with_env o (env_filter vars)) cwd) vars).
  { unfold into_context. cbn. rewrite env_filter_relevant by easy. reflexivity. }
  rewrite E. set (cx := into_context p (options_with_env o (env_filter vars)) cwd).
  change (cx_current_dir (with_env cx vars)) with (cx_current_dir cx).
  change (cx_cargo_home p (with_env cx vars) cwd) with (cx_cargo_home p cx cwd).
  destruct (load_with_options f (cx_current_dir cx) (cx_cargo_home p cx cwd)) as [de|e|q] eqn:L; cbn [bind];
    [|exact I|reflexivity].
  apply from_unresolved_env.
  - apply env_filter_transparent; auto. eapply load_sorted; eauto.
  - intros n H. now apply filter_target_vars.
Qed.

(** ** Programs that are run *)

Lemma cx_rustc_trace w cx b : untouched s_trace (cx_rustc w cx b).
Proof. apply untouched_rustc; easy. Qed.
Lemma target_cfg_trace w cx b t s r s' : target_cfg w cx b t s = (r, s') ->
  s' = s \/ (cfg_get (cli_target t) (s_cfg s) = None /\
             exists rustc, s_rustc s' = Some rustc /\ s_trace s' = cfg_question rustc (cli_target t) :: s_trace s).
Proof.
  unfold target_cfg. rewrite bindM_eq. cbn [get].
  destruct (cfg_get (cli_target t) (s_cfg s)) as [c|]; [intros [= _ <-]; now left|].
  assert (Hr : exists p s1, cx_rustc w cx b s = (Ok p, s1)).
  { unfold cx_rustc. rewrite bindM_eq. cbn [get]. destruct (s_rustc s); [unfold ret; eauto|].
    unfold base_rustc. destruct (eb_rustc b); eexists; eexists; reflexivity. }
  destruct Hr as (p & s1 & Hr).
  assert (T := cx_rustc_trace w cx b s). rewrite bindM_eq, Hr, bindM_eq. rewrite Hr in T. cbn [snd] in T.
  assert (K := cx_rustc_ok w (any_config cx b) _ _ _ Hr).
  unfold run_read at 1. intros H. right. split; [reflexivity|]. exists p. revert H.
  destruct (read_outcome _ _) as [o|e|q]; cbn; intros [= _ <-]; cbn; now rewrite T.
Qed.
Lemma resolve_cfgs_trace pr w cx b t tables : forall acc s r s',
  resolve_cfgs pr w cx b t tables acc s = (r, s') ->
  s' = s \/ (has_cfg tables /\ cfg_get (cli_target t) (s_cfg s) = None /\
             exists rustc, s_rustc s' = Some rustc /\ s_trace s' = cfg_question rustc (cli_target t) :: s_trace s).
Proof.
  induction tables as [|[k v] tables IH]; intros acc s r s'; cbn [resolve_cfgs]; [intros [= _ <-]; now left|].
  rewrite is_cfg_starts. destruct (is_cfg k) eqn:K; cbn [negb].
  - assert (Hk : has_cfg ((k, v) :: tables)) by (exists k, v; cbn; auto).
    unfold eval_cfg. rewrite bindM_eq, bindM_eq. unfold lift at 1.
    destruct (map_err _ (parse_expr pr k)) as [e|e|p]; [|intros [= _ <-]; now left|intros [= _ <-]; now left].
    rewrite bindM_eq. destruct (target_cfg w cx b t s) as [rc s1] eqn:Tc.
    assert (Tr := target_cfg_trace _ _ _ _ _ _ _ Tc).
    assert (Done : s1 = s' -> s' = s \/ (has_cfg ((k, v) :: tables) /\ cfg_get (cli_target t) (s_cfg s) = None /\
             exists rustc, s_rustc s' = Some rustc /\ s_trace s' = cfg_question rustc (cli_target t) :: s_trace s)).
    { intros <-. destruct Tr as [E|(E1 & E2)]; auto. }
    destruct rc as [c|e'|p']; [|intros [= _ E]; auto|intros [= _ E]; auto].
    unfold lift. destruct (eval_expr _ _ _) as [m|e'|p']; [|intros [= _ E]; auto|intros [= _ E]; auto].
    destruct acc as [[x y] z]. intros H. apply IH in H. apply target_cfg_ok in Tc.
    destruct H as [->|(_ & N & _)]; [now apply Done|congruence].
  - intros H. apply IH in H as [->|((k' & v' & I & K') & E)]; [now left|]. right. split; [|assumption].
    exists k', v'. cbn; auto.
Qed.
Lemma resolve_target_trace pr w cx b tables t s r s' : resolve_target pr w cx b tables t s = (r, s') ->
  s' = s \/ (has_cfg tables /\ cfg_get (cli_target t) (s_cfg s) = None /\
             exists rustc, s_rustc s' = Some rustc /\ s_trace s' = cfg_question rustc (cli_target t) :: s_trace s).
Proof.
  unfold resolve_target. cbv zeta. destruct (starts_with _ _); [intros [= _ <-]; now left|].
  do 5 (rewrite bindM_eq; unfold lift at 1; match goal with |- context [match ?r with Ok _ => _ | _ => _ end] =>
    destruct r as [?|?|?]; [|intros [= _ <-]; now left|intros [= _ <-]; now left] end).
  rewrite bindM_eq.
  match goal with |- context [resolve_cfgs pr w cx b t tables ?acc s] =>
    destruct (resolve_cfgs pr w cx b t tables acc s) as [rr s1] eqn:E end.
  apply resolve_cfgs_trace in E. destruct rr as [[[? ?] ?]|?|?]; intros [= _ <-]; assumption.
Qed.
Lemma target_query_trace pr w c q a t s r s' : target_query q a -> to_triple a = Ok t ->
  run_query pr w c q s = (r, s') ->
  s_trace s' = s_trace s \/
  (has_cfg (ec_de_target c) /\ cfg_get (cli_target t) (s_cfg s) = None /\ bget (cli_target t) (s_target s) = None /\
   exists rustc, s_rustc s' = Some rustc /\ s_trace s' = cfg_question rustc (cli_target t) :: s_trace s).
Proof.
  intros Q Ht. rewrite (target_query_run _ _ _ _ _ _ Q). unfold q_target. rewrite bindM_assoc, bindM_eq.
  unfold lift at 1. rewrite Ht. unfold q_target_of. rewrite !bindM_eq. unfold init_target_config. rewrite bindM_eq.
  cbn [get]. destruct (bget (cli_target t) (s_target s)) as [e|] eqn:E.
  - unfold ret at 1. rewrite !bindM_eq. cbn [get]. rewrite E. intros [= _ <-]. now left.
  - rewrite bindM_eq. destruct (resolve_target _ _ _ _ _ _ _) as [[x|x|x] s1] eqn:R;
      apply resolve_target_trace in R;
      try (intros [= _ <-]; destruct R as [->|(R1 & R2 & R3)]; [now left|right; auto 10]; fail).
    rewrite bindM_eq. unfold lift at 1.
    destruct (etarget_of _ _) as [y|y|y]; 
      try (intros [= _ <-]; destruct R as [->|(R1 & R2 & R3)]; [now left|right; auto 10]; fail).
    cbn. rewrite bget_binsert, str_eqb_refl. intros [= _ <-]. cbn.
    destruct R as [->|(R1 & R2 & R3)]; [now left|right; auto 10].
Qed.

Lemma target_cfg_available pr w c t s :
  (exists x, cfg_get (cli_target t) (s_cfg s) = Some x) \/
  (exists rustc s1 out, run_query pr w c QRustc s = (Ok (AProgram rustc), s1) /\
     read_outcome (cfg_question rustc (cli_target t))
       (w_run w (s_clock s1) (cfg_question rustc (cli_target t))) = Ok out) ->
  exists x s1, target_cfg w (ec_cx c) (ec_build c) t s = (Ok x, s1).
Proof.
  intros [(x & H)|(rustc & s1 & out & H & O)].
  - exists x, s. now apply target_cfg_cached.
  - unfold target_cfg. rewrite bindM_eq. cbn [get].
    destruct (cfg_get (cli_target t) (s_cfg s)) as [x|]; [unfold ret; eauto|].
    cbn [run_query] in H. unfold mapM in H. apply bindM_ok in H as (r & s2 & H & E). injection E as -> ->.
    unfold q_rustc in H. rewrite bindM_eq, H, bindM_eq. unfold run_read at 1.
    change (cfg_command rustc t) with (cfg_question rustc (cli_target t)). rewrite O. eexists; eexists; reflexivity.
Qed.

(** ** Corollaries *)

Fixpoint meaning_ext ep ep' (H : forall p, ep p = ep' p) (x : tree) : meaning ep x = meaning ep' x.
Proof.
  destruct x as [p|[] args]; cbn; [apply H|..].
  - induction args as [|y l IH]; cbn; [reflexivity|]. now rewrite (meaning_ext ep ep' H y), IH.
  - induction args as [|y l IH]; cbn; [reflexivity|]. now rewrite (meaning_ext ep ep' H y), IH.
  - f_equal. induction args as [|y l IH]; cbn; [reflexivity|]. now rewrite (meaning_ext ep ep' H y), IH.
Qed.
Lemma truth_unique out k b b' x roots :
  utf8 k -> unwrapped k x -> written roots x -> Forall narrow roots ->
  true_of out k b -> true_of out k b' -> b = b'.
Proof.
  intros V U W N (x1 & r1 & U1 & A1 & H1) (x2 & r2 & U2 & A2 & H2).
  assert (x1 = x) as -> by (eapply unwrapped_unique; eauto). assert (x2 = x) as -> by (eapply unwrapped_unique; eauto).
  assert (Vx : utf8_valid x = true).
  { apply utf8_valid_iff in V. destruct (lexer_text_spec k V) as (y & _ & Y & Vy).
    assert (y = x) as -> by (eapply unwrapped_unique; eauto). assumption. }
  assert (r1 = roots) as -> by (eapply written_unique; eauto; apply A1).
  assert (r2 = roots) as -> by (eapply written_unique; eauto; apply A2).
  destruct (H1 N) as (e1 & E1 & M1), (H2 N) as (e2 & E2 & M2).
  rewrite (M1 (Leaf (PFlag []))), (M2 (Leaf (PFlag []))). apply meaning_ext.
  intros p. apply eq_true_iff_eq. now rewrite E1, E2.
Qed.

Lemma variables_win env tables name file m t :
  let o := option_map eflags_words
             (target_rustflags env tables m t (overrides_target env name) (build_flags env name file)) in
  (forall v, env_get (B "CARGO_ENCODED_" ++ name) env = Some v -> o = Some (mkEflags (split_encoded v)))
  /\ (forall v, env_get (B "CARGO_ENCODED_" ++ name) env = None -> env_get name env = Some v ->
        o = Some (mkEflags (split_space_separated v))).
Proof.
  cbv zeta. unfold target_rustflags, overrides_target, set, build_flags. split.
  - intros v ->. cbn [orb is_some option_map]. unfold eflags_words. cbn [snd]. rewrite map_map. cbn. now rewrite map_id.
  - intros v -> ->. cbn [orb is_some option_map]. unfold eflags_words. cbn [snd]. rewrite map_map. cbn. now rewrite map_id.
Qed.
Lemma doc_variables_win env tables name file t :
  let o := option_map eflags_words
             (target_rustdocflags env tables t (overrides_target env name) (build_flags env name file)) in
  (forall v, env_get (B "CARGO_ENCODED_" ++ name) env = Some v -> o = Some (mkEflags (split_encoded v)))
  /\ (forall v, env_get (B "CARGO_ENCODED_" ++ name) env = None -> env_get name env = Some v ->
        o = Some (mkEflags (split_space_separated v))).
Proof.
  cbv zeta. unfold target_rustdocflags, overrides_target, set, build_flags. split.
  - intros v ->. cbn [orb is_some option_map]. unfold eflags_words. cbn [snd]. rewrite map_map. cbn. now rewrite map_id.
  - intros v -> ->. cbn [orb is_some option_map]. unfold eflags_words. cbn [snd]. rewrite map_map. cbn. now rewrite map_id.
Qed.

Lemma target_beats_build env conf m t build :
  (exists v, env_get (target_variable t (B "RUSTFLAGS")) env = Some v) \/ look_list (TargetRustflags t) conf <> None ->
  option_map eflags_words
    (otherwise (gathered ([own (c_target conf) t rustflags_words; var_words env t (B "RUSTFLAGS")]
                          ++ map rustflags_words (matching (c_target conf) m))) build)
  = option_map eflags_words
       (gathered ([look_list (TargetRustflags t) conf; var_words env t (B "RUSTFLAGS")]
                  ++ map rustflags_words (matching (c_target conf) m)))
  /\ option_map eflags_words
    (otherwise (gathered ([own (c_target conf) t rustflags_words; var_words env t (B "RUSTFLAGS")]
                          ++ map rustflags_words (matching (c_target conf) m))) build) <> None.
Proof.
  intros K. change (own (c_target conf) t rustflags_words) with (look_list (TargetRustflags t) conf).
  assert (N : gathered ([look_list (TargetRustflags t) conf; var_words env t (B "RUSTFLAGS")]
                  ++ map rustflags_words (matching (c_target conf) m)) <> None).
  { destruct (look_list (TargetRustflags t) conf) as [[f ws]|]; [discriminate|].
    destruct K as [(v & E)|K]; [|congruence]. unfold var_words. rewrite E. discriminate. }
  destruct (gathered _) as [g|]; [|easy]. split; [reflexivity|discriminate].
Qed.
Lemma build_last env conf m t over build :
  env_get (target_variable t (B "RUSTFLAGS")) env = None -> look_list (TargetRustflags t) conf = None ->
  (forall k v, In (k, v) (c_target conf) -> is_cfg k = true -> t_rustflags v = None) ->
  option_map eflags_words (target_rustflags env (c_target conf) m t over build) = option_map eflags_words build.
Proof.
  intros E1 E2 E3. unfold target_rustflags. destruct over; [reflexivity|].
  change (own (c_target conf) t rustflags_words) with (look_list (TargetRustflags t) conf).
  rewrite E2. unfold var_words. rewrite E1.
  assert (G : forall l, (forall k v, In (k, v) l -> is_cfg k = true -> t_rustflags v = None) ->
            defined (map rustflags_words (matching l m)) = []).
  { induction l as [|[k v] l IH]; intros H; [reflexivity|]. unfold matching. cbn [filter fst].
    destruct (is_cfg k && m k)%bool eqn:A.
    - apply andb_prop in A as [A _]. cbn [map snd]. unfold rustflags_words at 1. rewrite (H k v); [|now left|assumption].
      cbn. apply IH. intros k' v' I. apply (H k' v'). now right.
    - apply IH. intros k' v' I. apply (H k' v'). now right. }
  unfold gathered. cbn [app defined]. rewrite (G _ E3). reflexivity.
Qed.

Lemma cfg_text s : is_cfg s = true -> ~ spec_like s -> to_triple (ArgText s) = Ok (mkTriple s None).
Proof.
  intros _ N. cbn. unfold triple_from, triple_new. destruct (is_spec_path s) eqn:E; [|reflexivity].
  now apply is_spec_path_iff in E.
Qed.

Lemma variable_name triple key : exists u,
  target_variable triple key = B "CARGO_TARGET_" ++ u ++ B "_" ++ key /\
  Forall2 (fun c d =>
    ((c = "-"%char \/ c = "."%char) /\ d = "_"%char)
    \/ (exists i, i < 26 /\ c = ascii_of_nat (97 + i) /\ d = ascii_of_nat (65 + i))
    \/ (c <> "-"%char /\ c <> "."%char /\ (forall i, i < 26 -> c <> ascii_of_nat (97 + i)) /\ d = c))
    triple u.
Proof.
  exists (map env_char triple). split; [reflexivity|]. induction triple as [|c l IH]; constructor; [|assumption].
  clear. unfold env_char.
  destruct (Ascii.eqb c "-") eqn:E1; [apply Ascii.eqb_eq in E1 as ->; left; auto|].
  destruct (Ascii.eqb c ".") eqn:E2; [apply Ascii.eqb_eq in E2 as ->; left; auto|]. cbn [orb].
  apply Ascii.eqb_neq in E1, E2. right.
  assert (Nc : nb c = N.of_nat (nat_of_ascii c)) by (unfold nb, nat_of_ascii; now rewrite N2Nat.id).
  destruct ((97 <=? nb c) && (nb c <=? 122))%N%bool eqn:E.
  - left. apply andb_prop in E as [L1 L2]. apply N.leb_le in L1, L2. rewrite Nc in L1, L2.
    exists (nat_of_ascii c - 97). split; [lia|]. split.
    + rewrite <- (ascii_nat_embedding c) at 1. f_equal. lia.
    + rewrite Nc. unfold ascii_of_nat. f_equal. lia.
  - right. repeat split; auto. intros i Hi ->. 
    rewrite Nc, nat_ascii_embedding in E by lia.
    apply andb_false_iff in E as [E|E]; apply N.leb_gt in E; lia.
Qed.

Lemma second_query_same pr w c q q' a s x s' s'' r :
  target_query q a -> target_query q' a ->
  run_query pr w c q s = (Ok x, s') -> run_query pr w c q' s' = (r, s'') -> s'' = s'.
Proof.
  intros Q Q' H H'. apply (target_query_ok _ _ _ _ _ _ _ _ Q) in H as (e & H & _).
  apply q_target_ok in H as (t & Ht & He). revert H'. rewrite (target_query_run _ _ _ _ _ _ Q').
  unfold q_target. rewrite bindM_assoc, bindM_eq. unfold lift at 1. rewrite Ht. unfold q_target_of. rewrite !bindM_eq.
  unfold init_target_config. rewrite bindM_eq. cbn [get]. rewrite He. unfold ret at 1. rewrite bindM_eq. cbn [get]. rewrite He.
  now intros [= _ <-].
Qed.
