(** Errors of queries, for both families of systems: as [Proof/QueryBlameProof.v], with
    [Model/OsLoad.v] for the model. *)
From Verif.Model Require Import Base Str Path StdPath OsPaths BMap Error Value De CfgExpr CfgError Triple EasyTypes Context ApplyEnv
  Load Process Resolve Easy ErrorText OsLoad.
From Verif.Spec Require Import StrSpec ConfigSpec EnvSpec Utf8Spec CfgSpec TripleSpec TargetSpec QuerySpec
  ErrorSpec BlameSpec QueryBlameSpec.
From Verif.Proof Require Import StrFacts BMapFacts Utf8Proof EnvProof CfgProof CfgEvalProof CfgErrorProof ErrorProof
  TripleProof EnvVarsProof RootProof StateProof TargetProof TargetEnvProof VersionProof QueryProof BlameProof QueryBlameProof
  OsLoadProof OsTargetProof OsQueryProof.
From Verif.Spec Require Import CfgErrorSpec TargetSpec QuerySpec ErrorSpec BlameSpec QueryBlameSpec OsTargetSpec OsQuerySpec.

Section Os.
Context (os : system) (suffix : str).

(** ** Targets *)
Lemma cx_rustc_trace w cx b s : s_trace (snd (os_cx_rustc os suffix w cx b s)) = s_trace s.
Proof. now apply untouched_rustc. Qed.
Section Target.
Context (pr : profile) (w : world) (cx : context) (b : ebuild) (t : triple).

Lemma target_cfg_err s e s' : os_target_cfg os suffix w cx b t s = (Err e, s') ->
  cfg_get (cli_target t) (s_cfg s) = None /\
  exists rustc n, s_rustc s' = Some rustc /\ s_clock s' = S n
  /\ s_trace s' = cfg_question rustc (cli_target t) :: s_trace s
  /\ failure (cfg_question rustc (cli_target t)) (w_run w n (cfg_question rustc (cli_target t))) e.
Proof.
  unfold os_target_cfg. rewrite bindM_eq. cbn [get].
  destruct (cfg_get (cli_target t) (s_cfg s)) as [x|]; [discriminate|]. intros H. split; [reflexivity|].
  destruct (rustc_ok os suffix w (any_config cx b) s) as (r & s1 & Hr). change (os_cx_rustc os suffix w cx b s = (Ok r, s1)) in Hr.
  assert (T := cx_rustc_trace w cx b s). rewrite Hr in T. cbn [snd] in T.
  assert (K := cx_rustc_ok os suffix w (any_config cx b) _ _ _ Hr).
  rewrite bindM_eq, Hr, bindM_eq in H. unfold run_read in H.
  change (cfg_command r t) with (cfg_question r (cli_target t)) in H.
  destruct (read_outcome _ _) as [out|e'|p] eqn:E; [discriminate| |discriminate].
  injection H as <- <-. exists r, (s_clock s1). cbn. split; [assumption|]. split; [reflexivity|].
  split; [now rewrite T|]. now apply read_err.
Qed.

Lemma resolve_cfgs_err tables : keys_utf8 tables -> forall acc s e s',
  os_resolve_cfgs os suffix pr w cx b t tables acc s = (Err e, s') ->
  (exists pre k v post x pe, e = ECfgExprParse pe /\ tables = pre ++ (k, v) :: post /\ valid_keys pre
     /\ is_cfg k = true /\ ~ valid_cfg k /\ unwrapped k x /\ pe_original pe = x
     /\ explains x (pe_span pe) (pe_reason pe) /\ (~ has_cfg pre -> s' = s))
  \/ (exists pre k v post rustc n, tables = pre ++ (k, v) :: post /\ ~ has_cfg pre /\ is_cfg k = true /\ valid_cfg k
     /\ cfg_get (cli_target t) (s_cfg s) = None
     /\ s_rustc s' = Some rustc /\ s_clock s' = S n /\ s_trace s' = cfg_question rustc (cli_target t) :: s_trace s
     /\ failure (cfg_question rustc (cli_target t)) (w_run w n (cfg_question rustc (cli_target t))) e).
Proof.
  intros U. induction tables as [|[k v] tables IH]; intros acc s e s' H; [discriminate H|].
  assert (U' : keys_utf8 tables) by (intros k' v' I; apply (U k' v'); now right). specialize (IH U').
  assert (Uk := U k v (or_introl eq_refl)).
  cbn [os_resolve_cfgs] in H. rewrite is_cfg_starts in H. destruct (is_cfg k) eqn:K; cbn [negb] in H.
  - unfold os_eval_cfg in H. rewrite bindM_eq, bindM_eq in H. unfold lift at 1 in H.
    destruct (parse_cases pr k Uk) as (x & Ux & Vx & C).
    destruct (parse_expr pr k) as [ex|pe|p] eqn:Q; cbn [map_err] in H; [| |discriminate].
    + assert (Val : valid_cfg k) by (apply (parse_ok_accepted pr); [assumption|now rewrite Q]).
      rewrite bindM_eq in H. destruct (os_target_cfg os suffix w cx b t s) as [[c|e'|p] s1] eqn:Tc; [| |discriminate].
      * destruct (parse_eval_ok (E := error) logic_bool (cfg_pred c) pr k ex Uk Q) as (m & Ev).
        unfold lift in H. rewrite Ev in H. destruct acc as [[x1 x2] x3]. apply target_cfg_ok in Tc.
        apply IH in H as [(pre & k' & v' & post & x' & pe & He & -> & V & K' & Nv & Ux' & O & Ex & N)
                         |(pre & k' & v' & post & rustc & n & _ & _ & _ & _ & N & _)]; [|congruence].
        left. exists ((k, v) :: pre), k', v', post, x', pe. repeat (split; [assumption || reflexivity|]).
        split.
        { intros k0 v0 [[= <- <-]|I]; [auto|]. apply (V k0 v0 I). }
        repeat (split; [assumption|]). intros B. exfalso. apply B. exists k, v. cbn; auto.
      * injection H as <- <-. apply target_cfg_err in Tc as (N & rustc & n & E1 & E2 & E3 & F).
        right. exists [], k, v, tables, rustc, n. repeat (split; [assumption || reflexivity|]).
        split; [intros (? & ? & [] & _)|]. auto 10.
    + injection H as <- <-. left. exists [], k, v, tables, x, pe. split; [reflexivity|]. split; [reflexivity|].
      split; [intros ? ? []|]. split; [assumption|]. split.
      { intros (x' & roots & Ux' & A). rewrite (unwrapped_unique _ _ _ Ux' Ux) in A. apply (proj2 C). eauto. }
      split; [assumption|]. destruct (parse_explained pr k x pe Uk Ux Q). auto.
  - apply IH in H as [(pre & k' & v' & post & x' & pe & He & -> & V & K' & Nv & Ux' & O & Ex & N)
                     |(pre & k' & v' & post & rustc & n & -> & Nh & R)].
    + left. exists ((k, v) :: pre), k', v', post, x', pe. repeat (split; [assumption || reflexivity|]).
      split.
      { intros k0 v0 [[= <- <-]|I] K0; [congruence|]. now apply (V k0 v0 I). }
      repeat (split; [assumption|]). intros B. apply N. intros (k0 & v0 & I & K0). apply B. exists k0, v0. cbn; auto.
    + right. exists ((k, v) :: pre), k', v', post, rustc, n. split; [reflexivity|]. split; [|exact R].
      intros (k0 & v0 & [[= <- <-]|I] & K0); [congruence|]. apply Nh. now exists k0, v0.
Qed.

(** The variables of the target. *)
Lemma resolve_target_err tables s e s' : keys_utf8 tables ->
  os_resolve_target os suffix pr w cx b tables t s = (Err e, s') -> target_problem w (cx_env cx) tables t s s' e.
Proof.
  intros U H. unfold os_resolve_target in H. cbv zeta in H. rewrite is_cfg_starts in H.
  destruct (is_cfg (tt_triple t)) eqn:C.
  { injection H as <- <-. now apply not_a_triple. }
  change (B "_LINKER") with (B "_" ++ B "LINKER") in H. change (B "_RUNNER") with (B "_" ++ B "RUNNER") in H.
  change (B "_RUSTFLAGS") with (B "_" ++ B "RUSTFLAGS") in H.
  change (B "_RUSTDOCFLAGS") with (B "_" ++ B "RUSTDOCFLAGS") in H.
  rewrite !target_var_name in H.
  assert (H1 := heard_var t (cx_env cx) (B "LINKER")). assert (H2 := heard_runner t (cx_env cx)).
  assert (H3 := heard_var t (cx_env cx) (B "RUSTFLAGS")). assert (H4 := heard_var t (cx_env cx) (B "RUSTDOCFLAGS")).
  assert (T : first_defined (target_turn (cx_env cx) (tt_triple t)) =
    match first_defined [unreadable [text (target_variable (tt_triple t) (B "LINKER"))] (cx_env cx)] with
    | Some n => Some n | None =>
    match first_defined [unreadable [(target_variable (tt_triple t) (B "RUNNER"), snd browser)] (cx_env cx)] with
    | Some n => Some n | None =>
    match first_defined [unreadable [text (target_variable (tt_triple t) (B "RUSTFLAGS"))] (cx_env cx)] with
    | Some n => Some n | None =>
    first_defined [unreadable [text (target_variable (tt_triple t) (B "RUSTDOCFLAGS"))] (cx_env cx)] end end end).
  { unfold target_turn. generalize (unreadable [text (target_variable (tt_triple t) (B "LINKER"))] (cx_env cx)).
    generalize (unreadable [(target_variable (tt_triple t) (B "RUNNER"), snd browser)] (cx_env cx)).
    generalize (unreadable [text (target_variable (tt_triple t) (B "RUSTFLAGS"))] (cx_env cx)).
    intros [x|] [y|] [z|]; reflexivity. }
  rewrite bindM_eq in H. unfold lift at 1 in H.
  destruct (cx_env_var (cx_env cx) (target_variable (tt_triple t) (B "LINKER"))) as [x1|e1|p1]; cbn [heard] in H1;
    [rewrite H1 in T|injection H as <- <-; destruct H1 as (n & v & D & G & Co); apply (variable_unreadable _ _ _ _ _ _ n v); auto;
     rewrite T, D; reflexivity|destruct H1].
  rewrite bindM_eq in H. unfold lift at 1 in H.
  destruct (cx_env_var (cx_env cx) (target_variable (tt_triple t) (B "RUNNER"))) as [x2|e1|p1]; cbn [heard bind] in H2;
    [|injection H as <- <-; destruct H2 as (n & v & D & G & Co); apply (variable_unreadable _ _ _ _ _ _ n v); auto;
     rewrite T, D; reflexivity|destruct H2].
  rewrite bindM_eq in H. unfold lift at 1 in H.
  destruct (opt_traverse pa_of_var x2) as [x3|e1|p1]; cbn [heard bind] in H2;
    [rewrite H2 in T|injection H as <- <-; destruct H2 as (n & v & D & G & Co); apply (variable_unreadable _ _ _ _ _ _ n v); auto;
     rewrite T, D; reflexivity|destruct H2].
  rewrite bindM_eq in H. unfold lift at 1 in H.
  destruct (cx_env_var (cx_env cx) (target_variable (tt_triple t) (B "RUSTFLAGS"))) as [x4|e1|p1]; cbn [heard] in H3;
    [rewrite H3 in T|injection H as <- <-; destruct H3 as (n & v & D & G & Co); apply (variable_unreadable _ _ _ _ _ _ n v); auto;
     rewrite T, D; reflexivity|destruct H3].
  rewrite bindM_eq in H. unfold lift at 1 in H.
  destruct (cx_env_var (cx_env cx) (target_variable (tt_triple t) (B "RUSTDOCFLAGS"))) as [x5|e1|p1]; cbn [heard] in H4;
    [rewrite H4 in T|injection H as <- <-; destruct H4 as (n & v & D & G & Co); apply (variable_unreadable _ _ _ _ _ _ n v); auto;
     rewrite T, D; reflexivity|destruct H4].
  rewrite bindM_eq in H.
  match type of H with context [os_resolve_cfgs os suffix pr w cx b t tables ?acc s] =>
    destruct (os_resolve_cfgs os suffix pr w cx b t tables acc s) as [[[[r1 r2] r3]|e'|q] s1] eqn:E end; [discriminate| |discriminate].
  injection H as <- <-. apply (resolve_cfgs_err tables U) in E.
  destruct E as [(pre & k' & v' & post & x' & pe & -> & Et & V & K' & Nv & Ux' & O & Ex & N)
                |(pre & k' & v' & post & rustc & n & Et & Nh & K' & Vk & N & E1 & E2 & E3 & F)].
  - now apply (key_invalid _ _ _ _ _ _ pre k' v' post x').
  - now apply (rustc_failed _ _ _ _ _ _ pre k' v' post rustc n).
Qed.
End Target.

Lemma n_program v cwd : errs never (os_program_path os v cwd).
Proof. unfold os_program_path, os_root, os_parent_parent. walk. Qed.
#[local] Hint Resolve n_program : errs.
Lemma n_epa cwd p : errs never (os_epa_of os cwd p).
Proof. unfold os_epa_of. walk. Qed.
#[local] Hint Resolve n_epa : errs.
Lemma n_path v cwd : errs never (os_path os v cwd).
Proof. unfold os_path, os_root, os_parent_parent. walk. Qed.
Lemma n_triple s d cwd : errs never (os_triple os s d cwd).
Proof. unfold os_triple, os_spec_path, os_root_opt, os_parent_parent. walk. Qed.
Lemma n_env e cwd : errs never (os_env_resolve os e cwd).
Proof. unfold os_env_resolve, os_root, os_parent_parent. walk. Qed.
#[local] Hint Resolve n_path n_triple n_env : errs.
Lemma os_unresolved_err c cx e : os_from_unresolved os c cx = Err e <-> apply_env (cx_env cx) c = Err e.
Proof.
  unfold os_from_unresolved. destruct (apply_env (cx_env cx) c) as [de|e'|p]; cbn [bind]; [|split; intros [= ->]; reflexivity|split; discriminate].
  split; [|discriminate]. intros H. exfalso. revert H.
  match goal with |- ?r = _ -> _ => assert (N : errs never r) end.
  { unfold os_ebuild_of, os_edoc_of, os_eenv_of, os_targets_of. walk. }
  intros H. discriminate (N e H).
Qed.
Lemma target_err c pr w q a t s e s' :
  keys_utf8 (ec_de_target c) ->
  target_query q a -> os_to_triple os a = Ok t -> os_run_query os suffix pr w c q s = (Err e, s') ->
  target_problem w (cx_env (ec_cx c)) (ec_de_target c) t s s' e.
Proof.
  intros U Q Ht.  rewrite (target_query_run os suffix _ _ _ _ _ _ Q). unfold os_q_target. rewrite bindM_assoc, bindM_eq.
  unfold lift at 1. rewrite Ht. unfold os_q_target_of. rewrite !bindM_eq. unfold os_init_target_config. rewrite bindM_eq.
  cbn [get]. destruct (bget (cli_target t) (s_target s)) as [x|] eqn:E.
  - unfold ret at 1. rewrite !bindM_eq. cbn [get]. rewrite E. discriminate.
  - rewrite bindM_eq. destruct (os_resolve_target os suffix _ _ _ _ _ _ _) as [[x|x|x] s1] eqn:R; [|intros [= <- <-]|discriminate].
    + rewrite bindM_eq. unfold lift at 1. assert (Nv : errs never (os_etarget_of os (cx_current_dir (ec_cx c)) x)).
      { unfold os_etarget_of. walk. }
      destruct (os_etarget_of os _ _) as [y|y|y] eqn:Ey; [|discriminate (Nv y eq_refl)|discriminate].
      cbn. rewrite bget_binsert, str_eqb_refl. discriminate.
    + now apply resolve_target_err in R.
Qed.

Lemma resolve_target_stopped pr w cx b tables t s name :
  is_cfg (tt_triple t) = false -> first_defined (target_turn (cx_env cx) (tt_triple t)) = Some name ->
  exists e, os_resolve_target os suffix pr w cx b tables t s = (Err e, s).
Proof.
  intros C D. unfold os_resolve_target. cbv zeta. rewrite is_cfg_starts, C.
  change (B "_LINKER") with (B "_" ++ B "LINKER"). change (B "_RUNNER") with (B "_" ++ B "RUNNER").
  change (B "_RUSTFLAGS") with (B "_" ++ B "RUSTFLAGS").
  change (B "_RUSTDOCFLAGS") with (B "_" ++ B "RUSTDOCFLAGS").
  rewrite !target_var_name.
  assert (H1 := heard_var t (cx_env cx) (B "LINKER")). assert (H2 := heard_runner t (cx_env cx)).
  assert (H3 := heard_var t (cx_env cx) (B "RUSTFLAGS")). assert (H4 := heard_var t (cx_env cx) (B "RUSTDOCFLAGS")).
  unfold target_turn in D.
  assert (Sp : forall (x : option str) l, first_defined (x :: l) = match first_defined [x] with Some n => Some n | None => first_defined l end)
    by (intros [x|] l; reflexivity).
  rewrite Sp in D.
  rewrite bindM_eq; unfold lift at 1.
  destruct (cx_env_var (cx_env cx) (target_variable (tt_triple t) (B "LINKER"))) as [x1|e1|p1]; cbn [heard] in H1;
    [rewrite H1 in D|eauto|destruct H1].
  rewrite Sp in D. rewrite bindM_eq; unfold lift at 1.
  destruct (cx_env_var (cx_env cx) (target_variable (tt_triple t) (B "RUNNER"))) as [x2|e1|p1]; cbn [heard bind] in H2;
    [|eauto|destruct H2].
  rewrite bindM_eq; unfold lift at 1.
  destruct (opt_traverse pa_of_var x2) as [x3|e1|p1]; cbn [heard bind] in H2; [rewrite H2 in D|eauto|destruct H2].
  rewrite Sp in D. rewrite bindM_eq; unfold lift at 1.
  destruct (cx_env_var (cx_env cx) (target_variable (tt_triple t) (B "RUSTFLAGS"))) as [x4|e1|p1]; cbn [heard] in H3;
    [rewrite H3 in D|eauto|destruct H3].
  rewrite bindM_eq; unfold lift at 1.
  destruct (cx_env_var (cx_env cx) (target_variable (tt_triple t) (B "RUSTDOCFLAGS"))) as [x5|e1|p1]; cbn [heard] in H4;
    [congruence|eauto|destruct H4].
Qed.

(** A query that has to resolve the target fails as that does. *)
Lemma target_query_fresh pr w c q a t s e s' :
  target_query q a -> os_to_triple os a = Ok t -> bget (cli_target t) (s_target s) = None ->
  os_resolve_target os suffix pr w (ec_cx c) (ec_build c) (ec_de_target c) t s = (Err e, s') ->
  os_run_query os suffix pr w c q s = (Err e, s').
Proof.
  intros Q Ht E R. rewrite (target_query_run os suffix _ _ _ _ _ _ Q). unfold os_q_target. rewrite bindM_assoc, bindM_eq.
  unfold lift at 1. rewrite Ht. unfold os_q_target_of. rewrite !bindM_eq. unfold os_init_target_config. rewrite bindM_eq.
  cbn [get]. rewrite E, bindM_eq, R. reflexivity.
Qed.

Lemma target_variable_err c pr w q a t s name v e :
  keys_utf8 (ec_de_target c) ->
  os_reached os suffix pr w c s -> target_query q a -> os_real_arg os a -> os_to_triple os a = Ok t ->
  is_cfg (tt_triple t) = false ->
  first_defined (target_turn (cx_env (ec_cx c)) (tt_triple t)) = Some name -> env_get name (cx_env (ec_cx c)) = Some v ->
  target_complaint (tt_triple t) name v e ->
  os_run_query os suffix pr w c q s = (Err e, s).
Proof.
  intros U Rs Q Ra Ht C D G Co.
  assert (R : exists e', os_run_query os suffix pr w c q s = (Err e', s)).
  { destruct (resolve_target_stopped pr w (ec_cx c) (ec_build c) (ec_de_target c) t s name) as (e' & R); [assumption|assumption|].
    exists e'. apply (target_query_fresh pr w c q a t); auto.
    destruct (bget (cli_target t) (s_target s)) as [x|] eqn:E; [exfalso|reflexivity].
    destruct (reached_known os suffix _ _ _ _ Rs) as [_ K]. destruct (K _ _ E) as (t0 & s1 & s2 & r & M0 & E0 & H1 & _).
    assert (t0 = t) as -> by (apply (plain_made_unique os); eauto using real_arg_made).
    destruct (resolve_target_stopped pr w (ec_cx c) (ec_build c) (ec_de_target c) t s1 name) as (e'' & R'');
      [assumption|assumption|congruence]. }
  destruct R as (e' & R). rewrite R. f_equal. f_equal.
  apply (target_err c pr w q a t s e' s U Q Ht) in R.
  destruct R as [C'|n' v' e' C' _ D' G' Co'|pre k v' post x e' C' D' _ _ _ _ _ _ _ _|pre k v' post rustc n e' C' D' _ _ _ _ _ _ _ _ _];
    try congruence.
  assert (n' = name) by congruence. subst n'. assert (v' = v) by congruence. subst v'.
  exact (target_complaint_unique _ _ _ _ _ Co' Co).
Qed.

(** rustc that fails is reported if nothing else is wrong before. *)
Lemma target_rustc_err c pr w q a t s pre k v post r s1 e :
  keys_utf8 (ec_de_target c) -> overflow_checks pr = false ->
  target_query q a -> os_to_triple os a = Ok t -> is_cfg (tt_triple t) = false ->
  target_vars_readable (cx_env (ec_cx c)) (tt_triple t) ->
  ec_de_target c = pre ++ (k, v) :: post -> ~ has_cfg pre -> is_cfg k = true -> valid_cfg k ->
  bget (cli_target t) (s_target s) = None -> cfg_get (cli_target t) (s_cfg s) = None ->
  os_run_query os suffix pr w c QRustc s = (Ok (AProgram r), s1) ->
  failure (cfg_question r (cli_target t)) (w_run w (s_clock s1) (cfg_question r (cli_target t))) e ->
  fst (os_run_query os suffix pr w c q s) = Err e.
Proof.
  intros U O Q Ht C V Et Np K Val Eb Eg Hr F.
  assert (Uk : utf8_valid k = true) by (apply (U k v); rewrite Et; apply in_elt).
  assert (Pk := accepted_parse_ok pr k Uk O Val).
  destruct (parse_expr pr k) as [ex| |] eqn:P; try discriminate Pk.
  cbn [os_run_query] in Hr. unfold mapM in Hr. apply bindM_ok in Hr as (r' & s2 & Hr & E). injection E as -> <-.
  apply read_err in F.
  assert (Tc : exists s3, os_target_cfg os suffix w (ec_cx c) (ec_build c) t s = (Err e, s3)).
  { unfold os_target_cfg. rewrite bindM_eq. cbn [get]. rewrite Eg, bindM_eq, Hr, bindM_eq. unfold run_read.
    change (cfg_command r t) with (cfg_question r (cli_target t)). rewrite F. eauto. }
  destruct Tc as (s3 & Tc).
  assert (Rc : forall acc, os_resolve_cfgs os suffix pr w (ec_cx c) (ec_build c) t (pre ++ (k, v) :: post) acc s = (Err e, s3)).
  { clear Et. induction pre as [|[k0 v0] pre IH]; intros acc.
    - cbn [app os_resolve_cfgs]. rewrite is_cfg_starts, K. cbn [negb]. unfold os_eval_cfg.
      rewrite bindM_eq, bindM_eq. unfold lift at 1. rewrite P. cbn [map_err]. now rewrite bindM_eq, Tc.
    - cbn [app os_resolve_cfgs]. rewrite is_cfg_starts. destruct (is_cfg k0) eqn:K0.
      + exfalso. apply Np. exists k0, v0. cbn; auto.
      + cbn [negb]. apply IH. intros (k1 & v1 & I & K1). apply Np. exists k1, v1. cbn; auto. }
  assert (R : os_resolve_target os suffix pr w (ec_cx c) (ec_build c) (ec_de_target c) t s = (Err e, s3)).
  2:{ now rewrite (target_query_fresh pr w c q a t s e s3 Q Ht Eb R). }
  rewrite Et. destruct V as [V N]. unfold os_resolve_target. cbv zeta. rewrite is_cfg_starts, C.
  change (B "_LINKER") with (B "_" ++ B "LINKER"). change (B "_RUNNER") with (B "_" ++ B "RUNNER").
  change (B "_RUSTFLAGS") with (B "_" ++ B "RUSTFLAGS").
  change (B "_RUSTDOCFLAGS") with (B "_" ++ B "RUSTDOCFLAGS").
  rewrite !target_var_name.
  assert (R : forall key, In key [B "LINKER"; B "RUNNER"; B "RUSTFLAGS"; B "RUSTDOCFLAGS"] ->
              cx_env_var (cx_env (ec_cx c)) (target_variable (tt_triple t) key)
              = Ok (option_map (of_variable (target_variable (tt_triple t) key))
                      (env_get (target_variable (tt_triple t) key) (cx_env (ec_cx c))))).
  { intros key I. destruct (proj2 (env_var_iff (cx_env (ec_cx c)) (target_variable (tt_triple t) key))) as (o & E).
    - intros x. now apply V.
    - rewrite E. apply env_var_ok in E as [-> _]. reflexivity. }
  do 2 (rewrite bindM_eq; unfold lift at 1; rewrite R by (cbn; auto)).
  assert (Ru : exists p, opt_traverse pa_of_var
              (option_map (of_variable (target_variable (tt_triple t) (B "RUNNER")))
                 (env_get (target_variable (tt_triple t) (B "RUNNER")) (cx_env (ec_cx c)))) = Ok p).
  { destruct (env_get (target_variable (tt_triple t) (B "RUNNER")) (cx_env (ec_cx c))) as [x|] eqn:E; [|cbn; eauto].
    specialize (N x eq_refl). cbn [option_map opt_traverse]. unfold pa_of_var, pa_from_string. cbn [val def of_variable].
    destruct (split_space_separated x) as [|y l]; [easy|]. cbn. eauto. }
  destruct Ru as (p & Ru). rewrite bindM_eq. unfold lift at 1. rewrite Ru.
  do 2 (rewrite bindM_eq; unfold lift at 1; rewrite R by (cbn; auto 10)).
  now rewrite bindM_eq, Rc.
Qed.

(** ** Tools *)
Section Tools.
Context (pr : profile) (w : world) (c : econfig).
Let cx := ec_cx c.
Let b := ec_build c.
Context (found : nat -> str -> Prop) (found_mono : forall n m p, n <= m -> found n p -> found m p)
        (found_now : forall n m, n <= m -> found m (os_compiler os suffix w c n)).

Lemma rustc_host_err s e s' : OsQueryProof.told w c found s -> os_rustc_host os suffix pr w cx b s = (Err e, s') ->
  exists n cmd, s_clock s <= n /\ asked_rustc found b n cmd
  /\ tool_problem w (tells_host tells_rustc) cmd n e
  /\ s_clock s' = S n /\ s_trace s' = cmd :: s_trace s.
Proof.
  intros T. unfold os_rustc_host. destruct (for_version_ok os suffix w c s) as (r & s0 & E0).
  change (os_rustc_for_version os suffix w cx b s = (Ok r, s0)) in E0. rewrite bindM_eq, E0.
  destruct (for_version_told os suffix w c found found_mono found_now s r s0 T E0) as (T0 & Q & F1 & F2 & F3 & G0).
  assert (Tr0 : s_trace s0 = s_trace s).
  { revert E0. unfold os_rustc_for_version, os_base_rustc, os_ask_rustc, bindM, ask_exists, ret. destruct (eb_rustc b); intros [= _ <-]; reflexivity. }
  set (cmd := mkCommand (epa_path r) (epa_args r ++ [B "-vV"])) in *. intros H. exists (s_clock s0), cmd.
  split; [apply G0|]. split; [exact Q|]. rewrite bindM_eq in H. rewrite <- Tr0.
  destruct (verbose_version w r s0) as [[vv|e'|q] s1] eqn:V; [| |discriminate].
  - apply (verbose_ok w _ cmd) in V as (Ec & R & Ck & Tr); [|reflexivity].
    rewrite bind_lift in H. destruct (rustc_version_of vv) as [v|e'|q] eqn:Hv; [| |discriminate].
    + rewrite bindM_eq in H.
      assert (St : s_clock (snd (store_rustc_version pr v s1)) = s_clock s1 /\ s_trace (snd (store_rustc_version pr v s1)) = s_trace s1
                   /\ forall x, fst (store_rustc_version pr v s1) <> Err x).
      { destruct (store_rv_cases pr v s1) as [(_ & ->)|[(_ & _ & ->)|(_ & _ & ->)]]; now cbn. }
      destruct (store_rustc_version pr v s1) as [[u|e'|q] s2]; cbn [fst snd] in St; [|now destruct (proj2 (proj2 St) e')|discriminate].
      unfold lift in H. injection H as H <-. apply host_err in H as [N ->]. rewrite Ec. split.
      * apply unclear_problem; [assumption|]. intros (_ & h & K). now apply (N h).
      * destruct St as (-> & -> & _). now split.
    + injection H as <- <-. apply rustc_version_err in Hv as [N ->]. rewrite Ec. split; [|now split].
      apply unclear_problem; [assumption|]. intros (K & _). now apply N.
  - injection H as <- <-. now apply (verbose_err w _ r).
Qed.

(** The host: cargo did not tell it, and neither did rustc. *)
Lemma host_query_err s e s' : OsQueryProof.told w c found s -> os_cx_host_triple os suffix pr w cx b s = (Err e, s') ->
  s_host s = None /\ exists m e' n cmd, m = s_clock s /\ m < n
  /\ tool_problem w (tells_host tells_cargo) (asked_cargo (cx_cargo cx)) m e'
  /\ asked_rustc found b n cmd /\ tool_problem w (tells_host tells_rustc) cmd n e
  /\ s_clock s' = S n /\ s_trace s' = cmd :: asked_cargo (cx_cargo cx) :: s_trace s.
Proof.
  intros T H. unfold os_cx_host_triple in H. rewrite bindM_eq in H. cbn [get] in H.
  destruct (s_host s) as [h|] eqn:Eh; [discriminate|]. split; [reflexivity|].
  assert (N0 := OsQueryProof.told_no_host _ _ _ s T Eh). rewrite bindM_eq in H. unfold or_else in H.
  destruct (cargo_host_told pr w c found found_mono s T N0) as (T1 & _). fold cx b in T1.
  change (cargo_host pr w (ec_cx c) s) with (cargo_host pr w cx s) in T1.
  destruct (cargo_host pr w cx s) as [[h|e'|q] s1] eqn:Ec; [discriminate H| |discriminate H].
  apply (cargo_host_err pr w c) in Ec as (P & Ck & Tr). cbn [snd] in T1.
  destruct (os_rustc_host os suffix pr w cx b s1) as [[h|e2|q] s2] eqn:Er; [discriminate H| |discriminate H].
  injection H as <- <-. apply rustc_host_err in Er as (n & cmd & Le & Q & P2 & Ck2 & Tr2); [|exact T1].
  exists (s_clock s), e', n, cmd. rewrite Tr2, Tr. repeat (split; [assumption || reflexivity || lia|]). reflexivity.
Qed.

Lemma rustc_version_query_err s e s' : OsQueryProof.told w c found s -> os_cx_rustc_version os suffix pr w cx b s = (Err e, s') ->
  s_rustc_version s = None /\ exists n cmd, s_clock s <= n
  /\ asked_rustc found b n cmd /\ tool_problem w tells_rustc cmd n e
  /\ s_clock s' = S n /\ exists before, s_trace s' = cmd :: before.
Proof.
  intros T H. unfold os_cx_rustc_version in H. rewrite bindM_eq in H. cbn [get] in H.
  destruct (s_rustc_version s) as [v|] eqn:Ev; [discriminate|]. split; [reflexivity|].
  rewrite bindM_eq in H. unfold ignore_err in H.
  destruct (host_told_result os suffix pr w c found found_mono found_now s T) as (T1 & G1 & _).
  change (os_cx_host_triple os suffix pr w (ec_cx c) (ec_build c) s) with (os_cx_host_triple os suffix pr w cx b s) in T1, G1.
  destruct (os_cx_host_triple os suffix pr w cx b s) as [x s1]. cbn [snd] in T1, G1.
  assert (Go : bindM get (fun s2 : state =>
      match s_rustc_version s2 with
      | Some v => ret v
      | None =>
          p <~ os_rustc_for_version os suffix w cx b;;
          vv <~ verbose_version w p;;
          v <~ lift (rustc_version_of vv);; _ <~ set_rustc_version v;; ret v
      end) s1 = (Err e, s')) by (destruct x; [exact H|exact H|discriminate H]).
  clear H. rewrite bindM_eq in Go. cbn [get] in Go. destruct (s_rustc_version s1) as [v|]; [discriminate|].
  destruct (for_version_ok os suffix w c s1) as (r & s2 & E2). change (os_rustc_for_version os suffix w cx b s1 = (Ok r, s2)) in E2.
  rewrite bindM_eq, E2 in Go. destruct (for_version_told os suffix w c found found_mono found_now s1 r s2 T1 E2) as (T2 & Q & _ & _ & _ & G2).
  set (cmd := mkCommand (epa_path r) (epa_args r ++ [B "-vV"])) in *. exists (s_clock s2), cmd.
  split; [destruct G1 as [G1 _], G2 as [G2 _]; lia|]. split; [exact Q|]. rewrite bindM_eq in Go.
  destruct (verbose_version w r s2) as [[vv|e'|q] s3] eqn:V; [| |discriminate].
  - apply (verbose_ok w _ cmd) in V as (Ec & R & Ck & Tr); [|reflexivity].
    rewrite bind_lift in Go. destruct (rustc_version_of vv) as [v|e'|q] eqn:Hv; [discriminate| |discriminate].
    injection Go as <- <-. apply rustc_version_err in Hv as [N ->]. rewrite Ec. split; [|split; eauto].
    now apply unclear_problem.
  - injection Go as <- <-. apply (verbose_err w tells_rustc r cmd) in V as (P & Ck & Tr); [|reflexivity]. eauto.
Qed.
Lemma cargo_version_query_err s e s' : OsQueryProof.told w c found s -> os_cx_cargo_version os suffix pr w cx b s = (Err e, s') ->
  s_cargo_version s = None /\ exists n, s_clock s <= n
  /\ tool_problem w tells_cargo (asked_cargo (cx_cargo cx)) n e
  /\ s_clock s' = S n /\ exists before, s_trace s' = asked_cargo (cx_cargo cx) :: before.
Proof.
  intros T H. unfold os_cx_cargo_version in H. rewrite bindM_eq in H. cbn [get] in H.
  destruct (s_cargo_version s) as [v|] eqn:Ev; [discriminate|]. split; [reflexivity|].
  rewrite bindM_eq in H. unfold ignore_err in H.
  destruct (host_told_result os suffix pr w c found found_mono found_now s T) as (T1 & G1 & _).
  change (os_cx_host_triple os suffix pr w (ec_cx c) (ec_build c) s) with (os_cx_host_triple os suffix pr w cx b s) in T1, G1.
  destruct (os_cx_host_triple os suffix pr w cx b s) as [x s1]. cbn [snd] in T1, G1.
  assert (Go : bindM get (fun s2 : state =>
      match s_cargo_version s2 with
      | Some v => ret v
      | None =>
          vv <~ verbose_version w (epa_new (cx_cargo cx));;
          v <~ lift (cargo_version_of vv);; _ <~ set_cargo_version v;; ret v
      end) s1 = (Err e, s')) by (destruct x; [exact H|exact H|discriminate H]).
  clear H. rewrite bindM_eq in Go. cbn [get] in Go. destruct (s_cargo_version s1) as [v|]; [discriminate|].
  exists (s_clock s1). split; [apply G1|]. rewrite bindM_eq in Go.
  destruct (verbose_version w (epa_new (cx_cargo cx)) s1) as [[vv|e'|q] s3] eqn:V; [| |discriminate].
  - apply (verbose_ok w _ (asked_cargo (cx_cargo cx))) in V as (Ec & R & Ck & Tr); [|reflexivity].
    rewrite bind_lift in Go. destruct (cargo_version_of vv) as [v|e'|q] eqn:Hv; [discriminate| |discriminate].
    injection Go as <- <-. apply cargo_version_err in Hv as [N ->]. rewrite Ec. split; [|split; eauto].
    now apply unclear_problem.
  - injection Go as <- <-. apply (verbose_err w tells_cargo _ (asked_cargo (cx_cargo cx))) in V as (P & Ck & Tr); [|reflexivity]. eauto.
Qed.
End Tools.
End Os.
