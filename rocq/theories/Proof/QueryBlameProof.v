(** Lemmas about the errors of queries. *)
From Verif.Model Require Import Base Str Path BMap Error Value De CfgExpr CfgError Triple EasyTypes Context ApplyEnv
  Load Process Resolve Easy ErrorText.
From Verif.Spec Require Import StrSpec ConfigSpec EnvSpec Utf8Spec CfgSpec TripleSpec TargetSpec QuerySpec
  ErrorSpec BlameSpec QueryBlameSpec.
From Verif.Proof Require Import StrFacts BMapFacts Utf8Proof EnvProof CfgProof CfgEvalProof CfgErrorProof ErrorProof
  TripleProof EnvVarsProof RootProof StateProof TargetProof TargetEnvProof VersionProof QueryProof BlameProof.
From Verif.Spec Require Import CfgErrorSpec TargetSpec QuerySpec ErrorSpec BlameSpec QueryBlameSpec.

(** ** Targets *)
Section Target.
Context (pr : profile) (w : world) (cx : context) (b : ebuild) (t : triple).

Lemma target_cfg_err s e s' : target_cfg w cx b t s = (Err e, s') ->
  cfg_get (cli_target t) (s_cfg s) = None /\
  exists rustc n, s_rustc s' = Some rustc /\ s_clock s' = S n
  /\ s_trace s' = cfg_question rustc (cli_target t) :: s_trace s
  /\ failure (cfg_question rustc (cli_target t)) (w_run w n (cfg_question rustc (cli_target t))) e.
Proof.
  unfold target_cfg. rewrite bindM_eq. cbn [get].
  destruct (cfg_get (cli_target t) (s_cfg s)) as [x|]; [discriminate|]. intros H. split; [reflexivity|].
  destruct (rustc_ok w (any_config cx b) s) as (r & s1 & Hr). change (cx_rustc w cx b s = (Ok r, s1)) in Hr.
  assert (T := cx_rustc_trace w cx b s). rewrite Hr in T. cbn [snd] in T.
  assert (K := cx_rustc_ok w (any_config cx b) _ _ _ Hr).
  rewrite bindM_eq, Hr, bindM_eq in H. unfold run_read in H.
  change (cfg_command r t) with (cfg_question r (cli_target t)) in H.
  destruct (read_outcome _ _) as [out|e'|p] eqn:E; [discriminate| |discriminate].
  injection H as <- <-. exists r, (s_clock s1). cbn. split; [assumption|]. split; [reflexivity|].
  split; [now rewrite T|]. now apply read_err.
Qed.

Lemma resolve_cfgs_err tables : keys_utf8 tables -> forall acc s e s',
  resolve_cfgs pr w cx b t tables acc s = (Err e, s') ->
  (exists pre k v post x pe, e = ECfgExprParse pe /\ tables = pre ++ (k, v) :: post /\ valid_keys pre
     /\ is_cfg k = true /\ ~ valid_cfg k /\ unwrapped k x /\ pe_original pe = x
     /\ explains x (pe_span pe) (pe_reason pe) /\ (~ has_cfg pre -> s' = s))
  \/ (exists pre k v post rustc n, tables = pre ++ (k, v) :: post /\ ~ has_cfg pre /\ is_cfg k = true /\ valid_cfg k
     /\ cfg_get (cli_target t) (s_cfg s) = None
     /\ s_rustc s' = Some rustc /\ s_clock s' = S n /\ s_trace s' = cfg_question rustc (cli_target t) :: s_trace s
     /\ failure (cfg_question rustc (cli_target t)) (w_run w n (cfg_question rustc (cli_target t))) e).
Proof.
  intros U. induction tables as [|[k v] tables IH]; intros acc s e s' H; [discriminate H|].
  assert (U' : keys_utf8 tables) by (intros k' v' I; apply (U k' v'); now right). specialize (IH U').
  assert (Uk := U k v (or_introl eq_refl)).
  cbn [resolve_cfgs] in H. rewrite is_cfg_starts in H. destruct (is_cfg k) eqn:K; cbn [negb] in H.
  - unfold eval_cfg in H. rewrite bindM_eq, bindM_eq in H. unfold lift at 1 in H.
    destruct (parse_cases pr k Uk) as (x & Ux & Vx & C).
    destruct (parse_expr pr k) as [ex|pe|p] eqn:Q; cbn [map_err] in H; [| |discriminate].
    + assert (Val : valid_cfg k) by (apply (parse_ok_accepted pr); [assumption|now rewrite Q]).
      rewrite bindM_eq in H. destruct (target_cfg w cx b t s) as [[c|e'|p] s1] eqn:Tc; [| |discriminate].
      * destruct (parse_eval_ok (E := error) logic_bool (cfg_pred c) pr k ex Uk Q) as (m & Ev).
        unfold lift in H. rewrite Ev in H. destruct acc as [[x1 x2] x3]. apply target_cfg_ok in Tc.
        apply IH in H as [(pre & k' & v' & post & x' & pe & He & -> & V & K' & Nv & Ux' & O & Ex & N)
                         |(pre & k' & v' & post & rustc & n & _ & _ & _ & _ & N & _)]; [|congruence].
        left. exists ((k, v) :: pre), k', v', post, x', pe. repeat (split; [assumption || reflexivity|]).
        split.
        { intros k0 v0 [[= <- <-]|I]; [auto|]. apply (V k0 v0 I). }
        repeat (split; [assumption|]). intros B. exfalso. apply B. exists k, v. cbn; auto.
      * injection H as <- <-. apply target_cfg_err in Tc as (N & rustc & n & E1 & E2 & E3 & F).
        right. exists [], k, v, tables, rustc, n. repeat (split; [assumption || reflexivity|]).
        split; [intros (? & ? & [] & _)|]. auto 10.
    + injection H as <- <-. left. exists [], k, v, tables, x, pe. split; [reflexivity|]. split; [reflexivity|].
      split; [intros ? ? []|]. split; [assumption|]. split.
      { intros (x' & roots & Ux' & A). rewrite (unwrapped_unique _ _ _ Ux' Ux) in A. apply (proj2 C). eauto. }
      split; [assumption|]. destruct (parse_explained pr k x pe Uk Ux Q). auto.
  - apply IH in H as [(pre & k' & v' & post & x' & pe & He & -> & V & K' & Nv & Ux' & O & Ex & N)
                     |(pre & k' & v' & post & rustc & n & -> & Nh & R)].
    + left. exists ((k, v) :: pre), k', v', post, x', pe. repeat (split; [assumption || reflexivity|]).
      split.
      { intros k0 v0 [[= <- <-]|I] K0; [congruence|]. now apply (V k0 v0 I). }
      repeat (split; [assumption|]). intros B. apply N. intros (k0 & v0 & I & K0). apply B. exists k0, v0. cbn; auto.
    + right. exists ((k, v) :: pre), k', v', post, rustc, n. split; [reflexivity|]. split; [|exact R].
      intros (k0 & v0 & [[= <- <-]|I] & K0); [congruence|]. apply Nh. now exists k0, v0.
Qed.

(** The variables of the target. *)
Definition heard {A} (env : env_map) (r : result A) (l : list (option str)) : Prop :=
  match r with
  | Ok _ => first_defined l = None
  | Err e => exists name v, first_defined l = Some name /\ env_get name env = Some v
             /\ target_complaint (tt_triple t) name v e
  | Panic _ => False
  end.
Lemma heard_var env key : heard env (cx_env_var env (target_variable (tt_triple t) key))
  [unreadable [text (target_variable (tt_triple t) key)] env].
Proof.
  set (n := target_variable (tt_triple t) key).
  unfold heard, unreadable, consulted, cx_env_var, to_str. cbn [map first_defined fst snd text].
  destruct (env_get n env) as [v|] eqn:E; [|reflexivity]. destruct (utf8_valid v) eqn:V; cbn; [reflexivity|].
  exists n, v. split; [reflexivity|]. split; [assumption|]. now constructor.
Qed.
Lemma heard_runner env : heard env (o <- cx_env_var env (target_variable (tt_triple t) (B "RUNNER")) ;; opt_traverse pa_of_var o)
  [unreadable [(target_variable (tt_triple t) (B "RUNNER"), snd browser)] env].
Proof.
  set (n := target_variable (tt_triple t) (B "RUNNER")).
  unfold heard, unreadable, consulted, cx_env_var, to_str. cbn [map first_defined fst snd text browser].
  destruct (env_get n env) as [v|] eqn:E; [|reflexivity]. destruct (utf8_valid v) eqn:V; cbn [bind opt_traverse].
  - unfold pa_of_var, pa_from_string. cbn [val def]. destruct (split_space_separated v); cbn [context_opt bind]; [|reflexivity].
    exists n, v. split; [reflexivity|]. split; [assumption|]. now constructor.
  - exists n, v. split; [reflexivity|]. split; [assumption|]. now constructor.
Qed.

Lemma resolve_target_err tables s e s' : keys_utf8 tables ->
  resolve_target pr w cx b tables t s = (Err e, s') -> target_problem w (cx_env cx) tables t s s' e.
Proof.
  intros U H. unfold resolve_target in H. cbv zeta in H. rewrite is_cfg_starts in H.
  destruct (is_cfg (tt_triple t)) eqn:C.
  { injection H as <- <-. now apply not_a_triple. }
  change (B "_LINKER") with (B "_" ++ B "LINKER") in H. change (B "_RUNNER") with (B "_" ++ B "RUNNER") in H.
  change (B "_RUSTFLAGS") with (B "_" ++ B "RUSTFLAGS") in H.
  change (B "_RUSTDOCFLAGS") with (B "_" ++ B "RUSTDOCFLAGS") in H.
  rewrite !target_var_name in H.
  assert (H1 := heard_var (cx_env cx) (B "LINKER")). assert (H2 := heard_runner (cx_env cx)).
  assert (H3 := heard_var (cx_env cx) (B "RUSTFLAGS")). assert (H4 := heard_var (cx_env cx) (B "RUSTDOCFLAGS")).
  assert (T : first_defined (target_turn (cx_env cx) (tt_triple t)) =
    match first_defined [unreadable [text (target_variable (tt_triple t) (B "LINKER"))] (cx_env cx)] with
    | Some n => Some n | None =>
    match first_defined [unreadable [(target_variable (tt_triple t) (B "RUNNER"), snd browser)] (cx_env cx)] with
    | Some n => Some n | None =>
    match first_defined [unreadable [text (target_variable (tt_triple t) (B "RUSTFLAGS"))] (cx_env cx)] with
    | Some n => Some n | None =>
    first_defined [unreadable [text (target_variable (tt_triple t) (B "RUSTDOCFLAGS"))] (cx_env cx)] end end end).
  { unfold target_turn. generalize (unreadable [text (target_variable (tt_triple t) (B "LINKER"))] (cx_env cx)).
    generalize (unreadable [(target_variable (tt_triple t) (B "RUNNER"), snd browser)] (cx_env cx)).
    generalize (unreadable [text (target_variable (tt_triple t) (B "RUSTFLAGS"))] (cx_env cx)).
    intros [x|] [y|] [z|]; reflexivity. }
  rewrite bindM_eq in H. unfold lift at 1 in H.
  destruct (cx_env_var (cx_env cx) (target_variable (tt_triple t) (B "LINKER"))) as [x1|e1|p1]; cbn [heard] in H1;
    [rewrite H1 in T|injection H as <- <-; destruct H1 as (n & v & D & G & Co); apply (variable_unreadable _ _ _ _ _ _ n v); auto;
     rewrite T, D; reflexivity|destruct H1].
  rewrite bindM_eq in H. unfold lift at 1 in H.
  destruct (cx_env_var (cx_env cx) (target_variable (tt_triple t) (B "RUNNER"))) as [x2|e1|p1]; cbn [heard bind] in H2;
    [|injection H as <- <-; destruct H2 as (n & v & D & G & Co); apply (variable_unreadable _ _ _ _ _ _ n v); auto;
     rewrite T, D; reflexivity|destruct H2].
  rewrite bindM_eq in H. unfold lift at 1 in H.
  destruct (opt_traverse pa_of_var x2) as [x3|e1|p1]; cbn [heard bind] in H2;
    [rewrite H2 in T|injection H as <- <-; destruct H2 as (n & v & D & G & Co); apply (variable_unreadable _ _ _ _ _ _ n v); auto;
     rewrite T, D; reflexivity|destruct H2].
  rewrite bindM_eq in H. unfold lift at 1 in H.
  destruct (cx_env_var (cx_env cx) (target_variable (tt_triple t) (B "RUSTFLAGS"))) as [x4|e1|p1]; cbn [heard] in H3;
    [rewrite H3 in T|injection H as <- <-; destruct H3 as (n & v & D & G & Co); apply (variable_unreadable _ _ _ _ _ _ n v); auto;
     rewrite T, D; reflexivity|destruct H3].
  rewrite bindM_eq in H. unfold lift at 1 in H.
  destruct (cx_env_var (cx_env cx) (target_variable (tt_triple t) (B "RUSTDOCFLAGS"))) as [x5|e1|p1]; cbn [heard] in H4;
    [rewrite H4 in T|injection H as <- <-; destruct H4 as (n & v & D & G & Co); apply (variable_unreadable _ _ _ _ _ _ n v); auto;
     rewrite T, D; reflexivity|destruct H4].
  rewrite bindM_eq in H.
  match type of H with context [resolve_cfgs pr w cx b t tables ?acc s] =>
    destruct (resolve_cfgs pr w cx b t tables acc s) as [[[[r1 r2] r3]|e'|q] s1] eqn:E end; [discriminate| |discriminate].
  injection H as <- <-. apply (resolve_cfgs_err tables U) in E.
  destruct E as [(pre & k' & v' & post & x' & pe & -> & Et & V & K' & Nv & Ux' & O & Ex & N)
                |(pre & k' & v' & post & rustc & n & Et & Nh & K' & Vk & N & E1 & E2 & E3 & F)].
  - now apply (key_invalid _ _ _ _ _ _ pre k' v' post x').
  - now apply (rustc_failed _ _ _ _ _ _ pre k' v' post rustc n).
Qed.
End Target.

#[local] Hint Resolve n_program n_epa : errs.
Lemma target_err conf cx c pr w q a t s e s' :
  from_unresolved conf cx = Ok c -> keys_utf8 (c_target conf) ->
  target_query q a -> to_triple a = Ok t -> run_query pr w c q s = (Err e, s') ->
  target_problem w (cx_env cx) (c_target conf) t s s' e.
Proof.
  intros Hc U Q Ht. destruct (from_unresolved_ok _ _ _ Hc) as (de & Ha & _ & _ & _ & Et & Ecx).
  rewrite (proj2 (proj2 (apply_env_env _ _ _ Ha))) in Et.
  rewrite (target_query_run _ _ _ _ _ _ Q). unfold q_target. rewrite bindM_assoc, bindM_eq.
  unfold lift at 1. rewrite Ht. unfold q_target_of. rewrite !bindM_eq. unfold init_target_config. rewrite bindM_eq.
  cbn [get]. destruct (bget (cli_target t) (s_target s)) as [x|] eqn:E.
  - unfold ret at 1. rewrite !bindM_eq. cbn [get]. rewrite E. discriminate.
  - rewrite bindM_eq. destruct (resolve_target _ _ _ _ _ _ _) as [[x|x|x] s1] eqn:R; [|intros [= <- <-]|discriminate].
    + rewrite bindM_eq. unfold lift at 1. assert (Nv : errs never (etarget_of (cx_current_dir (ec_cx c)) x)).
      { unfold etarget_of. walk. }
      destruct (etarget_of _ _) as [y|y|y] eqn:Ey; [|discriminate (Nv y eq_refl)|discriminate].
      cbn. rewrite bget_binsert, str_eqb_refl. discriminate.
    + rewrite Ecx, Et in R. now apply resolve_target_err in R.
Qed.

(** An unreadable variable always stops it. *)
Lemma target_turn_unreadable env triple name :
  first_defined (target_turn env triple) = Some name -> ~ target_vars_readable env triple.
Proof.
  intros H [R N]. unfold target_turn, unreadable, consulted in H. cbn [map first_defined fst snd text browser] in H.
  assert (X : forall key, In key [B "LINKER"; B "RUNNER"; B "RUSTFLAGS"; B "RUSTDOCFLAGS"] ->
    forall v, env_get (target_variable triple key) env = Some v -> utf8_valid v = true) by eauto.
  assert (X1 := X (B "LINKER") (or_introl eq_refl)).
  assert (X2 := X (B "RUNNER") (or_intror (or_introl eq_refl))).
  assert (X3 := X (B "RUSTFLAGS") (or_intror (or_intror (or_introl eq_refl)))).
  assert (X4 := X (B "RUSTDOCFLAGS") (or_intror (or_intror (or_intror (or_introl eq_refl))))).
  destruct (env_get (target_variable triple (B "LINKER")) env) as [v1|]; [rewrite (X1 v1 eq_refl) in H|];
  (destruct (env_get (target_variable triple (B "RUNNER")) env) as [v2|];
    [rewrite (X2 v2 eq_refl) in H; specialize (N v2 eq_refl); destruct (split_space_separated v2); [easy|]|]);
  (destruct (env_get (target_variable triple (B "RUSTFLAGS")) env) as [v3|]; [rewrite (X3 v3 eq_refl) in H|]);
  (destruct (env_get (target_variable triple (B "RUSTDOCFLAGS")) env) as [v4|]; [rewrite (X4 v4 eq_refl) in H|]);
  discriminate H.
Qed.
Lemma target_complaint_unique triple n v e e' : target_complaint triple n v e -> target_complaint triple n v e' -> e = e'.
Proof. intros [] C; inversion C; subst; congruence. Qed.

Lemma resolve_target_stopped pr w cx b tables t s name :
  is_cfg (tt_triple t) = false -> first_defined (target_turn (cx_env cx) (tt_triple t)) = Some name ->
  exists e, resolve_target pr w cx b tables t s = (Err e, s).
Proof.
  intros C D. unfold resolve_target. cbv zeta. rewrite is_cfg_starts, C.
  change (B "_LINKER") with (B "_" ++ B "LINKER"). change (B "_RUNNER") with (B "_" ++ B "RUNNER").
  change (B "_RUSTFLAGS") with (B "_" ++ B "RUSTFLAGS").
  change (B "_RUSTDOCFLAGS") with (B "_" ++ B "RUSTDOCFLAGS").
  rewrite !target_var_name.
  assert (H1 := heard_var t (cx_env cx) (B "LINKER")). assert (H2 := heard_runner t (cx_env cx)).
  assert (H3 := heard_var t (cx_env cx) (B "RUSTFLAGS")). assert (H4 := heard_var t (cx_env cx) (B "RUSTDOCFLAGS")).
  unfold target_turn in D.
  assert (Sp : forall (x : option str) l, first_defined (x :: l) = match first_defined [x] with Some n => Some n | None => first_defined l end)
    by (intros [x|] l; reflexivity).
  rewrite Sp in D.
  rewrite bindM_eq; unfold lift at 1.
  destruct (cx_env_var (cx_env cx) (target_variable (tt_triple t) (B "LINKER"))) as [x1|e1|p1]; cbn [heard] in H1;
    [rewrite H1 in D|eauto|destruct H1].
  rewrite Sp in D. rewrite bindM_eq; unfold lift at 1.
  destruct (cx_env_var (cx_env cx) (target_variable (tt_triple t) (B "RUNNER"))) as [x2|e1|p1]; cbn [heard bind] in H2;
    [|eauto|destruct H2].
  rewrite bindM_eq; unfold lift at 1.
  destruct (opt_traverse pa_of_var x2) as [x3|e1|p1]; cbn [heard bind] in H2; [rewrite H2 in D|eauto|destruct H2].
  rewrite Sp in D. rewrite bindM_eq; unfold lift at 1.
  destruct (cx_env_var (cx_env cx) (target_variable (tt_triple t) (B "RUSTFLAGS"))) as [x4|e1|p1]; cbn [heard] in H3;
    [rewrite H3 in D|eauto|destruct H3].
  rewrite bindM_eq; unfold lift at 1.
  destruct (cx_env_var (cx_env cx) (target_variable (tt_triple t) (B "RUSTDOCFLAGS"))) as [x5|e1|p1]; cbn [heard] in H4;
    [congruence|eauto|destruct H4].
Qed.

(** A query that has to resolve the target fails as that does. *)
Lemma target_query_fresh pr w c q a t s e s' :
  target_query q a -> to_triple a = Ok t -> bget (cli_target t) (s_target s) = None ->
  resolve_target pr w (ec_cx c) (ec_build c) (ec_de_target c) t s = (Err e, s') ->
  run_query pr w c q s = (Err e, s').
Proof.
  intros Q Ht E R. rewrite (target_query_run _ _ _ _ _ _ Q). unfold q_target. rewrite bindM_assoc, bindM_eq.
  unfold lift at 1. rewrite Ht. unfold q_target_of. rewrite !bindM_eq. unfold init_target_config. rewrite bindM_eq.
  cbn [get]. rewrite E, bindM_eq, R. reflexivity.
Qed.

Lemma target_variable_err conf cx c pr w q a t s name v e :
  from_unresolved conf cx = Ok c -> keys_utf8 (c_target conf) ->
  reached pr w c s -> target_query q a -> real_arg a -> to_triple a = Ok t ->
  is_cfg (tt_triple t) = false ->
  first_defined (target_turn (cx_env cx) (tt_triple t)) = Some name -> env_get name (cx_env cx) = Some v ->
  target_complaint (tt_triple t) name v e ->
  run_query pr w c q s = (Err e, s).
Proof.
  intros Hc U Rs Q Ra Ht C D G Co.
  destruct (from_unresolved_ok _ _ _ Hc) as (de & Ha & _ & _ & _ & Et & Ecx).
  assert (R : exists e', run_query pr w c q s = (Err e', s)).
  { destruct (resolve_target_stopped pr w (ec_cx c) (ec_build c) (ec_de_target c) t s name) as (e' & R); [assumption|congruence|].
    exists e'. apply (target_query_fresh pr w c q a t); auto.
    destruct (bget (cli_target t) (s_target s)) as [x|] eqn:E; [exfalso|reflexivity].
    destruct (reached_known _ _ _ _ Rs) as [_ K]. destruct (K _ _ E) as (t0 & s1 & s2 & r & M0 & E0 & H1 & _).
    assert (t0 = t) as -> by (apply made_unique; eauto using real_arg_made).
    destruct (resolve_target_stopped pr w (ec_cx c) (ec_build c) (ec_de_target c) t s1 name) as (e'' & R'');
      [assumption|congruence|congruence]. }
  destruct R as (e' & R). rewrite R. f_equal. f_equal.
  apply (target_err conf cx c pr w q a t s e' s Hc U Q Ht) in R.
  destruct R as [C'|n' v' e' C' _ D' G' Co'|pre k v' post x e' C' D' _ _ _ _ _ _ _ _|pre k v' post rustc n e' C' D' _ _ _ _ _ _ _ _ _];
    try congruence.
  assert (n' = name) by congruence. subst n'. assert (v' = v) by congruence. subst v'.
  exact (target_complaint_unique _ _ _ _ _ Co' Co).
Qed.

(** rustc that fails is reported if nothing else is wrong before. *)
Lemma target_rustc_err conf cx c pr w q a t s pre k v post r s1 e :
  from_unresolved conf cx = Ok c -> keys_utf8 (c_target conf) -> overflow_checks pr = false ->
  target_query q a -> to_triple a = Ok t -> is_cfg (tt_triple t) = false ->
  target_vars_readable (cx_env cx) (tt_triple t) ->
  c_target conf = pre ++ (k, v) :: post -> ~ has_cfg pre -> is_cfg k = true -> valid_cfg k ->
  bget (cli_target t) (s_target s) = None -> cfg_get (cli_target t) (s_cfg s) = None ->
  run_query pr w c QRustc s = (Ok (AProgram r), s1) ->
  failure (cfg_question r (cli_target t)) (w_run w (s_clock s1) (cfg_question r (cli_target t))) e ->
  fst (run_query pr w c q s) = Err e.
Proof.
  intros Hc U O Q Ht C V Et Np K Val Eb Eg Hr F.
  destruct (from_unresolved_ok _ _ _ Hc) as (de & Ha & _ & _ & _ & Ec & Ecx).
  rewrite (proj2 (proj2 (apply_env_env _ _ _ Ha))) in Ec.
  assert (Uk : utf8_valid k = true) by (apply (U k v); rewrite Et; apply in_elt).
  assert (Pk := accepted_parse_ok pr k Uk O Val).
  destruct (parse_expr pr k) as [ex| |] eqn:P; try discriminate Pk.
  cbn [run_query] in Hr. unfold mapM, q_rustc in Hr. apply bindM_ok in Hr as (r' & s2 & Hr & E). injection E as -> <-.
  apply read_err in F.
  assert (Tc : exists s3, target_cfg w (ec_cx c) (ec_build c) t s = (Err e, s3)).
  { unfold target_cfg. rewrite bindM_eq. cbn [get]. rewrite Eg, bindM_eq, Hr, bindM_eq. unfold run_read.
    change (cfg_command r t) with (cfg_question r (cli_target t)). rewrite F. eauto. }
  destruct Tc as (s3 & Tc).
  assert (Rc : forall acc, resolve_cfgs pr w (ec_cx c) (ec_build c) t (pre ++ (k, v) :: post) acc s = (Err e, s3)).
  { clear Et. induction pre as [|[k0 v0] pre IH]; intros acc.
    - cbn [app resolve_cfgs]. rewrite is_cfg_starts, K. cbn [negb]. unfold eval_cfg.
      rewrite bindM_eq, bindM_eq. unfold lift at 1. rewrite P. cbn [map_err]. now rewrite bindM_eq, Tc.
    - cbn [app resolve_cfgs]. rewrite is_cfg_starts. destruct (is_cfg k0) eqn:K0.
      + exfalso. apply Np. exists k0, v0. cbn; auto.
      + cbn [negb]. apply IH. intros (k1 & v1 & I & K1). apply Np. exists k1, v1. cbn; auto. }
  assert (R : resolve_target pr w (ec_cx c) (ec_build c) (ec_de_target c) t s = (Err e, s3)).
  2:{ now rewrite (target_query_fresh pr w c q a t s e s3 Q Ht Eb R). }
  rewrite Ec, Et. destruct V as [V N]. unfold resolve_target. cbv zeta. rewrite is_cfg_starts, C, Ecx.
  rewrite Ecx in Rc.
  change (B "_LINKER") with (B "_" ++ B "LINKER"). change (B "_RUNNER") with (B "_" ++ B "RUNNER").
  change (B "_RUSTFLAGS") with (B "_" ++ B "RUSTFLAGS").
  change (B "_RUSTDOCFLAGS") with (B "_" ++ B "RUSTDOCFLAGS").
  rewrite !target_var_name.
  assert (R : forall key, In key [B "LINKER"; B "RUNNER"; B "RUSTFLAGS"; B "RUSTDOCFLAGS"] ->
              cx_env_var (cx_env cx) (target_variable (tt_triple t) key)
              = Ok (option_map (of_variable (target_variable (tt_triple t) key))
                      (env_get (target_variable (tt_triple t) key) (cx_env cx)))).
  { intros key I. destruct (proj2 (env_var_iff (cx_env cx) (target_variable (tt_triple t) key))) as (o & E).
    - intros x. now apply V.
    - rewrite E. apply env_var_ok in E as [-> _]. reflexivity. }
  do 2 (rewrite bindM_eq; unfold lift at 1; rewrite R by (cbn; auto)).
  assert (Ru : exists p, opt_traverse pa_of_var
              (option_map (of_variable (target_variable (tt_triple t) (B "RUNNER")))
                 (env_get (target_variable (tt_triple t) (B "RUNNER")) (cx_env cx))) = Ok p).
  { destruct (env_get (target_variable (tt_triple t) (B "RUNNER")) (cx_env cx)) as [x|] eqn:E; [|cbn; eauto].
    specialize (N x eq_refl). cbn [option_map opt_traverse]. unfold pa_of_var, pa_from_string. cbn [val def of_variable].
    destruct (split_space_separated x) as [|y l]; [easy|]. cbn. eauto. }
  destruct Ru as (p & Ru). rewrite bindM_eq. unfold lift at 1. rewrite Ru.
  do 2 (rewrite bindM_eq; unfold lift at 1; rewrite R by (cbn; auto 10)).
  now rewrite bindM_eq, Rc.
Qed.

(** ** Tools *)
Section Tools.
Context (pr : profile) (w : world) (c : econfig).
Let cx := ec_cx c.
Let b := ec_build c.

Lemma run_problem tells cmd s e s' : run_read w cmd s = (Err e, s') ->
  tool_problem w tells cmd (s_clock s) e /\ s_clock s' = S (s_clock s) /\ s_trace s' = cmd :: s_trace s.
Proof. intros [= H <-]. split; [left; now apply read_err|]. now split. Qed.
Lemma unclear_problem (tells : str -> Prop) cmd n out :
  read_outcome cmd (w_run w n cmd) = Ok out -> ~ tells out -> tool_problem w tells cmd n (unclear cmd out).
Proof.
  intros H N. apply read_ok in H as (status & o & err & H & U & W). now apply (tool_unclear w tells cmd n status o err).
Qed.
Lemma unexpected_unclear {A} (out : str) (cmd : command) :
  unexpected_version (A := A) (out, cmd) = Err (unclear cmd out).
Proof. unfold unexpected_version, unclear, bail. cbn [fst snd]. now rewrite shown_iff. Qed.

Lemma verbose_err tells p cmd s e s' : cmd = mkCommand (epa_path p) (epa_args p ++ [B "-vV"]) ->
  verbose_version w p s = (Err e, s') ->
  tool_problem w tells cmd (s_clock s) e /\ s_clock s' = S (s_clock s) /\ s_trace s' = cmd :: s_trace s.
Proof.
  intros E. unfold verbose_version. cbv zeta. rewrite <- E, bindM_eq.
  destruct (run_read w cmd s) as [[out|e'|q] s1] eqn:H; intros [= <- <-]. now apply run_problem.
Qed.
Lemma verbose_ok p cmd s vv s' : cmd = mkCommand (epa_path p) (epa_args p ++ [B "-vV"]) ->
  verbose_version w p s = (Ok vv, s') ->
  snd vv = cmd /\ read_outcome cmd (w_run w (s_clock s) cmd) = Ok (fst vv)
  /\ s_clock s' = S (s_clock s) /\ s_trace s' = cmd :: s_trace s.
Proof.
  intros E. unfold verbose_version. cbv zeta. rewrite <- E, bindM_eq.
  destruct (run_read w cmd s) as [[out|e'|q] s1] eqn:H; intros [= <- <-]. injection H as H <-. now cbn.
Qed.
Lemma cargo_version_err vv e : cargo_version_of vv = Err e -> ~ tells_cargo (fst vv) /\ e = unclear (snd vv) (fst vv).
Proof.
  intros H. split.
  - intros (v & K). apply cargo_version_iff in K. congruence.
  - unfold cargo_version_of in H. destruct vv as [out cmd]. rewrite unexpected_unclear in H. cbn [fst snd] in *.
    destruct (parse_version out) as [[[[x y] [z|]] n]|]; congruence.
Qed.
Lemma rustc_version_err vv e : rustc_version_of vv = Err e -> ~ tells_rustc (fst vv) /\ e = unclear (snd vv) (fst vv).
Proof.
  intros H. split.
  - intros (v & K). apply rustc_version_iff in K. congruence.
  - unfold rustc_version_of in H. destruct vv as [out cmd]. rewrite unexpected_unclear in H. cbn [fst snd] in *.
    destruct (parse_version out) as [[[[x y] z] n]|]; congruence.
Qed.
Lemma host_err vv e : host_of vv = Err e -> (forall h, ~ says_host (fst vv) h) /\ e = unclear (snd vv) (fst vv).
Proof.
  intros H. split.
  - intros h K. apply host_iff in K. congruence.
  - unfold host_of in H. destruct vv as [out cmd]. rewrite unexpected_unclear in H. cbn [fst snd] in *.
    destruct (find_prefix _ _); congruence.
Qed.

Lemma cargo_host_err s e s' : cargo_host pr w cx s = (Err e, s') ->
  tool_problem w (tells_host tells_cargo) (cargo_question cx) (s_clock s) e
  /\ s_clock s' = S (s_clock s) /\ s_trace s' = cargo_question cx :: s_trace s.
Proof.
  unfold cargo_host. rewrite bindM_eq.
  destruct (verbose_version w (epa_new (cx_cargo cx)) s) as [[vv|e'|q] s1] eqn:V; intros H; [| |discriminate].
  - apply (verbose_ok _ (cargo_question cx)) in V as (Ec & R & Ck & Tr); [|reflexivity].
    rewrite bind_lift in H. destruct (cargo_version_of vv) as [v|e'|q] eqn:Hv; [| |discriminate].
    + rewrite bindM_eq in H.
      assert (St : s_clock (snd (store_cargo_version pr v s1)) = s_clock s1 /\ s_trace (snd (store_cargo_version pr v s1)) = s_trace s1
                   /\ forall x, fst (store_cargo_version pr v s1) <> Err x).
      { destruct (store_cv_cases pr v s1) as [(_ & ->)|[(_ & _ & ->)|(_ & _ & ->)]]; now cbn. }
      destruct (store_cargo_version pr v s1) as [[u|e'|q] s2]; cbn [fst snd] in St; [|now destruct (proj2 (proj2 St) e')|discriminate].
      unfold lift in H. injection H as H <-. apply host_err in H as [N ->]. rewrite Ec. split.
      * apply unclear_problem; [assumption|]. intros (_ & h & K). now apply (N h).
      * destruct St as (-> & -> & _). now split.
    + injection H as <- <-. apply cargo_version_err in Hv as [N ->]. rewrite Ec. split; [|now split].
      apply unclear_problem; [assumption|]. intros (K & _). now apply N.
  - injection H as <- <-. now apply (verbose_err _ (epa_new (cx_cargo cx))).
Qed.

Lemma rustc_host_err s e s' : QueryProof.told w c s -> rustc_host pr w cx b s = (Err e, s') ->
  exists n cmd, s_clock s <= n /\ rustc_question w cx b n cmd
  /\ tool_problem w (tells_host tells_rustc) cmd n e
  /\ s_clock s' = S n /\ s_trace s' = cmd :: s_trace s.
Proof.
  intros T. unfold rustc_host. destruct (for_version_ok w c s) as (r & s0 & E0).
  change (rustc_for_version w cx b s = (Ok r, s0)) in E0. rewrite bindM_eq, E0.
  destruct (for_version_told w c s r s0 T E0) as (T0 & Q & F1 & F2 & F3 & G0).
  assert (Tr0 : s_trace s0 = s_trace s).
  { revert E0. unfold rustc_for_version, base_rustc, rustc_path, bindM, ask_exists, ret. destruct (eb_rustc b); intros [= _ <-]; reflexivity. }
  set (cmd := mkCommand (epa_path r) (epa_args r ++ [B "-vV"])) in *. intros H. exists (s_clock s0), cmd.
  split; [apply G0|]. split; [exact Q|]. rewrite bindM_eq in H. rewrite <- Tr0.
  destruct (verbose_version w r s0) as [[vv|e'|q] s1] eqn:V; [| |discriminate].
  - apply (verbose_ok _ cmd) in V as (Ec & R & Ck & Tr); [|reflexivity].
    rewrite bind_lift in H. destruct (rustc_version_of vv) as [v|e'|q] eqn:Hv; [| |discriminate].
    + rewrite bindM_eq in H.
      assert (St : s_clock (snd (store_rustc_version pr v s1)) = s_clock s1 /\ s_trace (snd (store_rustc_version pr v s1)) = s_trace s1
                   /\ forall x, fst (store_rustc_version pr v s1) <> Err x).
      { destruct (store_rv_cases pr v s1) as [(_ & ->)|[(_ & _ & ->)|(_ & _ & ->)]]; now cbn. }
      destruct (store_rustc_version pr v s1) as [[u|e'|q] s2]; cbn [fst snd] in St; [|now destruct (proj2 (proj2 St) e')|discriminate].
      unfold lift in H. injection H as H <-. apply host_err in H as [N ->]. rewrite Ec. split.
      * apply unclear_problem; [assumption|]. intros (_ & h & K). now apply (N h).
      * destruct St as (-> & -> & _). now split.
    + injection H as <- <-. apply rustc_version_err in Hv as [N ->]. rewrite Ec. split; [|now split].
      apply unclear_problem; [assumption|]. intros (K & _). now apply N.
  - injection H as <- <-. now apply (verbose_err _ r).
Qed.

(** The host: cargo did not tell it, and neither did rustc. *)
Lemma host_query_err s e s' : QueryProof.told w c s -> cx_host_triple pr w cx b s = (Err e, s') ->
  s_host s = None /\ exists m e' n cmd, m = s_clock s /\ m < n
  /\ tool_problem w (tells_host tells_cargo) (cargo_question cx) m e'
  /\ rustc_question w cx b n cmd /\ tool_problem w (tells_host tells_rustc) cmd n e
  /\ s_clock s' = S n /\ s_trace s' = cmd :: cargo_question cx :: s_trace s.
Proof.
  intros T H. unfold cx_host_triple in H. rewrite bindM_eq in H. cbn [get] in H.
  destruct (s_host s) as [h|] eqn:Eh; [discriminate|]. split; [reflexivity|].
  assert (N0 := QueryProof.told_no_host _ _ s T Eh). rewrite bindM_eq in H. unfold or_else in H.
  destruct (cargo_host_told pr w c s T N0) as (T1 & _). fold cx b in T1.
  change (cargo_host pr w (ec_cx c) s) with (cargo_host pr w cx s) in T1.
  destruct (cargo_host pr w cx s) as [[h|e'|q] s1] eqn:Ec; [discriminate H| |discriminate H].
  apply cargo_host_err in Ec as (P & Ck & Tr). cbn [snd] in T1.
  destruct (rustc_host pr w cx b s1) as [[h|e2|q] s2] eqn:Er; [discriminate H| |discriminate H].
  injection H as <- <-. apply rustc_host_err in Er as (n & cmd & Le & Q & P2 & Ck2 & Tr2); [|exact T1].
  exists (s_clock s), e', n, cmd. rewrite Tr2, Tr. repeat (split; [assumption || reflexivity || lia|]). reflexivity.
Qed.

Lemma rustc_version_query_err s e s' : QueryProof.told w c s -> cx_rustc_version pr w cx b s = (Err e, s') ->
  s_rustc_version s = None /\ exists n cmd, s_clock s <= n
  /\ rustc_question w cx b n cmd /\ tool_problem w tells_rustc cmd n e
  /\ s_clock s' = S n /\ exists before, s_trace s' = cmd :: before.
Proof.
  intros T H. unfold cx_rustc_version in H. rewrite bindM_eq in H. cbn [get] in H.
  destruct (s_rustc_version s) as [v|] eqn:Ev; [discriminate|]. split; [reflexivity|].
  rewrite bindM_eq in H. unfold ignore_err in H.
  destruct (host_told_result pr w c s T) as (T1 & G1 & _).
  change (cx_host_triple pr w (ec_cx c) (ec_build c) s) with (cx_host_triple pr w cx b s) in T1, G1.
  destruct (cx_host_triple pr w cx b s) as [x s1]. cbn [snd] in T1, G1.
  assert (Go : bindM get (fun s2 : state =>
      match s_rustc_version s2 with
      | Some v => ret v
      | None =>
          p <~ rustc_for_version w cx b;;
          vv <~ verbose_version w p;;
          v <~ lift (rustc_version_of vv);; _ <~ set_rustc_version v;; ret v
      end) s1 = (Err e, s')) by (destruct x; [exact H|exact H|discriminate H]).
  clear H. rewrite bindM_eq in Go. cbn [get] in Go. destruct (s_rustc_version s1) as [v|]; [discriminate|].
  destruct (for_version_ok w c s1) as (r & s2 & E2). change (rustc_for_version w cx b s1 = (Ok r, s2)) in E2.
  rewrite bindM_eq, E2 in Go. destruct (for_version_told w c s1 r s2 T1 E2) as (T2 & Q & _ & _ & _ & G2).
  set (cmd := mkCommand (epa_path r) (epa_args r ++ [B "-vV"])) in *. exists (s_clock s2), cmd.
  split; [destruct G1 as [G1 _], G2 as [G2 _]; lia|]. split; [exact Q|]. rewrite bindM_eq in Go.
  destruct (verbose_version w r s2) as [[vv|e'|q] s3] eqn:V; [| |discriminate].
  - apply (verbose_ok _ cmd) in V as (Ec & R & Ck & Tr); [|reflexivity].
    rewrite bind_lift in Go. destruct (rustc_version_of vv) as [v|e'|q] eqn:Hv; [discriminate| |discriminate].
    injection Go as <- <-. apply rustc_version_err in Hv as [N ->]. rewrite Ec. split; [|split; eauto].
    now apply unclear_problem.
  - injection Go as <- <-. apply (verbose_err tells_rustc r cmd) in V as (P & Ck & Tr); [|reflexivity]. eauto.
Qed.
Lemma cargo_version_query_err s e s' : QueryProof.told w c s -> cx_cargo_version pr w cx b s = (Err e, s') ->
  s_cargo_version s = None /\ exists n, s_clock s <= n
  /\ tool_problem w tells_cargo (cargo_question cx) n e
  /\ s_clock s' = S n /\ exists before, s_trace s' = cargo_question cx :: before.
Proof.
  intros T H. unfold cx_cargo_version in H. rewrite bindM_eq in H. cbn [get] in H.
  destruct (s_cargo_version s) as [v|] eqn:Ev; [discriminate|]. split; [reflexivity|].
  rewrite bindM_eq in H. unfold ignore_err in H.
  destruct (host_told_result pr w c s T) as (T1 & G1 & _).
  change (cx_host_triple pr w (ec_cx c) (ec_build c) s) with (cx_host_triple pr w cx b s) in T1, G1.
  destruct (cx_host_triple pr w cx b s) as [x s1]. cbn [snd] in T1, G1.
  assert (Go : bindM get (fun s2 : state =>
      match s_cargo_version s2 with
      | Some v => ret v
      | None =>
          vv <~ verbose_version w (epa_new (cx_cargo cx));;
          v <~ lift (cargo_version_of vv);; _ <~ set_cargo_version v;; ret v
      end) s1 = (Err e, s')) by (destruct x; [exact H|exact H|discriminate H]).
  clear H. rewrite bindM_eq in Go. cbn [get] in Go. destruct (s_cargo_version s1) as [v|]; [discriminate|].
  exists (s_clock s1). split; [apply G1|]. rewrite bindM_eq in Go.
  destruct (verbose_version w (epa_new (cx_cargo cx)) s1) as [[vv|e'|q] s3] eqn:V; [| |discriminate].
  - apply (verbose_ok _ (cargo_question cx)) in V as (Ec & R & Ck & Tr); [|reflexivity].
    rewrite bind_lift in Go. destruct (cargo_version_of vv) as [v|e'|q] eqn:Hv; [discriminate| |discriminate].
    injection Go as <- <-. apply cargo_version_err in Hv as [N ->]. rewrite Ec. split; [|split; eauto].
    now apply unclear_problem.
  - injection Go as <- <-. apply (verbose_err tells_cargo _ (cargo_question cx)) in V as (P & Ck & Tr); [|reflexivity]. eauto.
Qed.
End Tools.

(** ** Texts *)
Lemma failure_names io dbg cmd o e : failure cmd o e -> mentions (shown cmd) (error_text io dbg e).
Proof.
  intros [k|status out err N|status out err o' e' Ho He]; cbn [error_text msg_text].
  - do 2 eexists. reflexivity.
  - apply mentions_end.
  - do 2 eexists. reflexivity.
Qed.
Lemma tool_names io dbg w tells cmd n e : tool_problem w tells cmd n e -> mentions (shown cmd) (error_text io dbg e).
Proof.
  intros [e' F|status out err text _ _ _ _].
  - now apply (failure_names io dbg cmd (w_run w n cmd)).
  - cbn [error_text msg_text unclear]. do 2 eexists. reflexivity.
Qed.
Lemma target_names io dbg w env tables t s s' e : target_problem w env tables t s s' e ->
  (exists v, env_get (target_variable (tt_triple t) (B "RUNNER")) env = Some v /\ split_space_separated v = [])
  \/ exists what, mentions what (error_text io dbg e) /\
     (what = tt_triple t
      \/ first_defined (map (option_map quoted_name) (target_turn env (tt_triple t))) = Some what
      \/ (exists k v, In (k, v) tables /\ is_cfg k = true /\ ~ valid_cfg k /\ unwrapped k what)
      \/ (exists cmd, In cmd (s_trace s') /\ what = shown cmd)).
Proof.
  intros P. destruct P as [C _|name v e C _ D G Co|pre k v post x e C D -> V K Nv Ux O Ex N
                          |pre k v post rustc n e C D -> Np K Vk Eg E1 E2 E3 F].
  - right. exists (tt_triple t). split; [|auto]. cbn [error_text msg_text]. do 2 eexists. reflexivity.
  - assert (Dm : forall l, first_defined (map (option_map quoted_name) l) = option_map quoted_name (first_defined l)).
    { induction l as [|[x|] l IH]; [reflexivity|reflexivity|exact IH]. }
    destruct Co as [name v U|v U].
    + right. exists (quoted_name name). split; [apply mentions_end|]. right. left. now rewrite Dm, D.
    + left. exists v. split; [assumption|].
      unfold target_turn, unreadable, consulted in D. cbn [map first_defined fst snd text browser] in D.
      rewrite G, U in D. destruct (split_space_separated v); [reflexivity|exfalso].
      assert (Ne : forall k, k <> B "RUNNER" -> target_variable (tt_triple t) k <> target_variable (tt_triple t) (B "RUNNER")).
      { intros k Nk E. apply Nk. unfold target_variable in E. do 3 apply app_inv_head in E. exact E. }
      destruct (env_get (target_variable (tt_triple t) (B "LINKER")) env) as [v1|]; [destruct (utf8_valid v1)|];
        try (apply (Ne (B "LINKER")); [discriminate|congruence]);
      (destruct (env_get (target_variable (tt_triple t) (B "RUSTFLAGS")) env) as [v3|]; [destruct (utf8_valid v3)|]);
        try (apply (Ne (B "RUSTFLAGS")); [discriminate|congruence]);
      (destruct (env_get (target_variable (tt_triple t) (B "RUSTDOCFLAGS")) env) as [v4|]; [destruct (utf8_valid v4)|]);
        try (apply (Ne (B "RUSTDOCFLAGS")); [discriminate|congruence]); discriminate D.
  - right. exists x. split.
    + cbn [error_text]. unfold parse_error_text. destruct (pe_span e) as [a z]. rewrite O. exists []. eexists. reflexivity.
    + right. right. left. exists k, v. split; [apply in_elt|auto].
  - right. exists (shown (cfg_question rustc (cli_target t))). split; [now apply (failure_names io dbg _ (w_run w n (cfg_question rustc (cli_target t))))|].
    right. right. right. exists (cfg_question rustc (cli_target t)). rewrite E3. split; [now left|reflexivity].
Qed.
