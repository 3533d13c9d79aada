(** The settings of a target, for both families of systems: as [Proof/StateProof.v] and
    [Proof/TargetProof.v], with [Model/OsLoad.v] for the model. *)
From Verif.Model Require Import Base Str Path StdPath OsPaths BMap Error Value De CfgExpr Triple EasyTypes Context
  ApplyEnv Process Resolve Easy OsLoad.
From Verif.Spec Require Import StrSpec ConfigSpec EnvSpec CfgSpec TripleSpec TargetSpec OsTargetSpec.
From Verif.Proof Require Import StrFacts BMapFacts CfgEvalProof CfgOutputProof StateProof TripleProof TargetProof.

Section Os.
Context (os : system) (suffix : str).

Lemma plain_made_cli t s : os_triple (E := error) os s None None = Ok t -> cli_target t = s.
Proof.
  unfold os_triple, os_spec_path. cbn [bind].
  destruct (os_is_spec_path os s); [|now intros [= <-]].
  destruct (std_file_stem os s) as [st|]; [|discriminate]. destruct (to_str st); [|discriminate].
  cbn [bind]. now intros [= <-].
Qed.
Lemma plain_made_unique t t' : plain_made os t -> plain_made os t' -> cli_target t = cli_target t' -> t = t'.
Proof.
  intros (s & H) (s' & H') E. rewrite (plain_made_cli _ _ H), (plain_made_cli _ _ H') in E. congruence.
Qed.

Lemma untouched_rustc {X} (f : state -> X) w cx b :
  (forall p, untouched f (ask_exists w p)) -> (forall r, untouched f (set_rustc r)) ->
  untouched f (os_cx_rustc os suffix w cx b).
Proof.
  intros He Hr. unfold os_cx_rustc. intros s. rewrite bindM_eq. cbn [get].
  destruct (s_rustc s) as [r|]; [reflexivity|]. revert s.
  apply untouched_bind.
  - unfold os_base_rustc. destruct (eb_rustc b); [easy|]. apply untouched_bind; [apply He|easy].
  - intros r. apply untouched_bind; [apply Hr|easy].
Qed.
Lemma untouched_cfg_rustc w cx b : untouched s_cfg (os_cx_rustc os suffix w cx b).
Proof. apply untouched_rustc; easy. Qed.

Lemma target_untouched_cfg w cx b t : untouched s_target (os_target_cfg os suffix w cx b t).
Proof.
  unfold os_target_cfg. intros s. rewrite bindM_eq. cbn [get].
  destruct (cfg_get (cli_target t) (s_cfg s)); [reflexivity|]. revert s.
  apply untouched_bind; [apply untouched_rustc; easy|]. intros r. now apply untouched_bind.
Qed.
Lemma target_untouched_cfgs pr w cx b t tables : forall acc, untouched s_target (os_resolve_cfgs os suffix pr w cx b t tables acc).
Proof.
  induction tables as [|[k v] tables IH]; intros acc; cbn [os_resolve_cfgs]; [easy|].
  destruct (negb (starts_with (B "cfg(") k)); [apply IH|].
  apply untouched_bind.
  - unfold os_eval_cfg. apply untouched_bind; [easy|]. intros e. apply untouched_bind; [apply target_untouched_cfg|easy].
  - intros m. destruct acc as [[a c] d]. apply IH.
Qed.
Lemma target_untouched_resolve pr w cx b tables t : untouched s_target (os_resolve_target os suffix pr w cx b tables t).
Proof.
  unfold os_resolve_target. cbv zeta. destruct (starts_with (B "cfg(") (tt_triple t)); [easy|].
  do 5 (apply untouched_bind; [easy|intros ?]).
  apply untouched_bind; [apply target_untouched_cfgs|]. intros [[x y] z]. easy.
Qed.

(** ** The compiler *)
Section Compiler.
Context (R : state -> state -> Prop) (R_refl : forall s, R s s)
        (R_trans : forall a b c, R a b -> R b c -> R a c) (w : world) (cx : context) (b : ebuild).
Context (R_exists : forall p s, R s (snd (ask_exists w p s)))
        (R_rustc : forall s r, s_rustc s = None -> R s (snd (set_rustc r s))).
Notation moves := (moves R).
Notation at_bind := (moves_at_bind R R_trans).
Notation mbind := (moves_bind R R_trans).
Notation mret := (moves_ret R R_refl).

Lemma base_rustc_moves : moves (os_base_rustc os suffix w cx b).
Proof.
  unfold os_base_rustc. destruct (eb_rustc b); [apply mret|]. unfold rustc_path.
  apply mbind; [intros s; apply R_exists|]. intros x. apply mret.
Qed.
Lemma rustc_untouched_base : untouched s_rustc (os_base_rustc os suffix w cx b).
Proof. unfold os_base_rustc. destruct (eb_rustc b); [easy|]. now apply untouched_bind. Qed.
Lemma cx_rustc_moves : moves (os_cx_rustc os suffix w cx b).
Proof.
  intros s. unfold os_cx_rustc. rewrite bindM_eq. cbn [get].
  destruct (s_rustc s) as [r|] eqn:E; [apply R_refl|].
  apply at_bind; [apply base_rustc_moves|]. intros p s1 E1.
  apply at_bind; [|intros; apply mret].
  apply R_rustc. assert (H := rustc_untouched_base s). rewrite E1 in H. cbn [snd] in H. congruence.
Qed.
End Compiler.

(** ** Every query *)
Section Queries.
Context (R : state -> state -> Prop) (R_refl : forall s, R s s)
        (R_trans : forall a b c, R a b -> R b c -> R a c).
Context (pr : profile) (w : world) (c : econfig).
Let cx := ec_cx c.
Let b := ec_build c.
Context (R_exists : forall p s, R s (snd (ask_exists w p s)))
        (R_run : forall cmd s, R s (snd (run_read w cmd s)))
        (R_cx_rustc : forall s, R s (snd (os_cx_rustc os suffix w cx b s)))
        (R_host : forall s r, s_host s = None -> R s (snd (set_host r s)))
        (R_rv : forall s r, s_rustc_version s = None -> R s (snd (set_rustc_version r s)))
        (R_cv : forall s r, s_cargo_version s = None -> R s (snd (set_cargo_version r s)))
        (R_cfg : forall s rustc t out, s_rustc s = Some rustc ->
           let s1 := snd (run_read w (cfg_command rustc t) s) in
           fst (run_read w (cfg_command rustc t) s) = Ok out ->
           cfg_get (cli_target t) (s_cfg s1) = None ->
           R s (snd (add_cfg (cli_target t) (cfg_parse out) s1)))
        (P : triple -> Prop)
        (R_target : forall s t r s1 e, P t ->
           os_resolve_target os suffix pr w cx b (ec_de_target c) t s = (Ok r, s1) ->
           os_etarget_of os (cx_current_dir cx) r = Ok e ->
           bget (cli_target t) (s_target s1) = None ->
           R s s1 -> R s (snd (add_target (cli_target t) e s1))).

Notation moves := (moves R).
Notation at_bind := (moves_at_bind R R_trans).
Notation mbind := (moves_bind R R_trans).
Notation mret := (moves_ret R R_refl).
Notation mlift := (moves_lift R R_refl).

Lemma q_base_rustc : moves (os_base_rustc os suffix w cx b).
Proof.
  unfold os_base_rustc. destruct (eb_rustc b); [apply mret|]. unfold rustc_path.
  apply mbind; [intros s; apply R_exists|]. intros x. apply mret.
Qed.
Lemma q_cx_rustc : moves (os_cx_rustc os suffix w cx b).
Proof. exact R_cx_rustc. Qed.
Lemma cx_rustc_ok s r s1 : os_cx_rustc os suffix w cx b s = (Ok r, s1) -> s_rustc s1 = Some r.
Proof.
  unfold os_cx_rustc. rewrite bindM_eq. cbn [get].
  destruct (s_rustc s) as [r0|] eqn:E; [now intros [= <- <-]|].
  intros H. apply bindM_ok in H as (p & s2 & _ & H). apply bindM_ok in H as ([] & s3 & Ha & H).
  injection H as <- <-. injection Ha as <-. reflexivity.
Qed.
Lemma q_verbose p : moves (verbose_version w p).
Proof. unfold verbose_version. apply mbind; [intros s; apply R_run|intros x; apply mret]. Qed.
Lemma q_for_version : moves (os_rustc_for_version os suffix w cx b).
Proof. apply mbind; [apply q_base_rustc|intros x; apply mret]. Qed.
Lemma q_store_cv v : moves (store_cargo_version pr v).
Proof.
  intros s. unfold store_cargo_version. rewrite bindM_eq. cbn [get].
  destruct (s_cargo_version s) eqn:E; [|now apply R_cv].
  destruct (debug_assertions pr); apply R_refl.
Qed.
Lemma q_store_rv v : moves (store_rustc_version pr v).
Proof.
  intros s. unfold store_rustc_version. rewrite bindM_eq. cbn [get].
  destruct (s_rustc_version s) eqn:E; [|now apply R_rv].
  destruct (debug_assertions pr); apply R_refl.
Qed.
Lemma q_hosts : moves (or_else (cargo_host pr w cx) (os_rustc_host os suffix pr w cx b)).
Proof.
  apply moves_or_else; [assumption| |].
  - unfold cargo_host. apply mbind; [apply q_verbose|]. intros vv.
    apply mbind; [apply mlift|]. intros v. apply mbind; [apply q_store_cv|]. intros _. apply mlift.
  - unfold os_rustc_host. apply mbind; [apply q_for_version|]. intros p.
    apply mbind; [apply q_verbose|]. intros vv. apply mbind; [apply mlift|]. intros v.
    apply mbind; [apply q_store_rv|]. intros _. apply mlift.
Qed.
Lemma host_untouched_hosts : untouched s_host (or_else (cargo_host pr w cx) (os_rustc_host os suffix pr w cx b)).
Proof.
  assert (K : forall {A} (m m' : M A), untouched s_host m -> untouched s_host m' -> untouched s_host (or_else m m')).
  { intros A m m' H H' s. unfold or_else. assert (Hs := H s). destruct (m s) as [[a|e|p] s1]; cbn in *; auto.
    now rewrite H'. }
  assert (V : forall p, untouched s_host (verbose_version w p)) by (intros p; now apply untouched_bind).
  apply K.
  - unfold cargo_host. apply untouched_bind; [apply V|]. intros vv.
    apply untouched_bind; [easy|]. intros v. apply untouched_bind; [|easy].
    intros s. unfold store_cargo_version. rewrite bindM_eq. cbn [get].
    destruct (s_cargo_version s); [destruct (debug_assertions pr)|]; reflexivity.
  - unfold os_rustc_host. apply untouched_bind.
    { unfold os_rustc_for_version. apply untouched_bind; [|easy].
      unfold os_base_rustc. destruct (eb_rustc b); [easy|]. now apply untouched_bind. }
    intros p. apply untouched_bind; [apply V|]. intros vv.
    apply untouched_bind; [easy|]. intros v. apply untouched_bind; [|easy].
    intros s. unfold store_rustc_version. rewrite bindM_eq. cbn [get].
    destruct (s_rustc_version s); [destruct (debug_assertions pr)|]; reflexivity.
Qed.
Lemma q_cx_host : moves (os_cx_host_triple os suffix pr w cx b).
Proof.
  intros s. unfold os_cx_host_triple. rewrite bindM_eq. cbn [get].
  destruct (s_host s) as [h|] eqn:E; [apply R_refl|].
  apply at_bind; [apply q_hosts|]. intros h s1 E1. apply at_bind; [|intros; apply mret].
  apply R_host. assert (H := host_untouched_hosts s). rewrite E1 in H. cbn [snd] in H. congruence.
Qed.
Lemma rv_untouched_for_version : untouched s_rustc_version (os_rustc_for_version os suffix w cx b).
Proof.
  unfold os_rustc_for_version. apply untouched_bind; [|easy].
  unfold os_base_rustc. destruct (eb_rustc b); [easy|]. now apply untouched_bind.
Qed.
Lemma q_cx_rv : moves (os_cx_rustc_version os suffix pr w cx b).
Proof.
  intros s. unfold os_cx_rustc_version. rewrite bindM_eq. cbn [get].
  destruct (s_rustc_version s) as [v|]; [apply R_refl|].
  apply at_bind; [apply moves_ignore_err, q_cx_host|]. intros _ s1 _. rewrite bindM_eq. cbn [get].
  destruct (s_rustc_version s1) as [v|] eqn:E; [apply R_refl|].
  apply at_bind; [apply q_for_version|]. intros p s2 E2.
  apply at_bind; [apply q_verbose|]. intros vv s3 E3.
  apply at_bind; [apply mlift|]. intros v s4 E4. apply at_bind; [|intros; apply mret].
  apply R_rv. unfold lift in E4. injection E4 as _ <-.
  assert (V : untouched s_rustc_version (verbose_version w p)) by now apply untouched_bind.
  specialize (V s2). rewrite E3 in V. assert (H := rv_untouched_for_version s1). rewrite E2 in H.
  cbn [snd] in H, V. congruence.
Qed.
Lemma q_cx_cv : moves (os_cx_cargo_version os suffix pr w cx b).
Proof.
  intros s. unfold os_cx_cargo_version. rewrite bindM_eq. cbn [get].
  destruct (s_cargo_version s) as [v|]; [apply R_refl|].
  apply at_bind; [apply moves_ignore_err, q_cx_host|]. intros _ s1 _. rewrite bindM_eq. cbn [get].
  destruct (s_cargo_version s1) as [v|] eqn:E; [apply R_refl|].
  apply at_bind; [apply q_verbose|]. intros vv s3 E3.
  apply at_bind; [apply mlift|]. intros v s4 E4. apply at_bind; [|intros; apply mret].
  apply R_cv. unfold lift in E4. injection E4 as _ <-.
  assert (V : untouched s_cargo_version (verbose_version w (epa_new (cx_cargo cx)))) by now apply untouched_bind.
  specialize (V s1). rewrite E3 in V. cbn [snd] in V. congruence.
Qed.

Lemma q_target_cfg t : moves (os_target_cfg os suffix w cx b t).
Proof.
  intros s. unfold os_target_cfg. rewrite bindM_eq. cbn [get].
  destruct (cfg_get (cli_target t) (s_cfg s)) as [x|] eqn:E; [apply R_refl|].
  apply at_bind; [apply q_cx_rustc|]. intros rustc s1 E1.
  rewrite bindM_eq. destruct (run_read w (cfg_command rustc t) s1) as [[out|e|p] s2] eqn:E2.
  - cbv zeta. rewrite bindM_eq.
    assert (K := R_cfg s1 rustc t out). cbv zeta in K. rewrite E2 in K. cbn [fst snd] in K.
    assert (N : cfg_get (cli_target t) (s_cfg s2) = None).
    { assert (s_cfg s2 = s_cfg s1) as -> by (apply (f_equal snd) in E2; cbn in E2; now rewrite <- E2).
      assert (H := untouched_cfg_rustc w cx b s). rewrite E1 in H. cbn in H. now rewrite H. }
    exact (K (cx_rustc_ok _ _ _ E1) eq_refl N).
  - assert (K := R_run (cfg_command rustc t) s1). now rewrite E2 in K.
  - assert (K := R_run (cfg_command rustc t) s1). now rewrite E2 in K.
Qed.
Lemma q_eval_cfg k t : moves (os_eval_cfg os suffix pr w cx b k t).
Proof.
  unfold os_eval_cfg. apply mbind; [apply mlift|]. intros e. apply mbind; [apply q_target_cfg|].
  intros x. apply mlift.
Qed.
Lemma q_resolve_cfgs t tables : forall acc, moves (os_resolve_cfgs os suffix pr w cx b t tables acc).
Proof.
  induction tables as [|[k v] tables IH]; intros acc; cbn [os_resolve_cfgs]; [apply mret|].
  destruct (negb (starts_with (B "cfg(") k)); [apply IH|].
  apply mbind; [apply q_eval_cfg|]. intros m. destruct acc as [[x y] z]. apply IH.
Qed.
Lemma q_resolve_target tables t : moves (os_resolve_target os suffix pr w cx b tables t).
Proof.
  unfold os_resolve_target. cbv zeta. destruct (starts_with (B "cfg(") (tt_triple t)); [apply mlift|].
  do 5 (apply mbind; [apply mlift|intros ?]).
  apply mbind; [apply q_resolve_cfgs|]. intros [[x y] z]. apply mret.
Qed.
Lemma q_init t : P t -> moves (os_init_target_config os suffix pr w c t).
Proof.
  intros Pt s. unfold os_init_target_config. rewrite bindM_eq. cbn [get].
  destruct (bget (cli_target t) (s_target s)) as [e|] eqn:E; [apply R_refl|].
  fold cx b. rewrite bindM_eq.
  assert (K := q_resolve_target (ec_de_target c) t s).
  assert (U := target_untouched_resolve pr w cx b (ec_de_target c) t s).
  destruct (os_resolve_target os suffix pr w cx b (ec_de_target c) t s) as [[r|e|p] s1] eqn:E1;
    [|assumption|assumption].
  cbn [snd] in K, U. rewrite bindM_eq. unfold lift.
  destruct (os_etarget_of os (cx_current_dir cx) r) as [e|e|p] eqn:E2; [|assumption|assumption].
  apply (R_target s t r s1 e); auto. now rewrite U.
Qed.
Lemma q_q_target_of t : P t -> moves (os_q_target_of os suffix pr w c t).
Proof.
  intros Pt. unfold os_q_target_of. apply mbind; [now apply q_init|]. intros _.
  apply mbind; [intros s; apply R_refl|]. intros s. destruct (bget (cli_target t) (s_target s)); [apply mret|apply mlift].
Qed.
Definition arg_in (a : target_arg) : Prop := forall t, os_to_triple os a = Ok t -> P t.
Lemma q_q_target a : arg_in a -> moves (os_q_target os suffix pr w c a).
Proof.
  intros Pa s. unfold os_q_target. rewrite bindM_eq. unfold lift.
  destruct (os_to_triple os a) as [t|e|p] eqn:E; [|apply R_refl|apply R_refl]. apply q_q_target_of. auto.
Qed.
Definition query_in (q : query) : Prop :=
  match q with
  | QTarget a | QLinker a | QRunner a | QRustflags a | QRustdocflags a => arg_in a
  | _ => True
  end.

Lemma query_moves q : query_in q -> moves (os_run_query os suffix pr w c q).
Proof.
  intros Pq. destruct q; cbn [os_run_query query_in] in *; try (apply (moves_mapM R R_refl R_trans)); try apply mret.
  - now apply q_q_target.
  - apply mbind; [now apply q_q_target|intros x; apply mret].
  - apply mbind; [now apply q_q_target|intros x; apply mret].
  - apply mbind; [now apply q_q_target|intros x; apply mret].
  - apply mbind; [now apply q_q_target|intros x; apply mret].
  - unfold os_q_build_target_for_config. apply mbind; [apply mlift|]. intros ts.
    destruct ts; [|apply mret].
    assert (H : moves (h <~ os_cx_host_triple os suffix pr w (ec_cx c) (ec_build c) ;; t <~ lift (os_triple os h None None) ;; ret [t])).
    { apply mbind; [apply q_cx_host|]. intros h. apply mbind; [apply mlift|]. intros t. apply mret. }
    destruct (eb_target (ec_build c)) as [[|x l']|]; [assumption|apply mret|assumption].
  - apply q_cx_rustc.
  - apply q_cx_host.
  - apply q_cx_rv.
  - apply q_cx_cv.
Qed.
Lemma queries_move qs : Forall query_in qs -> forall s, R s (os_run_queries os suffix pr w c qs s).
Proof.
  induction 1 as [|q qs Hq Hqs IH]; intros s; cbn [os_run_queries]; [apply R_refl|].
  apply (R_trans _ (snd (os_run_query os suffix pr w c q s))); [now apply query_moves|apply IH].
Qed.
End Queries.

Ltac grow := repeat split; cbn; auto; try (now exists []); try (eexists [_]; reflexivity); try congruence.

Lemma cx_rustc_grows w cx b s : grows s (snd (os_cx_rustc os suffix w cx b s)).
Proof. apply (cx_rustc_moves grows grows_refl grows_trans); intros; grow. Qed.
Section Cfg.
Context (pr : profile) (w : world) (cx : context) (b : ebuild) (t : triple).

Lemma grows_target_cfg s : grows s (snd (os_target_cfg os suffix w cx b t s)).
Proof.
  apply (q_target_cfg grows grows_refl grows_trans w (any_config cx b)); intros;
    try (grow; fail); try (apply cx_rustc_grows; fail).
  cbv zeta in *. cbn in *. grow. intros t' c' G.
  destruct (str_eqb t' (cli_target t0)) eqn:E; [|assumption]. apply str_eqb_eq in E as ->. congruence.
Qed.
Lemma grows_resolve_cfgs tables acc s : grows s (snd (os_resolve_cfgs os suffix pr w cx b t tables acc s)).
Proof.
  apply (q_resolve_cfgs grows grows_refl grows_trans pr w (any_config cx b)); intros;
    try (grow; fail); try (apply cx_rustc_grows; fail).
  cbv zeta in *. cbn in *. grow. intros t' c' G.
  destruct (str_eqb t' (cli_target t0)) eqn:E; [|assumption]. apply str_eqb_eq in E as ->. congruence.
Qed.
Lemma grows_resolve_target tables s : grows s (snd (os_resolve_target os suffix pr w cx b tables t s)).
Proof.
  apply (q_resolve_target grows grows_refl grows_trans pr w (any_config cx b)); intros;
    try (grow; fail); try (apply cx_rustc_grows; fail).
  cbv zeta in *. cbn in *. grow. intros t' c' G.
  destruct (str_eqb t' (cli_target t0)) eqn:E; [|assumption]. apply str_eqb_eq in E as ->. congruence.
Qed.

Lemma target_cfg_cached s c : cfg_get (cli_target t) (s_cfg s) = Some c ->
  os_target_cfg os suffix w cx b t s = (Ok c, s).
Proof. intros H. unfold os_target_cfg. rewrite bindM_eq. cbn [get]. now rewrite H. Qed.
Lemma target_cfg_ok s c s' : os_target_cfg os suffix w cx b t s = (Ok c, s') ->
  cfg_get (cli_target t) (s_cfg s') = Some c.
Proof.
  unfold os_target_cfg. rewrite bindM_eq. cbn [get].
  destruct (cfg_get (cli_target t) (s_cfg s)) as [c0|] eqn:E; [now intros [= <- <-]|].
  intros H. apply bindM_ok in H as (r & s1 & _ & H). apply bindM_ok in H as (out & s2 & _ & H).
  cbv zeta in H. apply bindM_ok in H as ([] & s3 & Ha & H). injection H as <- <-.
  injection Ha as <-. cbn. now rewrite str_eqb_refl.
Qed.

Lemma eval_cfg_ok k s m s' : os_eval_cfg os suffix pr w cx b k t s = (Ok m, s') ->
  exists e c, parse_expr pr k = Ok e /\ os_target_cfg os suffix w cx b t s = (Ok c, s') /\
  eval_expr (E := error) logic_bool (cfg_pred c) e = Ok m.
Proof.
  unfold os_eval_cfg. intros H. apply bindM_ok in H as (e & s1 & He & H). unfold lift in He.
  destruct (parse_expr pr k) as [e'| |] eqn:P; cbn in He; try discriminate. injection He as <- <-.
  apply bindM_ok in H as (c & s2 & Hc & H). unfold lift in H. injection H as H <-. eauto 10.
Qed.

Lemma resolve_cfgs_ok tables : forall acc s r s',
  os_resolve_cfgs os suffix pr w cx b t tables acc s = (Ok r, s') ->
  r = fold_left add_table (matching tables (matched_in pr t s')) acc
  /\ (forall k v, In (k, v) tables -> is_cfg k = true ->
        exists e c, parse_expr pr k = Ok e /\ cfg_get (cli_target t) (s_cfg s') = Some c
        /\ eval_expr (E := error) logic_bool (cfg_pred c) e = Ok (matched_in pr t s' k)).
Proof.
  induction tables as [|[k v] tables IH]; intros acc s r s' H.
  { cbn in H. injection H as <- <-. split; [reflexivity|]. intros k v []. }
  cbn [os_resolve_cfgs] in H. unfold matching. cbn [filter fst]. rewrite is_cfg_starts in H.
  destruct (is_cfg k) eqn:K; cbn [negb andb] in *.
  - apply bindM_ok in H as (m & s1 & Hm & H). apply eval_cfg_ok in Hm as (e & c & P & Hc & Ev).
    assert (G := grows_resolve_cfgs tables
      (let '(linker, runner, rustflags) := acc in
       if m then (match linker with Some _ => linker | None => t_linker v end,
              match runner with Some _ => runner | None => t_runner v end,
              match t_rustflags v with
              | Some f => append_flags rustflags f
              | None => rustflags
              end) else acc) s1).
    destruct acc as [[li ru] rf]. rewrite H in G. cbn [snd] in G.
    apply target_cfg_ok in Hc.
    assert (Hc' : cfg_get (cli_target t) (s_cfg s') = Some c) by now apply G.
    assert (Em : matched_in pr t s' k = m).
    { unfold matched_in, matched. now rewrite Hc', P, Ev. }
    apply IH in H as [-> H]. split.
    + rewrite Em. destruct m; [|reflexivity]. cbn [map fold_left snd add_table].
      assert (forall A (x y : option A), match x with Some _ => x | None => y end = or_keep x y) as EE
        by (intros A [] y; reflexivity).
      now rewrite !EE.
    + intros k' v' [[= <- <-]|I] K'; [|eauto]. exists e, c. rewrite Em. auto.
  - apply IH in H as [-> H]. split; [reflexivity|].
    intros k' v' [[= <- <-]|I] K'; [congruence|eauto].
Qed.

End Cfg.

Lemma resolve_target_ok pr w cx b tables t s r s' :
  os_resolve_target os suffix pr w cx b tables t s = (Ok r, s') ->
  let env := cx_env cx in let T := tt_triple t in let m := matched_in pr t s' in
  is_cfg T = false /\ target_vars_readable env T /\ decided pr t s' tables
  /\ t_linker r = target_linker env tables m T
  /\ option_map program_words (t_runner r) = target_runner env tables m T
  /\ option_map flags_words (t_rustflags r)
     = target_rustflags env tables m T (eb_override_target_rustflags b) (option_map flags_words (eb_de_rustflags b))
  /\ option_map flags_words (t_rustdocflags r)
     = target_rustdocflags env tables T (eb_override_target_rustdocflags b) (option_map flags_words (eb_de_rustdocflags b)).
Proof.
  unfold os_resolve_target. cbv zeta. rewrite is_cfg_starts. destruct (is_cfg (tt_triple t)) eqn:C; [discriminate|].
  change (B "_LINKER") with (B "_" ++ B "LINKER"). change (B "_RUNNER") with (B "_" ++ B "RUNNER").
  change (B "_RUSTFLAGS") with (B "_" ++ B "RUSTFLAGS").
  change (B "_RUSTDOCFLAGS") with (B "_" ++ B "RUSTDOCFLAGS").
  rewrite !target_var_name. intros H.
  apply bindM_ok in H as (li & s1 & H1 & H). apply lift_ok in H1 as [H1 ->].
  apply bindM_ok in H as (rv & s2 & H2 & H). apply lift_ok in H2 as [H2 ->].
  apply bindM_ok in H as (ru & s3 & H3 & H). apply lift_ok in H3 as [H3 ->].
  apply bindM_ok in H as (fv & s4 & H4 & H). apply lift_ok in H4 as [H4 ->].
  apply bindM_ok in H as (dv & s5 & H5 & H). apply lift_ok in H5 as [H5 ->].
  apply bindM_ok in H as ([[li' ru'] rf'] & s6 & H6 & H). injection H as <- ->.
  apply resolve_cfgs_ok in H6 as [E D].
  apply env_var_ok in H1 as [-> V1]. apply env_var_ok in H2 as [-> V2].
  apply env_var_ok in H4 as [-> V4]. apply env_var_ok in H5 as [-> V5].
  set (T := tt_triple t) in *. set (m := matched_in pr t s') in *.
  set (base := match bget T tables with Some c => c | None => target_default end) in *.
  assert (Own : forall A (f : target_config -> option A), f target_default = None -> own tables T f = f base).
  { intros A f F. unfold own, under, base. destruct (bget T tables); auto. }
  assert (Ru : option_map program_words ru = var_words (cx_env cx) T (B "RUNNER")
               /\ (forall v, env_get (target_variable T (B "RUNNER")) (cx_env cx) = Some v ->
                             split_space_separated v <> [])).
  { unfold var_words. destruct (env_get (target_variable T (B "RUNNER")) (cx_env cx)) as [v|].
    - cbn [option_map opt_traverse] in H3.
      destruct (pa_of_var (of_variable (target_variable T (B "RUNNER")) v)) as [p|?|?] eqn:Q; try discriminate H3.
      injection H3 as <-. apply pa_of_var_ok in Q as [Q1 Q2].
      cbn. rewrite Q1. split; [reflexivity|]. now intros v' [= <-].
    - injection H3 as <-. split; [reflexivity|discriminate]. }
  destruct Ru as [Ru Nr].
  split; [reflexivity|]. split.
  { split; [|assumption]. intros key v I G.
    repeat (destruct I as [<-|I]; [eauto|]). destruct I. }
  split; [exact D|].
  assert (E1 := f_equal (fun x => fst (fst x)) E). assert (E2 := f_equal (fun x => snd (fst x)) E).
  assert (E3 := f_equal snd E). cbn [fst snd] in E1, E2, E3. clear E D.
  rewrite fold_linker in E1. rewrite fold_runner in E2. cbn [fst snd] in E1, E2.
  cbn [t_linker t_runner t_rustflags t_rustdocflags].
  split.
  { rewrite E1. unfold target_linker. rewrite (Own _ t_linker) by reflexivity. fold m. cbn [app].
    unfold var. destruct (env_get (target_variable T (B "LINKER")) (cx_env cx)); cbn; [reflexivity|].
    reflexivity. }
  split.
  { rewrite E2. unfold target_runner. rewrite (Own _ runner_words) by reflexivity. cbn [app].
    rewrite <- Ru. unfold runner_words at 2. rewrite <- (map_map t_runner (option_map program_words)).
    change (runner_words base) with (option_map program_words (t_runner base)).
    transitivity (option_map program_words (first_defined ([ru; t_runner base] ++ map t_runner (matching tables m)))).
    - f_equal. destruct ru; reflexivity.
    - rewrite <- first_defined_map. rewrite map_app. reflexivity. }
  assert (Add : forall cur key l,
            gathered (option_map flags_words
              (match option_map (of_variable (target_variable T key)) (env_get (target_variable T key) (cx_env cx)) with
               | Some v => append_flags cur (flags_from_space_separated (val v) (def v))
               | None => cur
               end) :: l)
            = gathered (option_map flags_words cur :: var_words (cx_env cx) T key :: l)).
  { intros cur key l. unfold var_words. destruct (env_get (target_variable T key) (cx_env cx)) as [v|]; cbn [option_map].
    - rewrite append_words. reflexivity.
    - now destruct (option_map flags_words cur). }
  split.
  - unfold target_rustflags. destruct (eb_override_target_rustflags b); [reflexivity|].
    rewrite (Own _ rustflags_words) by reflexivity.
    assert (F : option_map flags_words rf' = gathered ([rustflags_words base; var_words (cx_env cx) T (B "RUSTFLAGS")]
                  ++ map rustflags_words (matching tables m))).
    { rewrite E3, fold_rustflags. cbn [snd]. rewrite Add. reflexivity. }
    rewrite <- F. destruct rf'; reflexivity.
  - unfold target_rustdocflags. destruct (eb_override_target_rustdocflags b); [reflexivity|].
    rewrite (Own _ rustdocflags_words) by reflexivity.
    assert (Add' := Add (t_rustdocflags base) (B "RUSTDOCFLAGS") []).
    change (rustdocflags_words base) with (option_map flags_words (t_rustdocflags base)).
    rewrite <- Add'.
    destruct (match option_map _ _ with Some v => append_flags (t_rustdocflags base) _ | None => t_rustdocflags base end);
      [|reflexivity].
    cbn. unfold flags_words. now rewrite app_nil_r.
Qed.

Section Known.
Context (pr : profile) (w : world) (c : econfig).
Let cx := ec_cx c.

Definition targets_known (s : state) : Prop :=
  forall T e, bget T (s_target s) = Some e ->
  exists t s1 s2 r, plain_made os t /\ cli_target t = T
    /\ os_resolve_target os suffix pr w cx (ec_build c) (ec_de_target c) t s1 = (Ok r, s2)
    /\ os_etarget_of os (cx_current_dir cx) r = Ok e /\ grows s2 s.
Definition step (s s' : state) : Prop :=
  grows s s' /\ (cfgs_printed w s -> cfgs_printed w s') /\ (targets_known s -> targets_known s').

Lemma step_refl s : step s s. Proof. split; [apply grows_refl|auto]. Qed.
Lemma step_trans a b d : step a b -> step b d -> step a d.
Proof. intros (A1 & A2 & A3) (B1 & B2 & B3). split; [eapply grows_trans; eauto|auto]. Qed.
Lemma step_same s s' : grows s s' -> s_cfg s' = s_cfg s -> s_target s' = s_target s -> step s s'.
Proof.
  intros G E F. split; [assumption|]. split; [now apply cfgs_printed_grows|].
  intros H T e He. rewrite F in He. destruct (H T e He) as (t & s1 & s2 & r & H1 & H2 & H3 & H4 & H5).
  exists t, s1, s2, r. repeat (split; [assumption|]). now apply (grows_trans _ s).
Qed.

Lemma add_target_grows t e s : bget (cli_target t) (s_target s) = None ->
  grows s (snd (add_target (cli_target t) e s)).
Proof.
  intros N. grow. intros t' e' G. rewrite bget_binsert.
  destruct (str_eqb t' (cli_target t)) eqn:E; [|assumption]. apply str_eqb_eq in E as ->. congruence.
Qed.
Lemma add_cfg_grows T x s : cfg_get T (s_cfg s) = None -> grows s (snd (add_cfg T x s)).
Proof.
  intros N. grow. intros t' c' G.
  destruct (str_eqb t' T) eqn:E; [|assumption]. apply str_eqb_eq in E as ->. congruence.
Qed.

Lemma query_step q s : os_real_query os q -> step s (snd (os_run_query os suffix pr w c q s)).
Proof.
  intros Rq.
  apply (query_moves step step_refl step_trans pr w c) with (P := plain_made os);
    try (intros; apply step_same; [grow|reflexivity|reflexivity]).
  - intros s0. apply step_same; [apply cx_rustc_grows|apply untouched_rustc; easy|apply untouched_rustc; easy].
  - (* add_cfg *)
    intros s0 rustc t out Hr s1 Hout N.
    assert (G1 : grows s0 s1) by grow.
    assert (G2 := add_cfg_grows (cli_target t) (cfg_parse out) s1 N).
    assert (G := grows_trans _ _ _ G1 G2).
    split; [assumption|]. split.
    + intros H T x Hx. cbn in Hx. destruct (str_eqb T (cli_target t)) eqn:E.
      * apply str_eqb_eq in E as ->. injection Hx as <-. exists out. split; [reflexivity|].
        exists (s_clock s0), rustc. cbn. repeat split; auto.
      * destruct (H T x Hx) as (o & Ho & P). exists o. split; [assumption|]. now apply (printed_grows w s0).
    + intros H T e He. destruct (H T e He) as (t0 & a & b & r & H1 & H2 & H3 & H4 & H5).
      exists t0, a, b, r. repeat (split; [assumption|]). now apply (grows_trans _ s0).
  - (* add_target *)
    intros s0 t r s1 e Pt Hr He N (G1 & C1 & K1).
    assert (G2 := add_target_grows t e s1 N). assert (G := grows_trans _ _ _ G1 G2).
    split; [assumption|]. split.
    + intros H. apply (cfgs_printed_grows w s1); [assumption|reflexivity|auto].
    + intros H T x Hx. cbn in Hx. rewrite bget_binsert in Hx. destruct (str_eqb T (cli_target t)) eqn:E.
      * apply str_eqb_eq in E as ->. injection Hx as <-. exists t, s0, s1, r. auto 10.
      * destruct (K1 H T x Hx) as (t0 & a & b & r0 & H1 & H2 & H3 & H4 & H5).
        exists t0, a, b, r0. repeat (split; [assumption|]). now apply (grows_trans _ s1).
  - destruct q; cbn in *; auto; intros t Ht; destruct a; cbn in *; try congruence;
      unfold plain_made; eauto.
Qed.

(** Which compiler is kept. *)
Definition os_compiler (n : nat) : str :=
  match eb_rustc (ec_build c) with Some r => r | None => os_rustc_path os suffix (cx_cargo cx) (w_exists w n) end.
Definition rustc_known (s : state) : Prop := forall r, s_rustc s = Some r -> s_rustc (state_init cx) = Some r \/
  exists n, n <= s_clock s /\ r = chain_program (opt_list (eb_rustc_wrapper (ec_build c))
    ++ opt_list (eb_rustc_workspace_wrapper (ec_build c))) (os_compiler n).
Definition rstep (s s' : state) : Prop := s_clock s <= s_clock s' /\ (rustc_known s -> rustc_known s').
Lemma rstep_refl s : rstep s s. Proof. split; auto. Qed.
Lemma rstep_trans x y z : rstep x y -> rstep y z -> rstep x z.
Proof. intros [A1 A2] [B1 B2]. split; [lia|auto]. Qed.
Lemma rstep_same s s' : s_clock s <= s_clock s' -> s_rustc s' = s_rustc s -> rstep s s'.
Proof.
  intros L E. split; [exact L|]. intros H r Hr. rewrite E in Hr. destruct (H r Hr) as [I|(n & Ln & Er)]; [left; exact I|]. right. exists n. split; [lia|exact Er].
Qed.
Lemma cx_rustc_now s : s_rustc s = None -> exists r s', os_cx_rustc os suffix w cx (ec_build c) s = (Ok r, s')
  /\ s_rustc s' = Some r /\ s_clock s <= s_clock s'
  /\ r = chain_program (opt_list (eb_rustc_wrapper (ec_build c)) ++ opt_list (eb_rustc_workspace_wrapper (ec_build c))) (os_compiler (s_clock s)).
Proof.
  intros N. unfold os_cx_rustc. rewrite bindM_eq. cbn [get]. rewrite N. unfold os_base_rustc, os_compiler.
  destruct (eb_rustc (ec_build c)) as [r|].
  - do 2 eexists. split; [reflexivity|]. cbn. auto.
  - unfold os_ask_rustc. do 2 eexists. split; [reflexivity|]. cbn. split; [reflexivity|]. split; [lia|reflexivity].
Qed.
Lemma query_rstep q s : rstep s (snd (os_run_query os suffix pr w c q s)).
Proof.
  apply (query_moves rstep rstep_refl rstep_trans pr w c) with (P := fun _ => True);
    try (intros; apply rstep_same; [cbn; lia|reflexivity]).
  - intros s0. destruct (s_rustc s0) as [r|] eqn:E.
    + unfold os_cx_rustc. rewrite bindM_eq. cbn [get]. rewrite E. apply rstep_refl.
    + destruct (cx_rustc_now s0 E) as (r & s' & H & Hr & L & Er). fold cx. rewrite H. cbn [snd]. split; [exact L|].
      intros _ r' Hr'. rewrite Hr in Hr'. injection Hr' as <-. right. eauto.
  - intros s0 t r s1 e _ _ _ _ H. apply (rstep_trans _ s1); [exact H|]. apply rstep_same; [cbn; lia|reflexivity].
  - now destruct q.
Qed.
Lemma reached_rustc s : os_reached os suffix pr w c s -> rustc_known s.
Proof.
  intros (qs & _ & ->). assert (I : rustc_known (state_init (ec_cx c))) by (intros r Hr; left; exact Hr). revert I.
  generalize (state_init (ec_cx c)) as s. induction qs as [|q qs IH]; intros s I; [exact I|]. cbn [os_run_queries]. apply IH. now apply query_rstep.
Qed.
Lemma rustc_answer s : os_reached os suffix pr w c s -> exists r s',
  os_run_query os suffix pr w c QRustc s = (Ok (AProgram r), s') /\ rustc_known s' /\ s_rustc s' = Some r.
Proof.
  intros H. assert (K := reached_rustc s H). assert (Q : exists r s', os_cx_rustc os suffix w cx (ec_build c) s = (Ok r, s') /\ s_rustc s' = Some r).
  { destruct (s_rustc s) as [r|] eqn:E.
    - exists r, s. unfold os_cx_rustc. rewrite bindM_eq. cbn [get]. now rewrite E.
    - destruct (cx_rustc_now s E) as (r & s' & Hr & Hs & _). eauto. }
  destruct Q as (r & s' & Q & E). exists r, s'. assert (St := query_rstep QRustc s).
  assert (G : os_run_query os suffix pr w c QRustc s = (Ok (AProgram r), s')).
  { cbn [os_run_query]. unfold mapM. rewrite bindM_eq. fold cx. now rewrite Q. }
  rewrite G in St. split; [exact G|]. split; [now apply St|exact E].
Qed.

Lemma reached_known s : os_reached os suffix pr w c s -> cfgs_printed w s /\ targets_known s.
Proof.
  intros (qs & Hq & ->).
  assert (I : cfgs_printed w (state_init cx) /\ targets_known (state_init cx)) by (split; intros ? ? [=]).
  fold cx. revert I. generalize (state_init cx) as s. induction Hq as [|q qs H Hq IH]; intros s I; [assumption|].
  cbn [os_run_queries]. apply IH. destruct (query_step q s H) as (_ & A & K). split; [apply A, I|apply K, I].
Qed.
Lemma reached_step q s : os_reached os suffix pr w c s -> os_real_query os q -> os_reached os suffix pr w c (snd (os_run_query os suffix pr w c q s)).
Proof.
  intros (qs & Hq & ->) Rq. exists (qs ++ [q]). split; [apply Forall_app; auto|].
  generalize (state_init (ec_cx c)) as s. induction qs as [|x qs IH]; intros s; [reflexivity|].
  cbn. inversion Hq; subst. now apply IH.
Qed.
End Known.

Lemma q_target_ok pr w c a s e s' : os_q_target os suffix pr w c a s = (Ok e, s') ->
  exists t, os_to_triple os a = Ok t /\ bget (cli_target t) (s_target s') = Some e.
Proof.
  unfold os_q_target. intros H. apply bindM_ok in H as (t & s1 & Ht & H). apply lift_ok in Ht as [Ht ->].
  exists t. split; [assumption|]. unfold os_q_target_of in H.
  apply bindM_ok in H as ([] & s2 & _ & H). apply bindM_ok in H as (s3 & s4 & Hg & H). injection Hg as <- <-.
  destruct (bget (cli_target t) (s_target s2)) as [x|] eqn:E; [|discriminate]. now injection H as <- <-.
Qed.
Lemma real_arg_made a t : os_real_arg os a -> os_to_triple os a = Ok t -> plain_made os t.
Proof.
  destruct a as [x|x]; cbn; intros R H; [|congruence]. unfold plain_made. eauto.
Qed.

Lemma target_query_run pr w c q a s : target_query q a ->
  os_run_query os suffix pr w c q s = bindM (os_q_target os suffix pr w c a) (fun e => ret (answer_of q e)) s.
Proof.
  intros [-> | [-> | [-> | [-> | -> ]]]]; cbn [os_run_query]; unfold mapM, q_linker, q_runner, q_rustflags, q_rustdocflags;
    try rewrite bindM_assoc; reflexivity.
Qed.
Lemma target_query_ok pr w c q a s x s' : target_query q a -> os_run_query os suffix pr w c q s = (Ok x, s') ->
  exists e, os_q_target os suffix pr w c a s = (Ok e, s') /\ x = answer_of q e.
Proof.
  intros Q H. rewrite (target_query_run _ _ _ _ _ _ Q) in H. apply bindM_ok in H as (e & s1 & H & K).
  injection K as <- <-. eauto.
Qed.
Lemma target_query_real q a : target_query q a -> os_real_arg os a -> os_real_query os q.
Proof. intros [-> | [-> | [-> | [-> | -> ]]]]; auto. Qed.

(** Where the answer came from. *)
Lemma target_answer pr w c q a t s x s' :
  os_reached os suffix pr w c s -> target_query q a -> os_real_arg os a -> os_to_triple os a = Ok t ->
  os_run_query os suffix pr w c q s = (Ok x, s') ->
  exists e s1 s2 r,
    x = answer_of q e /\ bget (cli_target t) (s_target s') = Some e
    /\ os_resolve_target os suffix pr w (ec_cx c) (ec_build c) (ec_de_target c) t s1 = (Ok r, s2)
    /\ os_etarget_of os (cx_current_dir (ec_cx c)) r = Ok e /\ grows s2 s' /\ cfgs_printed w s'.
Proof.
  intros Rs Q Ra Ht H.
  assert (Rs' := reached_step pr w c q s Rs (target_query_real _ _ Q Ra)). rewrite H in Rs'. cbn [snd] in Rs'.
  destruct (reached_known _ _ _ _ Rs') as [P K].
  apply (target_query_ok _ _ _ _ _ _ _ _ Q) in H as (e & H & ->).
  apply q_target_ok in H as (t' & Ht' & He). assert (t' = t) as -> by congruence.
  destruct (K _ _ He) as (t0 & s1 & s2 & r & M0 & E0 & H1 & H2 & H3).
  assert (t0 = t) as -> by (apply plain_made_unique; eauto using real_arg_made).
  exists e, s1, s2, r. auto 10.
Qed.

Section Success.
Context (pr : profile) (w : world) (cx : context) (b : ebuild) (t : triple).

Lemma resolve_cfgs_success tables : keys_utf8 tables ->
  (forall k v, In (k, v) tables -> is_cfg k = true -> is_ok (parse_expr pr k) = true) ->
  forall acc s, (has_cfg tables -> exists x s1, os_target_cfg os suffix w cx b t s = (Ok x, s1)) ->
  exists r s', os_resolve_cfgs os suffix pr w cx b t tables acc s = (Ok r, s').
Proof.
  induction tables as [|[k v] tables IH]; intros U P acc s H; [cbn; unfold ret; eauto|].
  cbn [os_resolve_cfgs]. rewrite is_cfg_starts.
  assert (U' : keys_utf8 tables) by (intros k' v' I; apply (U k' v'); now right).
  assert (P' : forall k v, In (k, v) tables -> is_cfg k = true -> is_ok (parse_expr pr k) = true)
    by (intros k' v' I; apply (P k' v'); now right).
  destruct (is_cfg k) eqn:K; cbn [negb].
  - assert (Pk := P k v (or_introl eq_refl) K). assert (Uk := U k v (or_introl eq_refl)).
    destruct H as (x & s1 & H); [exists k, v; cbn; auto|].
    unfold os_eval_cfg. destruct (parse_expr pr k) as [e| |] eqn:Q; try discriminate Pk.
    destruct (parse_eval_ok (E := error) logic_bool (cfg_pred x) pr k e Uk Q) as (m & Ev).
    rewrite bindM_eq. cbn [map_err]. rewrite bindM_eq. unfold lift at 1. rewrite bindM_eq, H. unfold lift. rewrite Ev.
    destruct acc as [[x1 x2] x3]. apply IH; auto. intros _. exists x, s1.
    apply target_cfg_cached. now apply target_cfg_ok in H.
  - apply IH; auto. intros (k' & v' & I & K'). apply H. exists k', v'. cbn; auto.
Qed.

Lemma resolve_target_success tables s : keys_utf8 tables ->
  is_cfg (tt_triple t) = false -> target_vars_readable (cx_env cx) (tt_triple t) ->
  (forall k v, In (k, v) tables -> is_cfg k = true -> is_ok (parse_expr pr k) = true) ->
  (has_cfg tables -> exists x s1, os_target_cfg os suffix w cx b t s = (Ok x, s1)) ->
  exists r s', os_resolve_target os suffix pr w cx b tables t s = (Ok r, s').
Proof.
  intros U C [V N] P H. unfold os_resolve_target. cbv zeta. rewrite is_cfg_starts, C.
  change (B "_LINKER") with (B "_" ++ B "LINKER"). change (B "_RUNNER") with (B "_" ++ B "RUNNER").
  change (B "_RUSTFLAGS") with (B "_" ++ B "RUSTFLAGS").
  change (B "_RUSTDOCFLAGS") with (B "_" ++ B "RUSTDOCFLAGS").
  rewrite !target_var_name.
  assert (R : forall key, In key [B "LINKER"; B "RUNNER"; B "RUSTFLAGS"; B "RUSTDOCFLAGS"] ->
              cx_env_var (cx_env cx) (target_variable (tt_triple t) key)
              = Ok (option_map (of_variable (target_variable (tt_triple t) key))
                      (env_get (target_variable (tt_triple t) key) (cx_env cx)))).
  { intros key I. destruct (proj2 (env_var_iff (cx_env cx) (target_variable (tt_triple t) key))) as (o & E).
    - intros v. now apply V.
    - rewrite E. apply env_var_ok in E as [-> _]. reflexivity. }
  do 2 (rewrite bindM_eq; unfold lift at 1; rewrite R by (cbn; auto)).
  assert (Ru : exists p, opt_traverse pa_of_var
              (option_map (of_variable (target_variable (tt_triple t) (B "RUNNER")))
                 (env_get (target_variable (tt_triple t) (B "RUNNER")) (cx_env cx))) = Ok p).
  { destruct (env_get (target_variable (tt_triple t) (B "RUNNER")) (cx_env cx)) as [v|] eqn:E; [|cbn; eauto].
    specialize (N v eq_refl). cbn [option_map opt_traverse]. unfold pa_of_var, pa_from_string. cbn [val def of_variable].
    destruct (split_space_separated v) as [|y l]; [easy|]. cbn. eauto. }
  destruct Ru as (p & Ru). rewrite bindM_eq. unfold lift at 1. rewrite Ru.
  do 2 (rewrite bindM_eq; unfold lift at 1; rewrite R by (cbn; auto 10)).
  rewrite bindM_eq.
  match goal with |- context [os_resolve_cfgs os suffix pr w cx b t tables ?acc s] =>
    destruct (resolve_cfgs_success tables U P acc s H) as ([[r1 r2] r3] & s' & E) end.
  rewrite E. unfold ret. eauto.
Qed.

End Success.
End Os.
