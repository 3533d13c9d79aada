(** Computations on the cells: what is filled stays, and what it was filled with. *)
From Verif.Model Require Import Base Str Path BMap Error Value De CfgExpr Triple EasyTypes Context
  ApplyEnv Process Resolve Easy.
From Verif.Spec Require Import StrSpec ConfigSpec EnvSpec CfgSpec TargetSpec.
From Verif.Proof Require Import StrFacts BMapFacts.

(** ** Sequencing *)

Lemma bindM_eq {A A'} (m : M A) (f : A -> M A') s :
  bindM m f s = match m s with
                | (Ok a, s') => f a s'
                | (Err e, s') => (Err e, s')
                | (Panic p, s') => (Panic p, s')
                end.
Proof. reflexivity. Qed.

Lemma bindM_ok {A A'} (m : M A) (f : A -> M A') s b s' :
  bindM m f s = (Ok b, s') -> exists a s1, m s = (Ok a, s1) /\ f a s1 = (Ok b, s').
Proof. rewrite bindM_eq. destruct (m s) as [[a|e|p] s1]; [eauto|discriminate|discriminate]. Qed.

Section Relation.
Context (R : state -> state -> Prop) (R_refl : forall s, R s s)
        (R_trans : forall a b c, R a b -> R b c -> R a c).
Definition moves {A} (m : M A) : Prop := forall s, R s (snd (m s)).

Lemma moves_at_bind {A A'} (m : M A) (f : A -> M A') s :
  R s (snd (m s)) -> (forall a s1, m s = (Ok a, s1) -> R s1 (snd (f a s1))) ->
  R s (snd (bindM m f s)).
Proof.
  intros Hm Hf. rewrite bindM_eq. destruct (m s) as [[a|e|p] s1]; cbn in *; [|assumption|assumption].
  apply (R_trans _ s1); [assumption|]. now apply Hf.
Qed.
Lemma moves_bind {A A'} (m : M A) (f : A -> M A') : moves m -> (forall a, moves (f a)) -> moves (bindM m f).
Proof. intros Hm Hf s. apply moves_at_bind; [apply Hm|]. intros a s1 _. apply Hf. Qed.
Lemma moves_ret {A} (a : A) : moves (ret a).
Proof. intros s. apply R_refl. Qed.
Lemma moves_lift {A} (r : result A) : moves (lift r).
Proof. intros s. apply R_refl. Qed.
Lemma moves_get : moves get.
Proof. intros s. apply R_refl. Qed.
Lemma moves_or_else {A} (m m' : M A) : moves m -> moves m' -> moves (or_else m m').
Proof.
  intros H H' s. unfold or_else. assert (Hs := H s). destruct (m s) as [[a|e|p] s1]; cbn in *; auto.
  apply (R_trans _ s1); [assumption|]. apply H'.
Qed.
Lemma moves_ignore_err {A} (m : M A) : moves m -> moves (ignore_err m).
Proof. intros H s. unfold ignore_err. assert (Hs := H s). destruct (m s) as [[a|e|p] s1]; assumption. Qed.
Lemma moves_mapM {A A'} (f : A -> A') (m : M A) : moves m -> moves (mapM f m).
Proof. intros H. apply moves_bind; [assumption|]. intros a. apply moves_ret. Qed.
End Relation.

(** ** Cells that are left alone *)
Definition untouched {A X} (f : state -> X) (m : M A) : Prop := forall s, f (snd (m s)) = f s.
Lemma untouched_bind {A A' X} (f : state -> X) (m : M A) (k : A -> M A') :
  untouched f m -> (forall a, untouched f (k a)) -> untouched f (bindM m k).
Proof.
  intros Hm Hk s. rewrite bindM_eq. assert (H := Hm s). destruct (m s) as [[a|e|p] s1]; cbn in *; auto.
  rewrite <- H. apply Hk.
Qed.
Lemma untouched_rustc {X} (f : state -> X) w cx b :
  (forall p, untouched f (ask_exists w p)) -> (forall r, untouched f (set_rustc r)) ->
  untouched f (cx_rustc w cx b).
Proof.
  intros He Hr. unfold cx_rustc. intros s. rewrite bindM_eq. cbn [get].
  destruct (s_rustc s) as [r|]; [reflexivity|]. revert s.
  apply untouched_bind.
  - unfold base_rustc. destruct (eb_rustc b); [easy|]. apply untouched_bind; [apply He|easy].
  - intros r. apply untouched_bind; [apply Hr|easy].
Qed.
Lemma untouched_cfg_rustc w cx b : untouched s_cfg (cx_rustc w cx b).
Proof. apply untouched_rustc; easy. Qed.

Lemma target_untouched_cfg w cx b t : untouched s_target (target_cfg w cx b t).
Proof.
  unfold target_cfg. intros s. rewrite bindM_eq. cbn [get].
  destruct (cfg_get (cli_target t) (s_cfg s)); [reflexivity|]. revert s.
  apply untouched_bind; [apply untouched_rustc; easy|]. intros r. now apply untouched_bind.
Qed.
Lemma target_untouched_cfgs pr w cx b t tables : forall acc, untouched s_target (resolve_cfgs pr w cx b t tables acc).
Proof.
  induction tables as [|[k v] tables IH]; intros acc; cbn [resolve_cfgs]; [easy|].
  destruct (negb (starts_with (B "cfg(") k)); [apply IH|].
  apply untouched_bind.
  - unfold eval_cfg. apply untouched_bind; [easy|]. intros e. apply untouched_bind; [apply target_untouched_cfg|easy].
  - intros m. destruct acc as [[a c] d]. apply IH.
Qed.
Lemma target_untouched_resolve pr w cx b tables t : untouched s_target (resolve_target pr w cx b tables t).
Proof.
  unfold resolve_target. cbv zeta. destruct (starts_with (B "cfg(") (tt_triple t)); [easy|].
  do 5 (apply untouched_bind; [easy|intros ?]).
  apply untouched_bind; [apply target_untouched_cfgs|]. intros [[x y] z]. easy.
Qed.

(** ** Every query *)
Section Queries.
Context (R : state -> state -> Prop) (R_refl : forall s, R s s)
        (R_trans : forall a b c, R a b -> R b c -> R a c).
Context (pr : profile) (w : world) (c : econfig).
Let cx := ec_cx c.
Let b := ec_build c.
Context (R_exists : forall p s, R s (snd (ask_exists w p s)))
        (R_run : forall cmd s, R s (snd (run_read w cmd s)))
        (R_rustc : forall s r, s_rustc s = None -> R s (snd (set_rustc r s)))
        (R_host : forall s r, s_host s = None -> R s (snd (set_host r s)))
        (R_rv : forall s r, s_rustc_version s = None -> R s (snd (set_rustc_version r s)))
        (R_cv : forall s r, s_cargo_version s = None -> R s (snd (set_cargo_version r s)))
        (R_cfg : forall s rustc t out, s_rustc s = Some rustc ->
           let s1 := snd (run_read w (cfg_command rustc t) s) in
           fst (run_read w (cfg_command rustc t) s) = Ok out ->
           cfg_get (cli_target t) (s_cfg s1) = None ->
           R s (snd (add_cfg (cli_target t) (cfg_parse out) s1)))
        (P : triple -> Prop)
        (R_target : forall s t r s1 e, P t ->
           resolve_target pr w cx b (ec_de_target c) t s = (Ok r, s1) ->
           etarget_of (cx_current_dir cx) r = Ok e ->
           bget (cli_target t) (s_target s1) = None ->
           R s s1 -> R s (snd (add_target (cli_target t) e s1))).

Notation moves := (moves R).
Notation at_bind := (moves_at_bind R R_trans).
Notation mbind := (moves_bind R R_trans).
Notation mret := (moves_ret R R_refl).
Notation mlift := (moves_lift R R_refl).

Lemma q_base_rustc : moves (base_rustc w cx b).
Proof.
  unfold base_rustc. destruct (eb_rustc b); [apply mret|]. unfold rustc_path.
  apply mbind; [intros s; apply R_exists|]. intros x. apply mret.
Qed.
Lemma rustc_untouched_base : untouched s_rustc (base_rustc w cx b).
Proof. unfold base_rustc. destruct (eb_rustc b); [easy|]. now apply untouched_bind. Qed.
Lemma q_cx_rustc : moves (cx_rustc w cx b).
Proof.
  intros s. unfold cx_rustc. rewrite bindM_eq. cbn [get].
  destruct (s_rustc s) as [r|] eqn:E; [apply R_refl|].
  apply at_bind; [apply q_base_rustc|]. intros p s1 E1.
  apply at_bind; [|intros; apply mret].
  apply R_rustc. assert (H := rustc_untouched_base s). rewrite E1 in H. cbn [snd] in H. congruence.
Qed.
Lemma cx_rustc_ok s r s1 : cx_rustc w cx b s = (Ok r, s1) -> s_rustc s1 = Some r.
Proof.
  unfold cx_rustc. rewrite bindM_eq. cbn [get].
  destruct (s_rustc s) as [r0|] eqn:E; [now intros [= <- <-]|].
  intros H. apply bindM_ok in H as (p & s2 & _ & H). apply bindM_ok in H as ([] & s3 & Ha & H).
  injection H as <- <-. injection Ha as <-. reflexivity.
Qed.
Lemma q_verbose p : moves (verbose_version w p).
Proof. unfold verbose_version. apply mbind; [intros s; apply R_run|intros x; apply mret]. Qed.
Lemma q_for_version : moves (rustc_for_version w cx b).
Proof. apply mbind; [apply q_base_rustc|intros x; apply mret]. Qed.
Lemma q_store_cv v : moves (store_cargo_version pr v).
Proof.
  intros s. unfold store_cargo_version. rewrite bindM_eq. cbn [get].
  destruct (s_cargo_version s) eqn:E; [|now apply R_cv].
  destruct (debug_assertions pr); apply R_refl.
Qed.
Lemma q_store_rv v : moves (store_rustc_version pr v).
Proof.
  intros s. unfold store_rustc_version. rewrite bindM_eq. cbn [get].
  destruct (s_rustc_version s) eqn:E; [|now apply R_rv].
  destruct (debug_assertions pr); apply R_refl.
Qed.
Lemma q_hosts : moves (or_else (cargo_host pr w cx) (rustc_host pr w cx b)).
Proof.
  apply moves_or_else; [assumption| |].
  - unfold cargo_host. apply mbind; [apply q_verbose|]. intros vv.
    apply mbind; [apply mlift|]. intros v. apply mbind; [apply q_store_cv|]. intros _. apply mlift.
  - unfold rustc_host. apply mbind; [apply q_for_version|]. intros p.
    apply mbind; [apply q_verbose|]. intros vv. apply mbind; [apply mlift|]. intros v.
    apply mbind; [apply q_store_rv|]. intros _. apply mlift.
Qed.
Lemma host_untouched_hosts : untouched s_host (or_else (cargo_host pr w cx) (rustc_host pr w cx b)).
Proof.
  assert (K : forall {A} (m m' : M A), untouched s_host m -> untouched s_host m' -> untouched s_host (or_else m m')).
  { intros A m m' H H' s. unfold or_else. assert (Hs := H s). destruct (m s) as [[a|e|p] s1]; cbn in *; auto.
    now rewrite H'. }
  assert (V : forall p, untouched s_host (verbose_version w p)) by (intros p; now apply untouched_bind).
  apply K.
  - unfold cargo_host. apply untouched_bind; [apply V|]. intros vv.
    apply untouched_bind; [easy|]. intros v. apply untouched_bind; [|easy].
    intros s. unfold store_cargo_version. rewrite bindM_eq. cbn [get].
    destruct (s_cargo_version s); [destruct (debug_assertions pr)|]; reflexivity.
  - unfold rustc_host. apply untouched_bind.
    { unfold rustc_for_version. apply untouched_bind; [|easy].
      unfold base_rustc. destruct (eb_rustc b); [easy|]. now apply untouched_bind. }
    intros p. apply untouched_bind; [apply V|]. intros vv.
    apply untouched_bind; [easy|]. intros v. apply untouched_bind; [|easy].
    intros s. unfold store_rustc_version. rewrite bindM_eq. cbn [get].
    destruct (s_rustc_version s); [destruct (debug_assertions pr)|]; reflexivity.
Qed.
Lemma q_cx_host : moves (cx_host_triple pr w cx b).
Proof.
  intros s. unfold cx_host_triple. rewrite bindM_eq. cbn [get].
  destruct (s_host s) as [h|] eqn:E; [apply R_refl|].
  apply at_bind; [apply q_hosts|]. intros h s1 E1. apply at_bind; [|intros; apply mret].
  apply R_host. assert (H := host_untouched_hosts s). rewrite E1 in H. cbn [snd] in H. congruence.
Qed.
Lemma rv_untouched_for_version : untouched s_rustc_version (rustc_for_version w cx b).
Proof.
  unfold rustc_for_version. apply untouched_bind; [|easy].
  unfold base_rustc. destruct (eb_rustc b); [easy|]. now apply untouched_bind.
Qed.
Lemma q_cx_rv : moves (cx_rustc_version pr w cx b).
Proof.
  intros s. unfold cx_rustc_version. rewrite bindM_eq. cbn [get].
  destruct (s_rustc_version s) as [v|]; [apply R_refl|].
  apply at_bind; [apply moves_ignore_err, q_cx_host|]. intros _ s1 _. rewrite bindM_eq. cbn [get].
  destruct (s_rustc_version s1) as [v|] eqn:E; [apply R_refl|].
  apply at_bind; [apply q_for_version|]. intros p s2 E2.
  apply at_bind; [apply q_verbose|]. intros vv s3 E3.
  apply at_bind; [apply mlift|]. intros v s4 E4. apply at_bind; [|intros; apply mret].
  apply R_rv. unfold lift in E4. injection E4 as _ <-.
  assert (V : untouched s_rustc_version (verbose_version w p)) by now apply untouched_bind.
  specialize (V s2). rewrite E3 in V. assert (H := rv_untouched_for_version s1). rewrite E2 in H.
  cbn [snd] in H, V. congruence.
Qed.
Lemma q_cx_cv : moves (cx_cargo_version pr w cx b).
Proof.
  intros s. unfold cx_cargo_version. rewrite bindM_eq. cbn [get].
  destruct (s_cargo_version s) as [v|]; [apply R_refl|].
  apply at_bind; [apply moves_ignore_err, q_cx_host|]. intros _ s1 _. rewrite bindM_eq. cbn [get].
  destruct (s_cargo_version s1) as [v|] eqn:E; [apply R_refl|].
  apply at_bind; [apply q_verbose|]. intros vv s3 E3.
  apply at_bind; [apply mlift|]. intros v s4 E4. apply at_bind; [|intros; apply mret].
  apply R_cv. unfold lift in E4. injection E4 as _ <-.
  assert (V : untouched s_cargo_version (verbose_version w (epa_new (cx_cargo cx)))) by now apply untouched_bind.
  specialize (V s1). rewrite E3 in V. cbn [snd] in V. congruence.
Qed.

Lemma q_target_cfg t : moves (target_cfg w cx b t).
Proof.
  intros s. unfold target_cfg. rewrite bindM_eq. cbn [get].
  destruct (cfg_get (cli_target t) (s_cfg s)) as [x|] eqn:E; [apply R_refl|].
  apply at_bind; [apply q_cx_rustc|]. intros rustc s1 E1.
  rewrite bindM_eq. destruct (run_read w (cfg_command rustc t) s1) as [[out|e|p] s2] eqn:E2.
  - cbv zeta. rewrite bindM_eq.
    assert (K := R_cfg s1 rustc t out). cbv zeta in K. rewrite E2 in K. cbn [fst snd] in K.
    assert (N : cfg_get (cli_target t) (s_cfg s2) = None).
    { assert (s_cfg s2 = s_cfg s1) as -> by (apply (f_equal snd) in E2; cbn in E2; now rewrite <- E2).
      assert (H := untouched_cfg_rustc w cx b s). rewrite E1 in H. cbn in H. now rewrite H. }
    exact (K (cx_rustc_ok _ _ _ E1) eq_refl N).
  - assert (K := R_run (cfg_command rustc t) s1). now rewrite E2 in K.
  - assert (K := R_run (cfg_command rustc t) s1). now rewrite E2 in K.
Qed.
Lemma q_eval_cfg k t : moves (eval_cfg pr w cx b k t).
Proof.
  unfold eval_cfg. apply mbind; [apply mlift|]. intros e. apply mbind; [apply q_target_cfg|].
  intros x. apply mlift.
Qed.
Lemma q_resolve_cfgs t tables : forall acc, moves (resolve_cfgs pr w cx b t tables acc).
Proof.
  induction tables as [|[k v] tables IH]; intros acc; cbn [resolve_cfgs]; [apply mret|].
  destruct (negb (starts_with (B "cfg(") k)); [apply IH|].
  apply mbind; [apply q_eval_cfg|]. intros m. destruct acc as [[x y] z]. apply IH.
Qed.
Lemma q_resolve_target tables t : moves (resolve_target pr w cx b tables t).
Proof.
  unfold resolve_target. cbv zeta. destruct (starts_with (B "cfg(") (tt_triple t)); [apply mlift|].
  do 5 (apply mbind; [apply mlift|intros ?]).
  apply mbind; [apply q_resolve_cfgs|]. intros [[x y] z]. apply mret.
Qed.
Lemma q_init t : P t -> moves (init_target_config pr w c t).
Proof.
  intros Pt s. unfold init_target_config. rewrite bindM_eq. cbn [get].
  destruct (bget (cli_target t) (s_target s)) as [e|] eqn:E; [apply R_refl|].
  fold cx b. rewrite bindM_eq.
  assert (K := q_resolve_target (ec_de_target c) t s).
  assert (U := target_untouched_resolve pr w cx b (ec_de_target c) t s).
  destruct (resolve_target pr w cx b (ec_de_target c) t s) as [[r|e|p] s1] eqn:E1;
    [|assumption|assumption].
  cbn [snd] in K, U. rewrite bindM_eq. unfold lift.
  destruct (etarget_of (cx_current_dir cx) r) as [e|e|p] eqn:E2; [|assumption|assumption].
  apply (R_target s t r s1 e); auto. now rewrite U.
Qed.
Lemma q_q_target_of t : P t -> moves (q_target_of pr w c t).
Proof.
  intros Pt. unfold q_target_of. apply mbind; [now apply q_init|]. intros _.
  apply mbind; [intros s; apply R_refl|]. intros s. destruct (bget (cli_target t) (s_target s)); [apply mret|apply mlift].
Qed.
Definition arg_in (a : target_arg) : Prop := forall t, to_triple a = Ok t -> P t.
Lemma q_q_target a : arg_in a -> moves (q_target pr w c a).
Proof.
  intros Pa s. unfold q_target. rewrite bindM_eq. unfold lift.
  destruct (to_triple a) as [t|e|p] eqn:E; [|apply R_refl|apply R_refl]. apply q_q_target_of. auto.
Qed.
Definition query_in (q : query) : Prop :=
  match q with
  | QTarget a | QLinker a | QRunner a | QRustflags a | QRustdocflags a => arg_in a
  | _ => True
  end.

Lemma query_moves q : query_in q -> moves (run_query pr w c q).
Proof.
  intros Pq. destruct q; cbn [run_query query_in] in *; try (apply (moves_mapM R R_refl R_trans)); try apply mret.
  - now apply q_q_target.
  - apply mbind; [now apply q_q_target|intros x; apply mret].
  - apply mbind; [now apply q_q_target|intros x; apply mret].
  - apply mbind; [now apply q_q_target|intros x; apply mret].
  - apply mbind; [now apply q_q_target|intros x; apply mret].
  - unfold q_build_target_for_config. apply mbind; [apply mlift|]. intros ts.
    destruct ts; [|apply mret].
    assert (H : moves (h <~ cx_host_triple pr w (ec_cx c) (ec_build c) ;; t <~ lift (triple_from h) ;; ret [t])).
    { apply mbind; [apply q_cx_host|]. intros h. apply mbind; [apply mlift|]. intros t. apply mret. }
    destruct (eb_target (ec_build c)) as [[|x l']|]; [assumption|apply mret|assumption].
  - apply q_cx_rustc.
  - apply q_cx_host.
  - apply q_cx_rv.
  - apply q_cx_cv.
Qed.
Lemma queries_move qs : Forall query_in qs -> forall s, R s (run_queries pr w c qs s).
Proof.
  induction 1 as [|q qs Hq Hqs IH]; intros s; cbn [run_queries]; [apply R_refl|].
  apply (R_trans _ (snd (run_query pr w c q s))); [now apply query_moves|apply IH].
Qed.
End Queries.

(** ** What is filled stays *)

Lemma grows_refl s : grows s s.
Proof. repeat split; auto. now exists []. Qed.
Lemma grows_trans a b c : grows a b -> grows b c -> grows a c.
Proof.
  intros (A1 & (l & A2) & A3 & A4 & A5 & A6 & A7 & A8) (B1 & (l' & B2) & B3 & B4 & B5 & B6 & B7 & B8).
  repeat split; auto; [lia|]. exists (l' ++ l). now rewrite B2, A2, app_assoc.
Qed.

Lemma cfg_get_add t c l t' :
  cfg_get t' ((t, c) :: l) = if str_eqb t' t then Some c else cfg_get t' l.
Proof. reflexivity. Qed.

Ltac grow := repeat split; cbn; auto; try (now exists []); try (eexists [_]; reflexivity); try congruence.

Lemma query_grows pr w c q s : grows s (snd (run_query pr w c q s)).
Proof.
  apply (query_moves grows) with (P := fun _ => True); auto using grows_refl; try exact grows_trans;
    intros; try (grow; fail); [| |now destruct q].
  - (* add_cfg *)
    cbv zeta in *. cbn in *. grow. intros t' c' G.
    destruct (str_eqb t' (cli_target t)) eqn:E; [|assumption]. apply str_eqb_eq in E as ->. congruence.
  - apply (grows_trans _ s1); [assumption|]. grow. intros t' e' G. rewrite bget_binsert.
    destruct (str_eqb t' (cli_target t)) eqn:E; [|assumption]. apply str_eqb_eq in E as ->. congruence.
Qed.
Lemma queries_grow pr w c qs s : grows s (run_queries pr w c qs s).
Proof.
  revert s. induction qs as [|q qs IH]; intros s; cbn [run_queries]; [apply grows_refl|].
  eapply grows_trans; [apply query_grows|apply IH].
Qed.
