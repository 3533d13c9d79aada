(** Queries about tools, for both families of systems: as [Proof/QueryProof.v], with
    [Model/OsLoad.v] for the model. *)
From Verif.Model Require Import Base Str Path StdPath OsPaths BMap Error Value De CfgExpr Triple EasyTypes Context
  ApplyEnv Process Resolve Easy OsLoad.
From Verif.Spec Require Import StrSpec PathSpec ConfigSpec EnvSpec CfgSpec TripleSpec TargetSpec QuerySpec OsTargetSpec OsQuerySpec.
From Verif.Proof Require Import StrFacts BMapFacts WalkProof StateProof TargetProof VersionProof QueryProof OsTargetProof.

Section Os.
Context (os : system) (suffix : str).

Lemma query_grows pr w c q s : grows s (snd (os_run_query os suffix pr w c q s)).
Proof.
  apply (query_moves os suffix grows) with (P := fun _ => True); auto using grows_refl; try exact grows_trans;
    intros; try (grow; fail); [apply cx_rustc_grows| | |now destruct q].
  - cbv zeta in *. cbn in *. grow. intros t' c' G.
    destruct (str_eqb t' (cli_target t)) eqn:E; [|assumption]. apply str_eqb_eq in E as ->. congruence.
  - apply (grows_trans _ s1); [assumption|]. now apply add_target_grows.
Qed.
Lemma queries_grow pr w c qs s : grows s (os_run_queries os suffix pr w c qs s).
Proof.
  revert s. induction qs as [|q qs IH]; intros s; cbn [os_run_queries]; [apply grows_refl|].
  eapply grows_trans; [apply query_grows|apply IH].
Qed.

(** ** Cells that queries about targets leave alone *)
Section Untouched.
Context {X : Type} (f : state -> X) (pr : profile) (w : world) (c : econfig).
Context (U_exists : forall p, untouched f (ask_exists w p)) (U_run : forall cmd, untouched f (run_read w cmd))
        (U_rustc : forall r, untouched f (set_rustc r)) (U_cfg : forall t x, untouched f (add_cfg t x))
        (U_target : forall t e, untouched f (add_target t e)).
Let cx := ec_cx c.
Let b := ec_build c.

Lemma u_target_cfg t : untouched f (os_target_cfg os suffix w cx b t).
Proof.
  unfold os_target_cfg. intros s. rewrite bindM_eq. cbn [get].
  destruct (cfg_get (cli_target t) (s_cfg s)); [reflexivity|]. revert s.
  apply untouched_bind; [now apply untouched_rustc|]. intros r.
  apply untouched_bind; [apply U_run|]. intros out. apply untouched_bind; [apply U_cfg|easy].
Qed.
Lemma u_resolve_cfgs t tables : forall acc, untouched f (os_resolve_cfgs os suffix pr w cx b t tables acc).
Proof.
  induction tables as [|[k v] tables IH]; intros acc; cbn [os_resolve_cfgs]; [easy|].
  destruct (negb (starts_with (B "cfg(") k)); [apply IH|].
  apply untouched_bind.
  - unfold os_eval_cfg. apply untouched_bind; [easy|]. intros e. apply untouched_bind; [apply u_target_cfg|easy].
  - intros m. destruct acc as [[x y] z]. apply IH.
Qed.
Lemma u_resolve_target tables t : untouched f (os_resolve_target os suffix pr w cx b tables t).
Proof.
  unfold os_resolve_target. cbv zeta. destruct (starts_with (B "cfg(") (tt_triple t)); [easy|].
  do 5 (apply untouched_bind; [easy|intros ?]).
  apply untouched_bind; [apply u_resolve_cfgs|]. intros [[x y] z]. easy.
Qed.
Lemma u_target_query q a : target_query q a -> untouched f (os_run_query os suffix pr w c q).
Proof.
  intros Q s. rewrite (target_query_run os suffix _ _ _ _ _ _ Q). revert s. apply untouched_bind; [|easy].
  unfold os_q_target. apply untouched_bind; [easy|]. intros t. unfold os_q_target_of.
  apply untouched_bind.
  - unfold os_init_target_config. intros s. rewrite bindM_eq. cbn [get].
    destruct (bget (cli_target t) (s_target s)); [reflexivity|]. revert s.
    apply untouched_bind; [apply u_resolve_target|]. intros r. apply untouched_bind; [easy|]. intros e. apply U_target.
  - intros _ s. rewrite bindM_eq. cbn [get]. now destruct (bget (cli_target t) (s_target s)).
Qed.
End Untouched.

(** ** Later is as good *)
Section Told.
Context (pr : profile) (w : world) (c : econfig).
Let cx := ec_cx c.
Let b := ec_build c.
Context (found : nat -> str -> Prop) (found_mono : forall n m p, n <= m -> found n p -> found m p)
        (found_now : forall n m, n <= m -> found m (os_compiler os suffix w c n)).

(** What [rustc()] answers. *)
Definition answered_rustc (now : nat) (r : epath_and_args) : Prop :=
  cx_rustc0 cx = Some r \/ (cx_rustc0 cx = None /\ wrapped_rustc found b now r).
Lemma rustc_command_mono n m r : n <= m -> answered_rustc n r -> answered_rustc m r.
Proof.
  intros L [H|(H & p & K & C)]; [now left|right]. split; [assumption|]. exists p. split; [|assumption].
  now apply (found_mono n).
Qed.
Lemma rustc_question_mono n m q : n <= m -> asked_rustc found b n q -> asked_rustc found b m q.
Proof. intros L (p & H & K). exists p. split; [now apply (found_mono n)|assumption]. Qed.
Lemma ran_mono n m q out : n <= m -> ran w n q out -> ran w m q out.
Proof. intros L (k & H & K). exists k. split; [lia|assumption]. Qed.

Lemma cargo_mute_mono n m : n <= m -> cargo_silent w (cx_cargo cx) n -> cargo_silent w (cx_cargo cx) m.
Proof. intros L (k & H & K). exists k. split; [lia|assumption]. Qed.

Record told (s : state) : Prop := mkTold {
  told_rustc : forall r, s_rustc s = Some r -> answered_rustc (s_clock s) r;
  told_no_rustc : s_rustc s = None -> cx_rustc0 cx = None;
  told_cv : forall v, s_cargo_version s = Some v -> cargo_said w (cx_cargo cx) s v;
  told_rv : forall v, s_rustc_version s = Some v -> rustc_said found w b s v;
  told_host : forall h, s_host s = Some h -> host_said found w b (cx_cargo cx) (cx_host0 cx) s h;
  told_no_host : s_host s = None -> cx_host0 cx = None;
  told_trace : forall cmd, In cmd (s_trace s) -> program_of found b (cx_cargo cx) s cmd;
  told_cfg : cfgs_printed w s
}.

Lemma grows_trace s s' : grows s s' -> forall cmd, In cmd (s_trace s) -> In cmd (s_trace s').
Proof. intros (_ & (l & ->) & _) cmd I. apply in_or_app. now right. Qed.
Lemma cargo_told_grows s s' v : grows s s' -> cargo_said w (cx_cargo cx) s v -> cargo_said w (cx_cargo cx) s' v.
Proof.
  intros G (out & I & R & H). exists out. split; [eapply grows_trace; eauto|]. split; [|assumption].
  apply (ran_mono (s_clock s)); [apply G|assumption].
Qed.
Lemma rustc_told_grows s s' v : grows s s' -> rustc_said found w b s v -> rustc_said found w b s' v.
Proof.
  intros G (cmd & out & Q & I & R & H). exists cmd, out.
  split; [apply (rustc_question_mono (s_clock s)); [apply G|assumption]|].
  split; [eapply grows_trace; eauto|]. split; [|assumption].
  apply (ran_mono (s_clock s)); [apply G|assumption].
Qed.
Lemma host_told_grows s s' h : grows s s' -> host_said found w b (cx_cargo cx) (cx_host0 cx) s h -> host_said found w b (cx_cargo cx) (cx_host0 cx) s' h.
Proof.
  intros G [H|(N & [(out & v & I & R & H)|(M & cmd & out & v & Q & I & R & H)])]; [now left| |]; right; (split; [assumption|]).
  - left. exists out, v. split; [eapply grows_trace; eauto|]. split; [|assumption].
    apply (ran_mono (s_clock s)); [apply G|assumption].
  - right. split; [apply (cargo_mute_mono (s_clock s)); [apply G|assumption]|]. exists cmd, out, v.
    split; [apply (rustc_question_mono (s_clock s)); [apply G|assumption]|].
    split; [eapply grows_trace; eauto|]. split; [|assumption].
    apply (ran_mono (s_clock s)); [apply G|assumption].
Qed.
Lemma may_run_grows s s' cmd : grows s s' -> program_of found b (cx_cargo cx) s cmd -> program_of found b (cx_cargo cx) s' cmd.
Proof.
  intros G [H|[H|(r & T & H & K)]]; [now left| |].
  - right. left. apply (rustc_question_mono (s_clock s)); [apply G|assumption].
  - right. right. exists r, T. split; [|assumption]. now apply G.
Qed.

(** Steps of the state that keep [told]. *)
Lemma told_step s s' : told s -> grows s s' ->
  (s_rustc s = None -> forall r, s_rustc s' = Some r -> answered_rustc (s_clock s') r) ->
  (s_host s = None -> forall h, s_host s' = Some h -> host_said found w b (cx_cargo cx) (cx_host0 cx) s' h) ->
  (s_cargo_version s = None -> forall v, s_cargo_version s' = Some v -> cargo_said w (cx_cargo cx) s' v) ->
  (s_rustc_version s = None -> forall v, s_rustc_version s' = Some v -> rustc_said found w b s' v) ->
  (forall cmd, In cmd (s_trace s') -> In cmd (s_trace s) \/ program_of found b (cx_cargo cx) s' cmd) ->
  cfgs_printed w s' -> told s'.
Proof.
  intros [T1 T2 T3 T4 T5 T6 T7 T8] G H1 H2 H3 H4 H5 H6.
  pose proof G as (Gc & _ & Gr & Gh & Gv & Gw & _ & _).
  constructor.
  - intros r Hr. destruct (s_rustc s) as [r0|] eqn:E; [|auto].
    rewrite (Gr r0 eq_refl) in Hr. injection Hr as <-. apply (rustc_command_mono (s_clock s)); auto.
  - intros N. destruct (s_rustc s) as [r0|] eqn:E; [|auto]. rewrite (Gr r0 eq_refl) in N. discriminate.
  - intros v Hv. destruct (s_cargo_version s) as [v0|] eqn:E; [|auto].
    rewrite (Gw v0 eq_refl) in Hv. injection Hv as <-. apply (cargo_told_grows s); auto.
  - intros v Hv. destruct (s_rustc_version s) as [v0|] eqn:E; [|auto].
    rewrite (Gv v0 eq_refl) in Hv. injection Hv as <-. apply (rustc_told_grows s); auto.
  - intros h Hh. destruct (s_host s) as [h0|] eqn:E; [|auto].
    rewrite (Gh h0 eq_refl) in Hh. injection Hh as <-. apply (host_told_grows s); auto.
  - intros N. destruct (s_host s) as [r0|] eqn:E; [|auto]. rewrite (Gh r0 eq_refl) in N. discriminate.
  - intros cmd I. destruct (H5 cmd I) as [J|J]; [|assumption]. apply (may_run_grows s); auto.
  - assumption.
Qed.

Lemma told_init : told (state_init cx).
Proof.
  constructor; cbn; try discriminate; auto.
  - intros r H. now left.
  - intros h H. now left.
  - intros cmd [].
Qed.

(** ** Pieces *)
Definition keeps {A} (m : M A) : Prop := forall s, told s -> told (snd (m s)).
Lemma keeps_bind {A A'} (m : M A) (f : A -> M A') :
  keeps m -> (forall a s s1, told s -> m s = (Ok a, s1) -> told (snd (f a s1))) -> keeps (bindM m f).
Proof.
  intros Hm Hf s T. rewrite bindM_eq. specialize (Hm s T).
  destruct (m s) as [[a|e|p] s1] eqn:E; [|assumption|assumption]. eapply Hf; eauto.
Qed.

Lemma keeps_exists p : keeps (ask_exists w p).
Proof.
  intros s T. assert (G : grows s (snd (ask_exists w p s))) by grow.
  apply (told_step s); auto; try (intros N x E; cbn in E; congruence).
  now apply cfgs_printed_grows with s; [| |apply T].
Qed.
Lemma keeps_run s cmd : told s -> program_of found b (cx_cargo cx) s cmd -> told (snd (run_read w cmd s)).
Proof.
  intros T R. assert (G : grows s (snd (run_read w cmd s))) by grow.
  apply (told_step s); auto; try (intros N x E; cbn in E; congruence).
  - intros k [<-|I]; [right|now left]. now apply (may_run_grows s).
  - now apply cfgs_printed_grows with s; [| |apply T].
Qed.
Lemma run_ran s cmd out s1 : run_read w cmd s = (Ok out, s1) ->
  ran w (s_clock s1) cmd out /\ In cmd (s_trace s1) /\ s_clock s < s_clock s1.
Proof.
  unfold run_read. intros H. injection H as H <-. cbn. split; [|split; [now left|lia]].
  exists (s_clock s). split; [lia|assumption].
Qed.

Lemma base_ok s : exists p s1, os_base_rustc os suffix w cx b s = (Ok p, s1).
Proof. unfold os_base_rustc. destruct (eb_rustc b); unfold os_ask_rustc; eexists; eexists; reflexivity. Qed.
Lemma base_told s p s1 : told s -> os_base_rustc os suffix w cx b s = (Ok p, s1) ->
  told s1 /\ found (s_clock s1) p /\ grows s s1 /\ s_rustc s1 = s_rustc s /\ s_host s1 = s_host s
  /\ s_rustc_version s1 = s_rustc_version s /\ s_cargo_version s1 = s_cargo_version s.
Proof.
  intros T H. assert (F := found_now (s_clock s)). unfold os_compiler in F. fold cx b in F. unfold os_base_rustc in H.
  destruct (eb_rustc b) as [r|].
  - injection H as <- <-. auto 10 using grows_refl.
  - unfold os_ask_rustc in H. cbv zeta in H. unfold os_rustc_path in F.
    set (q := std_join os (std_pop os (cx_cargo cx)) (B "rustc" ++ suffix)) in *.
    apply bindM_ok in H as (x & s2 & Hx & H). injection H as <- <-.
    assert (K := keeps_exists q s T). rewrite Hx in K. split; [exact K|].
    injection Hx as <- <-. split; [apply F; cbn; lia|split; [grow|repeat split]].
Qed.

Lemma chain_command ws p : command_of (ws ++ [p]) (chain_program ws p).
Proof. now destruct ws. Qed.
Lemma opt_maybe {A} (o : option A) : opt_list o = maybe o.
Proof. now destruct o. Qed.

Lemma rustc_ok s : exists r s1, os_cx_rustc os suffix w cx b s = (Ok r, s1).
Proof.
  unfold os_cx_rustc. rewrite bindM_eq. cbn [get]. destruct (s_rustc s) as [r|]; [eexists; eexists; reflexivity|].
  destruct (base_ok s) as (p & s1 & H). rewrite bindM_eq, H. eexists; eexists; reflexivity.
Qed.
Lemma keeps_rustc : keeps (os_cx_rustc os suffix w cx b).
Proof.
  intros s T. unfold os_cx_rustc. rewrite bindM_eq. cbn [get]. destruct (s_rustc s) as [r|] eqn:E; [assumption|].
  destruct (base_ok s) as (p & s1 & H). rewrite bindM_eq, H.
  destruct (base_told s p s1 T H) as (T1 & C & G & F1 & F2 & F3 & F4).
  rewrite bindM_eq. cbn -[chain_program]. rewrite E in F1.
  assert (G1 : grows s1 (snd (set_rustc (chain_program (opt_list (eb_rustc_wrapper b) ++ opt_list (eb_rustc_workspace_wrapper b)) p) s1))) by grow.
  apply (told_step s1); auto; try (intros N x Ex; cbn in Ex; congruence).
  - intros _ r [= <-]. right. split; [apply (told_no_rustc s T), E|].
    exists p. split; [exact C|]. rewrite <- !opt_maybe, app_assoc. apply chain_command.
  - now apply cfgs_printed_grows with s1; [| |apply T1].
Qed.

Lemma for_version_ok s : exists p s1, os_rustc_for_version os suffix w cx b s = (Ok p, s1).
Proof.
  unfold os_rustc_for_version. destruct (base_ok s) as (p & s1 & H). rewrite bindM_eq, H. eexists; eexists; reflexivity.
Qed.
Lemma for_version_told s r s1 : told s -> os_rustc_for_version os suffix w cx b s = (Ok r, s1) ->
  told s1 /\ asked_rustc found b (s_clock s1) (mkCommand (epa_path r) (epa_args r ++ [B "-vV"]))
  /\ s_host s1 = s_host s /\ s_rustc_version s1 = s_rustc_version s /\ s_cargo_version s1 = s_cargo_version s /\ grows s s1.
Proof.
  intros T H. unfold os_rustc_for_version in H. apply bindM_ok in H as (p & s2 & H & K). injection K as <- <-.
  destruct (base_told s p s2 T H) as (T1 & C & G & F1 & F2 & F3 & F4).
  split; [assumption|]. split; [|auto]. exists p. split; [assumption|].
  unfold ask. destruct (eb_rustc_wrapper b); reflexivity.
Qed.

Lemma verbose_told s r cmd : cmd = mkCommand (epa_path r) (epa_args r ++ [B "-vV"]) -> told s -> program_of found b (cx_cargo cx) s cmd ->
  told (snd (verbose_version w r s)) /\ grows s (snd (verbose_version w r s))
  /\ forall vv s1, verbose_version w r s = (Ok vv, s1) -> snd vv = cmd /\ ran w (s_clock s1) cmd (fst vv) /\ In cmd (s_trace s1)
     /\ read_outcome cmd (w_run w (s_clock s) cmd) = Ok (fst vv).
Proof.
  intros E T R. unfold verbose_version. rewrite <- E. rewrite bindM_eq.
  assert (K := keeps_run s cmd T R). assert (G : grows s (snd (run_read w cmd s))) by grow.
  destruct (run_read w cmd s) as [[out|e|p] s1] eqn:H; cbn [snd] in *; (split; [assumption|]); (split; [assumption|]); try discriminate.
  intros vv s2 [= <- <-]. cbn [fst snd]. apply run_ran in H as K'. split; [reflexivity|].
  split; [apply K'|]. split; [apply K'|]. now injection H as H _.
Qed.
Lemma verbose_cells s r : let s1 := snd (verbose_version w r s) in
  s_host s1 = s_host s /\ s_rustc_version s1 = s_rustc_version s /\ s_cargo_version s1 = s_cargo_version s /\ s_clock s1 = S (s_clock s).
Proof. unfold verbose_version, bindM, run_read. destruct (read_outcome _ _); cbn; auto. Qed.

(** *** The version cells *)
Lemma store_cv_cases v s :
  (s_cargo_version s = None /\ store_cargo_version pr v s = (Ok tt, snd (set_cargo_version v s)))
  \/ (s_cargo_version s <> None /\ debug_assertions pr = true /\ store_cargo_version pr v s = (Panic PDebugAssert, s))
  \/ (s_cargo_version s <> None /\ debug_assertions pr = false /\ store_cargo_version pr v s = (Ok tt, s)).
Proof.
  unfold store_cargo_version. rewrite bindM_eq. cbn [get]. destruct (s_cargo_version s) as [x|]; [|now left].
  right. assert (Some x <> None) by discriminate. destruct (debug_assertions pr); auto.
Qed.
Lemma store_rv_cases v s :
  (s_rustc_version s = None /\ store_rustc_version pr v s = (Ok tt, snd (set_rustc_version v s)))
  \/ (s_rustc_version s <> None /\ debug_assertions pr = true /\ store_rustc_version pr v s = (Panic PDebugAssert, s))
  \/ (s_rustc_version s <> None /\ debug_assertions pr = false /\ store_rustc_version pr v s = (Ok tt, s)).
Proof.
  unfold store_rustc_version. rewrite bindM_eq. cbn [get]. destruct (s_rustc_version s) as [x|]; [|now left].
  right. assert (Some x <> None) by discriminate. destruct (debug_assertions pr); auto.
Qed.
Lemma set_cv_told s v : told s -> s_cargo_version s = None -> cargo_said w (cx_cargo cx) s v -> told (snd (set_cargo_version v s)).
Proof.
  intros T N H. assert (G : grows s (snd (set_cargo_version v s))) by grow.
  apply (told_step s); auto; try (intros M x Ex; cbn in Ex; congruence).
  - intros _ x [= <-]. now apply (cargo_told_grows s).
  - now apply cfgs_printed_grows with s; [| |apply T].
Qed.
Lemma set_rv_told s v : told s -> s_rustc_version s = None -> rustc_said found w b s v -> told (snd (set_rustc_version v s)).
Proof.
  intros T N H. assert (G : grows s (snd (set_rustc_version v s))) by grow.
  apply (told_step s); auto; try (intros M x Ex; cbn in Ex; congruence).
  - intros _ x [= <-]. now apply (rustc_told_grows s).
  - now apply cfgs_printed_grows with s; [| |apply T].
Qed.
Lemma set_host_told s h : told s -> s_host s = None -> host_said found w b (cx_cargo cx) (cx_host0 cx) s h -> told (snd (set_host h s)).
Proof.
  intros T N H. assert (G : grows s (snd (set_host h s))) by grow.
  apply (told_step s); auto; try (intros M x Ex; cbn in Ex; congruence).
  - intros _ x [= <-]. now apply (host_told_grows s).
  - now apply cfgs_printed_grows with s; [| |apply T].
Qed.
Lemma store_cv_told s v : told s -> cargo_said w (cx_cargo cx) s v ->
  let s1 := snd (store_cargo_version pr v s) in
  told s1 /\ grows s s1 /\ s_clock s1 = s_clock s /\ s_trace s1 = s_trace s /\ s_host s1 = s_host s /\ s_rustc_version s1 = s_rustc_version s.
Proof.
  intros T H. destruct (store_cv_cases v s) as [(N & ->)|[(_ & _ & ->)|(_ & _ & ->)]]; cbn [snd]; auto 10 using grows_refl.
  split; [now apply set_cv_told|]. split; [grow|auto].
Qed.
Lemma store_rv_told s v : told s -> rustc_said found w b s v ->
  let s1 := snd (store_rustc_version pr v s) in
  told s1 /\ grows s s1 /\ s_clock s1 = s_clock s /\ s_trace s1 = s_trace s /\ s_host s1 = s_host s /\ s_cargo_version s1 = s_cargo_version s.
Proof.
  intros T H. destruct (store_rv_cases v s) as [(N & ->)|[(_ & _ & ->)|(_ & _ & ->)]]; cbn [snd]; auto 10 using grows_refl.
  split; [now apply set_rv_told|]. split; [grow|auto].
Qed.

(** *** The host *)
Lemma cargo_host_told s : told s -> cx_host0 cx = None ->
  let r := cargo_host pr w cx s in
  told (snd r) /\ s_host (snd r) = s_host s /\ s_rustc_version (snd r) = s_rustc_version s /\ grows s (snd r)
  /\ match fst r with
     | Ok h => host_said found w b (cx_cargo cx) (cx_host0 cx) (snd r) h
     | Err _ => cargo_silent w (cx_cargo cx) (s_clock (snd r))
     | Panic p => p = PDebugAssert /\ debug_assertions pr = true /\ s_cargo_version s <> None
     end.
Proof.
  intros T N0. cbv zeta. unfold cargo_host.
  destruct (verbose_told s (epa_new (cx_cargo cx)) (asked_cargo (cx_cargo cx)) eq_refl T (or_introl eq_refl)) as (T1 & G1 & V).
  destruct (verbose_cells s (epa_new (cx_cargo cx))) as (C1 & C2 & C3 & C4). rewrite bindM_eq.
  destruct (verbose_version w (epa_new (cx_cargo cx)) s) as [[vv|e|p] s1] eqn:E; cbn [fst snd] in *.
  - destruct (V vv s1 eq_refl) as (Ev & R & I & Rd). rewrite bind_lift.
    destruct (cargo_version_of vv) as [v|e|p] eqn:Hv; cbn [fst snd].
    + apply cargo_version_iff in Hv. assert (Tv : cargo_said w (cx_cargo cx) s1 v) by (exists (fst vv); auto).
      destruct (store_cv_told s1 v T1 Tv) as (T2 & G2 & D1 & D2 & D3 & D4). rewrite bindM_eq.
      assert (G := grows_trans _ _ _ G1 G2).
      destruct (store_cv_cases v s1) as [(N & Es)|[(N & Dp & Es)|(N & Dp & Es)]]; rewrite Es in *; cbn [fst snd] in *.
      2:{ repeat (split; [assumption||congruence|]). congruence. }
      all: unfold lift; cbn [fst snd]; (split; [assumption|]); (split; [congruence|]); (split; [congruence|]); (split; [assumption|]).
      all: destruct (host_of vv) as [h|e|p] eqn:Hh;
        [apply host_iff in Hh; right; split; [assumption|]; left; exists (fst vv), v; try rewrite D1, D2; auto
        |exists (s_clock s); split; [try rewrite D1; rewrite C4; lia|]; intros out v' h' Ro _ Ho; assert (out = fst vv) by congruence; subst out;
         apply host_iff in Ho; congruence
        |now apply host_no_panic in Hh].
    + split; [assumption|]. split; [congruence|]. split; [congruence|]. split; [assumption|].
      exists (s_clock s). split; [rewrite C4; lia|]. intros out v' h' Ro Hc _. assert (out = fst vv) by congruence. subst out.
      apply cargo_version_iff in Hc. congruence.
    + now apply cargo_version_no_panic in Hv.
  - split; [assumption|]. split; [congruence|]. split; [congruence|]. split; [assumption|].
    exists (s_clock s). split; [rewrite C4; lia|]. intros out v' h' Ro. unfold verbose_version, bindM, run_read in E.
    change (mkCommand (epa_path (epa_new (cx_cargo cx))) (epa_args (epa_new (cx_cargo cx)) ++ [B "-vV"]))
      with (asked_cargo (cx_cargo cx)) in E. cbv zeta in E. rewrite Ro in E. discriminate.
  - exfalso. unfold verbose_version, bindM, run_read in E. cbn in E.
    destruct (read_outcome _ _) eqn:Er in E; try discriminate. now apply read_no_panic in Er.
Qed.

Lemma rustc_host_told s : told s -> cx_host0 cx = None -> cargo_silent w (cx_cargo cx) (s_clock s) ->
  let r := os_rustc_host os suffix pr w cx b s in
  told (snd r) /\ s_host (snd r) = s_host s /\ s_cargo_version (snd r) = s_cargo_version s /\ grows s (snd r)
  /\ match fst r with
     | Ok h => host_said found w b (cx_cargo cx) (cx_host0 cx) (snd r) h
     | Err _ => True
     | Panic p => p = PDebugAssert /\ debug_assertions pr = true /\ s_rustc_version s <> None
     end.
Proof.
  intros T N0 Mu. cbv zeta. unfold os_rustc_host.
  destruct (for_version_ok s) as (r & s0 & E0). rewrite bindM_eq, E0.
  destruct (for_version_told s r s0 T E0) as (T0 & Q & F1 & F2 & F3 & G0).
  apply (cargo_mute_mono _ (s_clock s0)) in Mu; [|apply G0].
  destruct (verbose_told s0 r _ eq_refl T0 (or_intror (or_introl Q))) as (T1 & G1 & V).
  destruct (verbose_cells s0 r) as (C1 & C2 & C3 & C4). rewrite bindM_eq.
  set (cmd := mkCommand (epa_path r) (epa_args r ++ [B "-vV"])) in *.
  apply (grows_trans _ _ _ G0) in G1.
  destruct (verbose_version w r s0) as [[vv|e|p] s1] eqn:E; cbn [fst snd] in *.
  - destruct (V vv s1 eq_refl) as (Ev & R & I & Rd). rewrite bind_lift.
    assert (Mu1 : cargo_silent w (cx_cargo cx) (s_clock s1)) by (apply (cargo_mute_mono (s_clock s0)); [rewrite C4; lia|assumption]).
    assert (Q1 : asked_rustc found b (s_clock s1) cmd) by (apply (rustc_question_mono (s_clock s0)); [rewrite C4; lia|assumption]).
    destruct (rustc_version_of vv) as [v|e|p] eqn:Hv; cbn [fst snd].
    + apply rustc_version_iff in Hv. assert (Tv : rustc_said found w b s1 v) by (exists cmd, (fst vv); auto).
      destruct (store_rv_told s1 v T1 Tv) as (T2 & G2 & D1 & D2 & D3 & D4). rewrite bindM_eq.
      assert (G := grows_trans _ _ _ G1 G2).
      destruct (store_rv_cases v s1) as [(N & Es)|[(N & Dp & Es)|(N & Dp & Es)]]; rewrite Es in *; cbn [fst snd] in *.
      2:{ repeat (split; [assumption||congruence|]). congruence. }
      all: unfold lift; cbn [fst snd]; (split; [assumption|]); (split; [congruence|]); (split; [congruence|]); (split; [assumption|]).
      all: destruct (host_of vv) as [h|e|p] eqn:Hh;
        [apply host_iff in Hh; right; split; [assumption|]; right; try rewrite D1, D2; split; [assumption|]; exists cmd, (fst vv), v; auto 10
        |exact Logic.I
        |now apply host_no_panic in Hh].
    + repeat (split; [assumption||congruence|]). exact Logic.I.
    + now apply rustc_version_no_panic in Hv.
  - repeat (split; [assumption||congruence|]). exact Logic.I.
  - exfalso. unfold verbose_version, bindM, run_read in E. cbn in E.
    destruct (read_outcome _ _) eqn:Er in E; try discriminate. now apply read_no_panic in Er.
Qed.

(** What a call about the host does. *)
Lemma host_told_result s : told s ->
  let r := os_cx_host_triple os suffix pr w cx b s in
  told (snd r) /\ grows s (snd r)
  /\ match fst r with
     | Ok h => s_host (snd r) = Some h
     | Err _ => s_host (snd r) = None
     | Panic p => p = PDebugAssert /\ debug_assertions pr = true /\ s_host s = None
                  /\ (s_cargo_version s <> None \/ s_rustc_version s <> None)
     end.
Proof.
  intros T. cbv zeta. unfold os_cx_host_triple. rewrite bindM_eq. cbn [get].
  destruct (s_host s) as [h|] eqn:Eh; [cbn; auto using grows_refl|].
  assert (N0 := told_no_host s T Eh). rewrite bindM_eq. unfold or_else.
  destruct (cargo_host_told s T N0) as (T1 & H1 & V1 & G1 & K1).
  destruct (cargo_host pr w cx s) as [[h|e|p] s1]; cbn [fst snd] in *.
  - rewrite bindM_eq. unfold ret. cbn. split; [apply set_host_told; [assumption|congruence|assumption]|].
    split; [|reflexivity]. apply (grows_trans _ _ _ G1). rewrite Eh in H1. grow.
  - destruct (rustc_host_told s1 T1 N0 K1) as (T2 & H2 & V2 & G2 & K2).
    apply (grows_trans _ _ _ G1) in G2.
    destruct (os_rustc_host os suffix pr w cx b s1) as [[h|e'|p] s2]; cbn [fst snd] in *.
    + rewrite bindM_eq. unfold ret. cbn. split; [apply set_host_told; [assumption|congruence|assumption]|].
      split; [|reflexivity]. apply (grows_trans _ _ _ G2). assert (s_host s2 = None) by congruence. grow.
    + split; [assumption|]. split; [assumption|congruence].
    + split; [assumption|]. split; [assumption|]. destruct K2 as (-> & D & N). split; [reflexivity|]. split; [assumption|].
      split; [reflexivity|]. right. congruence.
  - split; [assumption|]. split; [assumption|]. destruct K1 as (-> & D & N). auto.
Qed.
Lemma keeps_host : keeps (os_cx_host_triple os suffix pr w cx b).
Proof. intros s T. now apply host_told_result. Qed.

Lemma rv_told_result s : told s ->
  let r := os_cx_rustc_version os suffix pr w cx b s in
  told (snd r)
  /\ match fst r with
     | Ok v => s_rustc_version (snd r) = Some v
     | Err _ => s_rustc_version (snd r) = None
     | Panic p => p = PDebugAssert /\ debug_assertions pr = true /\ s_host s = None /\ s_cargo_version s <> None
     end.
Proof.
  intros T. cbv zeta. unfold os_cx_rustc_version. rewrite bindM_eq. cbn [get].
  destruct (s_rustc_version s) as [v|] eqn:Ev; [cbn; auto|].
  rewrite bindM_eq. unfold ignore_err.
  destruct (host_told_result s T) as (T1 & _ & K1).
  destruct (os_cx_host_triple os suffix pr w cx b s) as [x s1]. cbn [fst snd] in *.
  assert (Go : let r := (s2 <~ get;;
      match s_rustc_version s2 with
      | Some v => ret v
      | None =>
          p <~ os_rustc_for_version os suffix w cx b;;
          vv <~ verbose_version w p;;
          v <~ lift (rustc_version_of vv);; _ <~ set_rustc_version v;; ret v
      end) s1 in told (snd r) /\ match fst r with
     | Ok v => s_rustc_version (snd r) = Some v
     | Err _ => s_rustc_version (snd r) = None
     | Panic p => False end).
  { cbv zeta. rewrite bindM_eq. cbn [get]. destruct (s_rustc_version s1) as [v|] eqn:E1; [cbn; auto|].
    destruct (for_version_ok s1) as (r & s2 & E2). rewrite bindM_eq, E2.
    destruct (for_version_told s1 r s2 T1 E2) as (T2 & Q & F1 & F2 & F3 & G2).
    destruct (verbose_told s2 r _ eq_refl T2 (or_intror (or_introl Q))) as (T3 & G3 & V).
    destruct (verbose_cells s2 r) as (C1 & C2 & C3 & C4). rewrite bindM_eq.
    set (cmd := mkCommand (epa_path r) (epa_args r ++ [B "-vV"])) in *.
    destruct (verbose_version w r s2) as [[vv|e|p] s3] eqn:E; cbn [fst snd] in *.
    - destruct (V vv s3 eq_refl) as (Ec & R & I & Rd). rewrite bind_lift.
      assert (Q1 : asked_rustc found b (s_clock s3) cmd) by (apply (rustc_question_mono (s_clock s2)); [rewrite C4; lia|assumption]).
      destruct (rustc_version_of vv) as [v|e|p] eqn:Hv.
      + cbn. split; [|reflexivity]. apply rustc_version_iff in Hv. apply set_rv_told; [assumption|congruence|].
        exists cmd, (fst vv). auto.
      + cbn [fst snd]. split; [assumption|congruence].
      + now apply rustc_version_no_panic in Hv.
    - split; [assumption|congruence].
    - exfalso. unfold verbose_version, bindM, run_read in E. cbn in E.
      destruct (read_outcome _ _) eqn:Er in E; try discriminate. now apply read_no_panic in Er. }
  destruct x as [h|e|p].
  - destruct Go as [Go1 Go2]. split; [exact Go1|]. destruct (fst _) in Go2 |- *; [assumption|assumption|destruct Go2].
  - destruct Go as [Go1 Go2]. split; [exact Go1|]. destruct (fst _) in Go2 |- *; [assumption|assumption|destruct Go2].
  - cbn [fst snd]. split; [assumption|]. destruct K1 as (-> & D & N & [K|K]); [auto|congruence].
Qed.
Lemma cv_told_result s : told s ->
  let r := os_cx_cargo_version os suffix pr w cx b s in
  told (snd r)
  /\ match fst r with
     | Ok v => s_cargo_version (snd r) = Some v
     | Err _ => s_cargo_version (snd r) = None
     | Panic p => p = PDebugAssert /\ debug_assertions pr = true /\ s_host s = None /\ s_rustc_version s <> None
     end.
Proof.
  intros T. cbv zeta. unfold os_cx_cargo_version. rewrite bindM_eq. cbn [get].
  destruct (s_cargo_version s) as [v|] eqn:Ev; [cbn; auto|].
  rewrite bindM_eq. unfold ignore_err.
  destruct (host_told_result s T) as (T1 & _ & K1).
  destruct (os_cx_host_triple os suffix pr w cx b s) as [x s1]. cbn [fst snd] in *.
  assert (Go : let r := (s2 <~ get;;
      match s_cargo_version s2 with
      | Some v => ret v
      | None =>
          vv <~ verbose_version w (epa_new (cx_cargo cx));;
          v <~ lift (cargo_version_of vv);; _ <~ set_cargo_version v;; ret v
      end) s1 in told (snd r) /\ match fst r with
     | Ok v => s_cargo_version (snd r) = Some v
     | Err _ => s_cargo_version (snd r) = None
     | Panic p => False end).
  { cbv zeta. rewrite bindM_eq. cbn [get]. destruct (s_cargo_version s1) as [v|] eqn:E1; [cbn; auto|].
    destruct (verbose_told s1 (epa_new (cx_cargo cx)) (asked_cargo (cx_cargo cx)) eq_refl T1 (or_introl eq_refl)) as (T3 & G3 & V).
    destruct (verbose_cells s1 (epa_new (cx_cargo cx))) as (C1 & C2 & C3 & C4). rewrite bindM_eq.
    destruct (verbose_version w (epa_new (cx_cargo cx)) s1) as [[vv|e|p] s3] eqn:E; cbn [fst snd] in *.
    - destruct (V vv s3 eq_refl) as (Ec & R & I & Rd). rewrite bind_lift.
      destruct (cargo_version_of vv) as [v|e|p] eqn:Hv.
      + cbn. split; [|reflexivity]. apply cargo_version_iff in Hv. apply set_cv_told; [assumption|congruence|].
        exists (fst vv). auto.
      + cbn [fst snd]. split; [assumption|congruence].
      + now apply cargo_version_no_panic in Hv.
    - split; [assumption|congruence].
    - exfalso. unfold verbose_version, bindM, run_read in E. cbn in E.
      destruct (read_outcome _ _) eqn:Er in E; try discriminate. now apply read_no_panic in Er. }
  destruct x as [h|e|p].
  - destruct Go as [Go1 Go2]. split; [exact Go1|]. destruct (fst _) in Go2 |- *; [assumption|assumption|destruct Go2].
  - destruct Go as [Go1 Go2]. split; [exact Go1|]. destruct (fst _) in Go2 |- *; [assumption|assumption|destruct Go2].
  - cbn [fst snd]. split; [assumption|]. destruct K1 as (-> & D & N & [K|K]); [congruence|auto].
Qed.

(** *** Targets *)
Lemma keeps_target_cfg t : keeps (os_target_cfg os suffix w cx b t).
Proof.
  intros s T. unfold os_target_cfg. rewrite bindM_eq. cbn [get].
  destruct (cfg_get (cli_target t) (s_cfg s)) as [x|] eqn:E; [assumption|].
  destruct (rustc_ok s) as (r & s1 & Hr). assert (T1 := keeps_rustc s T).
  assert (F := untouched_cfg_rustc os suffix w cx b s). rewrite bindM_eq, Hr in *. cbn [snd] in T1, F.
  apply cx_rustc_ok in Hr.
  change (cfg_command r t) with (cfg_question r (cli_target t)).
  assert (M : program_of found b (cx_cargo cx) s1 (cfg_question r (cli_target t))) by (right; right; eauto).
  assert (T2 := keeps_run s1 _ T1 M). rewrite bindM_eq.
  destruct (run_read w (cfg_question r (cli_target t)) s1) as [[out|e|p] s2] eqn:E2; [|assumption|assumption].
  assert (Fc : s_cfg s2 = s_cfg s1) by (apply (f_equal snd) in E2; cbn [snd run_read] in E2; now rewrite <- E2).
  assert (Fr : s_rustc s2 = s_rustc s1) by (apply (f_equal snd) in E2; cbn [snd run_read] in E2; now rewrite <- E2).
  cbv zeta. rewrite bindM_eq. cbn -[add_cfg cfg_parse]. cbn [snd] in T2.
  assert (G : grows s2 (snd (add_cfg (cli_target t) (cfg_parse out) s2))) by (apply add_cfg_grows; congruence).
  apply (told_step s2); auto; try (intros N x Ex; cbn in Ex; congruence).
  intros T' x Hx. cbn in Hx. destruct (str_eqb T' (cli_target t)) eqn:Et.
  - apply str_eqb_eq in Et as ->. injection Hx as <-. exists out. split; [reflexivity|].
    injection E2 as Ho <-. exists (s_clock s1), r. cbn. repeat split; auto.
  - destruct (told_cfg s2 T2 T' x Hx) as (o & Ho & P).
    exists o. split; [assumption|]. now apply (printed_grows w s2).
Qed.
Lemma keeps_lift {A} (r : result A) : keeps (lift r). Proof. now intros s. Qed.
Lemma keeps_bind' {A A'} (m : M A) (f : A -> M A') : keeps m -> (forall a, keeps (f a)) -> keeps (bindM m f).
Proof.
  intros Hm Hf. apply keeps_bind; [assumption|]. intros a s s1 T E. apply Hf. specialize (Hm s T). now rewrite E in Hm.
Qed.
Lemma keeps_eval k t : keeps (os_eval_cfg os suffix pr w cx b k t).
Proof.
  unfold os_eval_cfg. apply keeps_bind'; [apply keeps_lift|]. intros e.
  apply keeps_bind'; [apply keeps_target_cfg|]. intros x. apply keeps_lift.
Qed.
Lemma keeps_resolve_cfgs t tables : forall acc, keeps (os_resolve_cfgs os suffix pr w cx b t tables acc).
Proof.
  induction tables as [|[k v] tables IH]; intros acc; cbn [os_resolve_cfgs]; [now intros s|].
  destruct (negb (starts_with (B "cfg(") k)); [apply IH|].
  apply keeps_bind'; [apply keeps_eval|]. intros m. destruct acc as [[x y] z]. apply IH.
Qed.
Lemma keeps_resolve tables t : keeps (os_resolve_target os suffix pr w cx b tables t).
Proof.
  unfold os_resolve_target. cbv zeta. destruct (starts_with (B "cfg(") (tt_triple t)); [apply keeps_lift|].
  do 5 (apply keeps_bind'; [apply keeps_lift|intros ?]).
  apply keeps_bind'; [apply keeps_resolve_cfgs|]. intros [[x y] z]. now intros s.
Qed.

(** Where the settings of targets come from. *)
Definition rows (s : state) : Prop :=
  forall T e, bget T (s_target s) = Some e ->
  exists t s1 s2 r, plain_made os t /\ cli_target t = T /\ told s1
    /\ os_resolve_target os suffix pr w cx b (ec_de_target c) t s1 = (Ok r, s2)
    /\ os_etarget_of os (cx_current_dir cx) r = Ok e.
Definition full (s : state) : Prop := told s /\ rows s.

Lemma add_target_told s t e : told s -> bget (cli_target t) (s_target s) = None -> told (snd (add_target (cli_target t) e s)).
Proof.
  intros T N. assert (G := add_target_grows t e s N).
  apply (told_step s); auto; try (intros M x Ex; cbn in Ex; congruence).
  now apply cfgs_printed_grows with s; [| |apply T].
Qed.
Lemma keeps_init t : keeps (os_init_target_config os suffix pr w c t).
Proof.
  intros s T. unfold os_init_target_config. rewrite bindM_eq. cbn [get].
  destruct (bget (cli_target t) (s_target s)) as [e|] eqn:E; [assumption|]. fold cx b. rewrite bindM_eq.
  assert (T1 := keeps_resolve (ec_de_target c) t s T).
  assert (U := target_untouched_resolve os suffix pr w cx b (ec_de_target c) t s).
  destruct (os_resolve_target os suffix pr w cx b (ec_de_target c) t s) as [[r|e|p] s1]; [|assumption|assumption].
  cbn [snd] in *. rewrite bind_lift. destruct (os_etarget_of os (cx_current_dir cx) r) as [e|e|p]; [|assumption|assumption].
  apply add_target_told; [assumption|congruence].
Qed.
Lemma keeps_target_query q a : target_query q a -> keeps (os_run_query os suffix pr w c q).
Proof.
  intros Q s T. rewrite (target_query_run os suffix _ _ _ _ _ _ Q). revert s T. apply keeps_bind'; [|now intros x s].
  unfold os_q_target. apply keeps_bind'; [apply keeps_lift|]. intros t. unfold os_q_target_of.
  apply keeps_bind'; [apply keeps_init|]. intros _ s T. rewrite bindM_eq. cbn [get].
  now destruct (bget (cli_target t) (s_target s)).
Qed.
Lemma keeps_query q : keeps (os_run_query os suffix pr w c q).
Proof.
  destruct q; try (eapply keeps_target_query; unfold target_query; eauto 6; fail); try (now intros s).
  - cbn [os_run_query]. unfold mapM. apply keeps_bind'; [|now intros x s].
    unfold os_q_build_target_for_config. apply keeps_bind'; [apply keeps_lift|]. intros ts. destruct ts; [|now intros s].
    destruct (eb_target (ec_build c)) as [[|t ts]|]; try (now intros s);
      (apply keeps_bind'; [apply keeps_host|]; intros h; apply keeps_bind'; [apply keeps_lift|]; intros t; now intros s).
  - cbn [os_run_query]. apply keeps_bind'; [apply keeps_rustc|now intros x s].
  - cbn [os_run_query]. apply keeps_bind'; [apply keeps_host|now intros x s].
  - cbn [os_run_query]. apply keeps_bind'; [|now intros x s]. intros s T. now apply rv_told_result.
  - cbn [os_run_query]. apply keeps_bind'; [|now intros x s]. intros s T. now apply cv_told_result.
Qed.
Lemma reached_told s : os_reached os suffix pr w c s -> told s.
Proof.
  intros (qs & _ & ->). fold cx. assert (T := told_init). revert T. generalize (state_init cx) as s.
  induction qs as [|q qs IH]; intros s T; [assumption|]. cbn [os_run_queries]. now apply IH, keeps_query.
Qed.

(** The cells of the targets. *)
Lemma rows_other q s : (forall a, ~ target_query q a) -> s_target (snd (os_run_query os suffix pr w c q s)) = s_target s.
Proof.
  intros N. revert s. change (untouched s_target (os_run_query os suffix pr w c q)).
  assert (Ub : untouched s_target (os_base_rustc os suffix w cx b)).
  { unfold os_base_rustc. destruct (eb_rustc b); [easy|]. now apply untouched_bind. }
  assert (Uf : untouched s_target (os_rustc_for_version os suffix w cx b)).
  { unfold os_rustc_for_version. now apply untouched_bind. }
  assert (Uv : forall r, untouched s_target (verbose_version w r)).
  { intros r. unfold verbose_version. now apply untouched_bind. }
  assert (Uh : untouched s_target (os_cx_host_triple os suffix pr w cx b)).
  { unfold os_cx_host_triple. intros s. rewrite bindM_eq. cbn [get]. destruct (s_host s); [reflexivity|]. revert s.
    apply untouched_bind; [|intros h; now apply untouched_bind].
    assert (K : forall {A} (m m' : M A), untouched s_target m -> untouched s_target m' -> untouched s_target (or_else m m')).
    { intros A m m' H H' s. unfold or_else. assert (Hs := H s). destruct (m s) as [[a|e|p] s1]; cbn in *; auto. now rewrite H'. }
    apply K.
    - unfold cargo_host. apply untouched_bind; [apply Uv|]. intros vv. apply untouched_bind; [easy|]. intros v.
      apply untouched_bind; [|easy]. intros s. destruct (store_cv_cases v s) as [(_ & ->)|[(_ & _ & ->)|(_ & _ & ->)]]; reflexivity.
    - unfold os_rustc_host. apply untouched_bind; [apply Uf|]. intros p. apply untouched_bind; [apply Uv|]. intros vv.
      apply untouched_bind; [easy|]. intros v.
      apply untouched_bind; [|easy]. intros s. destruct (store_rv_cases v s) as [(_ & ->)|[(_ & _ & ->)|(_ & _ & ->)]]; reflexivity. }
  assert (Ui : untouched s_target (ignore_err (os_cx_host_triple os suffix pr w cx b))).
  { intros s. unfold ignore_err. specialize (Uh s). now destruct (os_cx_host_triple os suffix pr w cx b s) as [[x|e|p] s1]. }
  destruct q; try (exfalso; eapply N; unfold target_query; eauto 6; fail); try easy; cbn [os_run_query]; (apply untouched_bind; [|easy]).
  - unfold os_q_build_target_for_config. apply untouched_bind; [easy|]. intros ts. destruct ts; [|easy].
    destruct (eb_target (ec_build c)) as [[|t ts]|]; try easy;
      (apply untouched_bind; [apply Uh|]; intros h; now apply untouched_bind).
  - apply untouched_rustc; easy.
  - apply Uh.
  - unfold os_cx_rustc_version. fold cx b. intros s. rewrite bindM_eq. cbn [get]. destruct (s_rustc_version s); [reflexivity|].
    revert s. apply untouched_bind; [apply Ui|]. intros _ s. rewrite bindM_eq. cbn [get]. destruct (s_rustc_version s); [reflexivity|].
    revert s. apply untouched_bind; [apply Uf|]. intros p. apply untouched_bind; [apply Uv|]. intros vv.
    apply untouched_bind; [easy|]. intros v. now apply untouched_bind.
  - unfold os_cx_cargo_version. fold cx b. intros s. rewrite bindM_eq. cbn [get]. destruct (s_cargo_version s); [reflexivity|].
    revert s. apply untouched_bind; [apply Ui|]. intros _ s. rewrite bindM_eq. cbn [get]. destruct (s_cargo_version s); [reflexivity|].
    revert s. apply untouched_bind; [apply Uv|]. intros vv.
    apply untouched_bind; [easy|]. intros v. now apply untouched_bind.
Qed.
Lemma is_target_query q : (exists a, target_query q a) \/ forall a, ~ target_query q a.
Proof.
  unfold target_query. destruct q; try (left; eexists; eauto 6; fail); right; intros x; intuition congruence.
Qed.

Lemma rows_query q s : os_real_query os q -> full s -> full (snd (os_run_query os suffix pr w c q s)).
Proof.
  intros Rq [T H]. split; [now apply keeps_query|].
  destruct (is_target_query q) as [(a & Q)|N].
  2:{ intros T' e. rewrite rows_other by assumption. apply H. }
  rewrite (target_query_run os suffix _ _ _ _ _ _ Q). rewrite bindM_eq. unfold os_q_target. rewrite bind_lift.
  destruct (os_to_triple os a) as [t|e|p] eqn:Ht; [|assumption|assumption].
  assert (Mt : plain_made os t).
  { apply (real_arg_made os a); [|assumption]. destruct Q as [-> | [-> | [-> | [-> | -> ]]]]; exact Rq. }
  assert (K : rows (snd (os_init_target_config os suffix pr w c t s))).
  { unfold os_init_target_config. rewrite bindM_eq. cbn [get].
    destruct (bget (cli_target t) (s_target s)) as [e|] eqn:E; [assumption|]. fold cx b. rewrite bindM_eq.
    assert (U := target_untouched_resolve os suffix pr w cx b (ec_de_target c) t s).
    destruct (os_resolve_target os suffix pr w cx b (ec_de_target c) t s) as [[r|e|p] s1] eqn:Er; cbn [snd] in U;
      [|intros T' e'; cbn; rewrite U; apply H|intros T' e'; cbn; rewrite U; apply H].
    rewrite bind_lift. destruct (os_etarget_of os (cx_current_dir cx) r) as [e|e|p] eqn:Ee;
      [|intros T' e'; cbn; rewrite U; apply H|intros T' e'; cbn; rewrite U; apply H].
    intros T' e'. cbn. rewrite bget_binsert. destruct (str_eqb T' (cli_target t)) eqn:Et; [|rewrite U; apply H].
    apply str_eqb_eq in Et as ->. intros [= <-]. exists t, s, s1, r. auto 10. }
  unfold os_q_target_of. rewrite !bindM_eq. destruct (os_init_target_config os suffix pr w c t s) as [[[]|e|p] s1]; [|assumption|assumption].
  rewrite bindM_eq. cbn [get]. cbn [snd] in K. destruct (bget (cli_target t) (s_target s1)); exact K.
Qed.
Lemma reached_full s : os_reached os suffix pr w c s -> full s.
Proof.
  intros (qs & Hq & ->). fold cx. assert (T : full (state_init cx)) by (split; [apply told_init|intros ? ? [=]]).
  revert T. generalize (state_init cx) as s.
  induction Hq as [|q qs Rq Hq IH]; intros s T; [assumption|]. cbn [os_run_queries]. now apply IH, rows_query.
Qed.

(** ** A world that does not change *)
Section Steady.
Context (St : steady w).

Definition rd (cmd : command) : result str := read_outcome cmd (w_run w 0 cmd).
Lemma rd_at n cmd : read_outcome cmd (w_run w n cmd) = rd cmd.
Proof. unfold rd. now rewrite (proj2 St n 0). Qed.
Lemma ran_rd n cmd out : ran w n cmd out -> rd cmd = Ok out.
Proof. intros (k & _ & H). now rewrite rd_at in H. Qed.

Context (found_only : forall n p, found n p -> exists k, p = os_compiler os suffix w c k).
Definition baseP : str := os_compiler os suffix w c 0.
Lemma compiler_baseP n p : found n p -> p = baseP.
Proof.
  intros H. apply found_only in H as (k & ->). unfold baseP, os_compiler, os_rustc_path. destruct (eb_rustc (ec_build c)); [auto|].
  now rewrite (proj1 St k 0).
Qed.
Lemma base_value s : fst (os_base_rustc os suffix w cx b s) = Ok baseP.
Proof.
  unfold os_base_rustc, baseP, os_compiler. fold cx b. destruct (eb_rustc b); [reflexivity|]. unfold os_ask_rustc, os_rustc_path.
  cbv zeta. rewrite bindM_eq. unfold ask_exists. cbn [fst ret]. now rewrite (proj1 St (s_clock s) 0).
Qed.

Definition rustcP : epath_and_args :=
  match cx_rustc0 cx with
  | Some r => r
  | None => chain_program (opt_list (eb_rustc_wrapper b) ++ opt_list (eb_rustc_workspace_wrapper b)) baseP
  end.
Lemma command_of_unique ws r r' : command_of ws r -> command_of ws r' -> r = r'.
Proof. unfold command_of. destruct r, r'. cbn. intros -> [= -> ->]. reflexivity. Qed.
Lemma rustc_command_value n r : answered_rustc n r -> r = rustcP.
Proof.
  unfold rustcP. intros [->|(-> & p & C & H)]; [reflexivity|]. apply compiler_baseP in C as ->.
  eapply command_of_unique; [exact H|]. rewrite app_assoc. apply (chain_command (maybe _ ++ maybe _)).
Qed.
Lemma rustc_value s : told s -> fst (os_cx_rustc os suffix w cx b s) = Ok rustcP.
Proof.
  intros T. destruct (rustc_ok s) as (r & s1 & H). assert (T1 := keeps_rustc s T). rewrite H in *. cbn in *.
  apply cx_rustc_ok in H. now rewrite (rustc_command_value _ r (told_rustc _ T1 r H)).
Qed.

Definition versionP : epath_and_args := chain_program (opt_list (eb_rustc_wrapper b)) baseP.
Definition rustcQ : command := mkCommand (epa_path versionP) (epa_args versionP ++ [B "-vV"]).
Lemma rustc_question_value n cmd : asked_rustc found b n cmd -> cmd = rustcQ.
Proof.
  intros (p & C & H). apply compiler_baseP in C as ->. unfold rustcQ, versionP. destruct cmd as [x l]. unfold ask in H. cbn in H.
  destruct (eb_rustc_wrapper b); cbn in *; now injection H as <- <-.
Qed.
Lemma for_version_value s : fst (os_rustc_for_version os suffix w cx b s) = Ok versionP.
Proof.
  unfold os_rustc_for_version. rewrite bindM_eq. assert (H := base_value s).
  destruct (os_base_rustc os suffix w cx b s) as [x s1]. cbn in H. now subst x.
Qed.
Lemma verbose_value r s : fst (verbose_version w r s)
  = (out <- rd (mkCommand (epa_path r) (epa_args r ++ [B "-vV"])) ;; Ok (out, mkCommand (epa_path r) (epa_args r ++ [B "-vV"]))).
Proof.
  unfold verbose_version. rewrite bindM_eq. unfold run_read at 1. cbv zeta. rewrite rd_at.
  now destruct (rd _).
Qed.

(** The same outcome, but for the assertion. *)
Definition asserts : Prop := debug_assertions pr = true.
Definition near {A} (x v : result A) : Prop := x = v \/ (asserts /\ x = Panic PDebugAssert).
Definition gives {A} (m : M A) (v : result A) : Prop := forall s, near (fst (m s)) v.
Lemma gives_eq {A} (m : M A) v : (forall s, fst (m s) = v) -> gives m v.
Proof. intros H s. left. apply H. Qed.
Lemma gives_bind {A A'} (m : M A) (f : A -> M A') v k :
  gives m v -> (forall a, v = Ok a -> gives (f a) (k a)) -> gives (bindM m f) (bind v k).
Proof.
  intros Hm Hf s. rewrite bindM_eq. specialize (Hm s). destruct (m s) as [x s1]. cbn in Hm.
  destruct Hm as [->|[D ->]]; [|now right].
  destruct v as [a|e|p]; [now apply Hf|now left|now left].
Qed.
Lemma gives_or_else {A} (m m' : M A) v v' : gives m v -> gives m' v' ->
  gives (or_else m m') (match v with Ok a => Ok a | Err _ => v' | Panic p => Panic p end).
Proof.
  intros H H' s. unfold or_else. specialize (H s). destruct (m s) as [x s1]. cbn in H.
  destruct H as [->|[D ->]]; [|now right]. destruct v as [a|e|p]; [now left|apply H'|now left].
Qed.

Definition cargo_vv : result (str * command) :=
  out <- rd (asked_cargo (cx_cargo cx)) ;; Ok (out, asked_cargo (cx_cargo cx)).
Definition rustc_vv : result (str * command) := out <- rd rustcQ ;; Ok (out, rustcQ).
Definition cargoP : result cargo_version := vv <- cargo_vv ;; cargo_version_of vv.
Definition rvP : result rustc_version := vv <- rustc_vv ;; rustc_version_of vv.
Definition cargo_hostP : result str := vv <- cargo_vv ;; _ <- cargo_version_of vv ;; host_of vv.
Definition rustc_hostP : result str := vv <- rustc_vv ;; _ <- rustc_version_of vv ;; host_of vv.
Definition hostP : result str :=
  match cx_host0 cx with
  | Some h => Ok h
  | None => match cargo_hostP with Ok h => Ok h | Err _ => rustc_hostP | Panic p => Panic p end
  end.

Lemma store_cv_gives v : gives (store_cargo_version pr v) (Ok tt).
Proof. intros s. destruct (store_cv_cases v s) as [(_ & ->)|[(_ & D & ->)|(_ & _ & ->)]]; [now left|now right|now left]. Qed.
Lemma store_rv_gives v : gives (store_rustc_version pr v) (Ok tt).
Proof. intros s. destruct (store_rv_cases v s) as [(_ & ->)|[(_ & D & ->)|(_ & _ & ->)]]; [now left|now right|now left]. Qed.
Lemma lift_gives {A} (r : result A) : gives (lift r) r.
Proof. intros s. now left. Qed.

Lemma cargo_host_gives : gives (cargo_host pr w cx) cargo_hostP.
Proof.
  apply (gives_bind _ _ cargo_vv (fun vv => _ <- cargo_version_of vv ;; host_of vv)).
  { apply gives_eq. intros s. apply verbose_value. }
  intros vv _. apply (gives_bind _ _ (cargo_version_of vv) (fun _ => host_of vv)); [apply lift_gives|].
  intros v _. apply (gives_bind _ _ (Ok tt) (fun _ => host_of vv)); [apply store_cv_gives|]. intros _ _. apply lift_gives.
Qed.
Lemma rustc_host_gives : gives (os_rustc_host os suffix pr w cx b) rustc_hostP.
Proof.
  apply (gives_bind _ _ (Ok versionP) (fun _ => rustc_hostP)); [apply gives_eq, for_version_value|].
  intros r [= <-]. apply (gives_bind _ _ rustc_vv (fun vv => _ <- rustc_version_of vv ;; host_of vv)).
  { apply gives_eq. intros s. apply verbose_value. }
  intros vv _. apply (gives_bind _ _ (rustc_version_of vv) (fun _ => host_of vv)); [apply lift_gives|].
  intros v _. apply (gives_bind _ _ (Ok tt) (fun _ => host_of vv)); [apply store_rv_gives|]. intros _ _. apply lift_gives.
Qed.

Lemma cargo_told_value s v : cargo_said w (cx_cargo cx) s v -> cargoP = Ok v.
Proof.
  intros (out & _ & R & H). unfold cargoP, cargo_vv. rewrite (ran_rd _ _ _ R). cbn. now apply cargo_version_iff.
Qed.
Lemma rustc_told_value s v : rustc_said found w b s v -> rvP = Ok v.
Proof.
  intros (cmd & out & Q & _ & R & H). apply rustc_question_value in Q as ->. unfold rvP, rustc_vv.
  rewrite (ran_rd _ _ _ R). cbn. now apply rustc_version_iff.
Qed.
Lemma cargo_host_no_panic p : cargo_hostP <> Panic p.
Proof.
  unfold cargo_hostP, cargo_vv. destruct (rd (asked_cargo (cx_cargo cx))) as [out|e|q] eqn:E; cbn; [|discriminate|].
  - destruct (cargo_version_of _) eqn:Ev; cbn; [apply host_no_panic|discriminate|now apply cargo_version_no_panic in Ev].
  - now apply read_no_panic in E.
Qed.
Lemma host_told_value s h : host_said found w b (cx_cargo cx) (cx_host0 cx) s h -> hostP = Ok h.
Proof.
  unfold hostP. intros [->|(-> & [(out & v & _ & R & Hv & Hh)|((n & _ & M) & cmd & out & v & Q & _ & R & Hv & Hh)])]; [reflexivity| |].
  - unfold cargo_hostP, cargo_vv. rewrite (ran_rd _ _ _ R). cbn.
    apply (cargo_version_iff (out, asked_cargo (cx_cargo cx))) in Hv. rewrite Hv. cbn.
    apply (host_iff (out, asked_cargo (cx_cargo cx))) in Hh. now rewrite Hh.
  - rewrite rd_at in M. assert (cargo_hostP <> Ok h /\ forall h', cargo_hostP <> Ok h') as [_ K].
    { assert (K : forall h', cargo_hostP <> Ok h'); [|split; apply K]. intros h'. unfold cargo_hostP, cargo_vv.
      destruct (rd (asked_cargo (cx_cargo cx))) as [o|e|p] eqn:E; cbn; try discriminate.
      destruct (cargo_version_of (o, asked_cargo (cx_cargo cx))) as [v'|e|p] eqn:E'; cbn; try discriminate.
      intros H. apply host_iff in H. apply cargo_version_iff in E'. now apply (M o v' h'). }
    destruct cargo_hostP as [h'|e|p] eqn:E; [now destruct (K h')| |now apply cargo_host_no_panic in E].
    apply rustc_question_value in Q as ->. unfold rustc_hostP, rustc_vv. rewrite (ran_rd _ _ _ R). cbn.
    apply (rustc_version_iff (out, rustcQ)) in Hv. rewrite Hv. cbn. now apply (host_iff (out, rustcQ)) in Hh.
Qed.

(** The same outcome in every state os_reached os suffix. *)
Definition answers {A} (m : M A) (v : result A) : Prop := forall s, told s -> near (fst (m s)) v.

Lemma host_answers : answers (os_cx_host_triple os suffix pr w cx b) hostP.
Proof.
  intros s T. unfold os_cx_host_triple. rewrite bindM_eq. cbn [get]. destruct (s_host s) as [h|] eqn:E.
  - left. symmetry. apply (host_told_value s). now apply told_host.
  - unfold hostP. rewrite (told_no_host s T E).
    assert (K := gives_or_else _ _ _ _ cargo_host_gives rustc_host_gives s). rewrite bindM_eq.
    destruct (or_else (cargo_host pr w cx) (os_rustc_host os suffix pr w cx b) s) as [[h|e|p] s1]; exact K.
Qed.
Lemma rv_answers : answers (os_cx_rustc_version os suffix pr w cx b) rvP.
Proof.
  intros s T. unfold os_cx_rustc_version. rewrite bindM_eq. cbn [get]. destruct (s_rustc_version s) as [v|] eqn:E.
  { left. symmetry. apply (rustc_told_value s). now apply told_rv. }
  rewrite bindM_eq. unfold ignore_err. assert (H := host_answers s T). destruct (host_told_result s T) as (T1 & _ & P1).
  destruct (os_cx_host_triple os suffix pr w cx b s) as [x s1]. cbn [fst snd] in *.
  assert (Go : near (fst ((s2 <~ get;;
      match s_rustc_version s2 with
      | Some v => ret v
      | None =>
          p <~ os_rustc_for_version os suffix w cx b;;
          vv <~ verbose_version w p;;
          v <~ lift (rustc_version_of vv);; _ <~ set_rustc_version v;; ret v
      end) s1)) rvP).
  { rewrite bindM_eq. cbn [get]. destruct (s_rustc_version s1) as [v|] eqn:E1.
    { left. symmetry. apply (rustc_told_value s1). now apply told_rv. }
    revert s1 T1 P1 E1. enough (K : gives (p <~ os_rustc_for_version os suffix w cx b;; vv <~ verbose_version w p;;
          v <~ lift (rustc_version_of vv);; _ <~ set_rustc_version v;; ret v) rvP) by (intros; apply K).
    apply (gives_bind _ _ (Ok versionP) (fun _ => rvP)); [apply gives_eq, for_version_value|].
    intros r [= <-]. apply (gives_bind _ _ rustc_vv rustc_version_of); [apply gives_eq; intros s'; apply verbose_value|].
    intros vv _ s'. left. rewrite bind_lift. now destruct (rustc_version_of vv). }
  destruct x as [h|e|p]; [exact Go|exact Go|].
  right. destruct P1 as (-> & D & _). split; [exact D|reflexivity].
Qed.
Lemma cv_answers : answers (os_cx_cargo_version os suffix pr w cx b) cargoP.
Proof.
  intros s T. unfold os_cx_cargo_version. rewrite bindM_eq. cbn [get]. destruct (s_cargo_version s) as [v|] eqn:E.
  { left. symmetry. apply (cargo_told_value s). now apply told_cv. }
  rewrite bindM_eq. unfold ignore_err. assert (H := host_answers s T). destruct (host_told_result s T) as (T1 & _ & P1).
  destruct (os_cx_host_triple os suffix pr w cx b s) as [x s1]. cbn [fst snd] in *.
  assert (Go : near (fst ((s2 <~ get;;
      match s_cargo_version s2 with
      | Some v => ret v
      | None =>
          vv <~ verbose_version w (epa_new (cx_cargo cx));;
          v <~ lift (cargo_version_of vv);; _ <~ set_cargo_version v;; ret v
      end) s1)) cargoP).
  { rewrite bindM_eq. cbn [get]. destruct (s_cargo_version s1) as [v|] eqn:E1.
    { left. symmetry. apply (cargo_told_value s1). now apply told_cv. }
    revert s1 T1 P1 E1. enough (K : gives (vv <~ verbose_version w (epa_new (cx_cargo cx));;
          v <~ lift (cargo_version_of vv);; _ <~ set_cargo_version v;; ret v) cargoP) by (intros; apply K).
    apply (gives_bind _ _ cargo_vv cargo_version_of); [apply gives_eq; intros s'; apply verbose_value|].
    intros vv _ s'. left. rewrite bind_lift. now destruct (cargo_version_of vv). }
  destruct x as [h|e|p]; [exact Go|exact Go|].
  right. destruct P1 as (-> & D & _). split; [exact D|reflexivity].
Qed.

(** Queries about targets: always the same. *)
Definition same {A} (m : M A) : Prop := forall s s', told s -> told s' -> fst (m s) = fst (m s').
Lemma same_bind {A A'} (m : M A) (f : A -> M A') : keeps m -> same m -> (forall a, same (f a)) -> same (bindM m f).
Proof.
  intros K Sm Sf s s' T T'. rewrite !bindM_eq. assert (E := Sm s s' T T'). assert (T1 := K s T). assert (T1' := K s' T').
  destruct (m s) as [x s1], (m s') as [x' s1']. cbn in *. subst x'. destruct x as [a|e|p]; [|reflexivity|reflexivity].
  now apply Sf.
Qed.
Lemma same_lift {A} (r : result A) : same (lift r). Proof. now intros s s'. Qed.
Lemma same_target_cfg t : same (os_target_cfg os suffix w cx b t).
Proof.
  assert (K : forall s, told s -> fst (os_target_cfg os suffix w cx b t s) = (out <- rd (cfg_question rustcP (cli_target t)) ;; Ok (cfg_parse out))).
  { intros s T. unfold os_target_cfg. rewrite bindM_eq. cbn [get].
    destruct (cfg_get (cli_target t) (s_cfg s)) as [x|] eqn:E.
    - destruct (told_cfg s T _ _ E) as (out & -> & n & r & Hr & _ & _ & Ho). rewrite rd_at in Ho.
      rewrite (rustc_command_value _ r (told_rustc s T r Hr)) in Ho. now rewrite Ho.
    - rewrite bindM_eq. assert (V := rustc_value s T). destruct (os_cx_rustc os suffix w cx b s) as [x s1]. cbn in V. subst x.
      change (cfg_command rustcP t) with (cfg_question rustcP (cli_target t)).
      rewrite bindM_eq. unfold run_read at 1. rewrite rd_at. now destruct (rd _). }
  intros s s' T T'. now rewrite !K.
Qed.
Lemma same_resolve_cfgs t tables : forall acc, same (os_resolve_cfgs os suffix pr w cx b t tables acc).
Proof.
  induction tables as [|[k v] tables IH]; intros acc; cbn [os_resolve_cfgs]; [now intros s s'|].
  destruct (negb (starts_with (B "cfg(") k)); [apply IH|].
  apply same_bind; [apply keeps_eval| |].
  - unfold os_eval_cfg. apply same_bind; [apply keeps_lift|apply same_lift|]. intros e.
    apply same_bind; [apply keeps_target_cfg|apply same_target_cfg|]. intros x. apply same_lift.
  - intros m. destruct acc as [[x y] z]. apply IH.
Qed.
Lemma same_resolve tables t : same (os_resolve_target os suffix pr w cx b tables t).
Proof.
  unfold os_resolve_target. cbv zeta. destruct (starts_with (B "cfg(") (tt_triple t)); [apply same_lift|].
  do 5 (apply same_bind; [apply keeps_lift|apply same_lift|intros ?]).
  apply same_bind; [apply keeps_resolve_cfgs|apply same_resolve_cfgs|]. intros [[x y] z]. now intros s s'.
Qed.

Definition settingsP (t : triple) : result etarget :=
  r <- fst (os_resolve_target os suffix pr w cx b (ec_de_target c) t (state_init cx)) ;; os_etarget_of os (cx_current_dir cx) r.
Lemma target_value t s : plain_made os t -> full s -> fst (os_q_target_of os suffix pr w c t s) = settingsP t.
Proof.
  intros Mt [T H]. unfold os_q_target_of. rewrite bindM_eq. unfold os_init_target_config. rewrite bindM_eq. cbn [get].
  destruct (bget (cli_target t) (s_target s)) as [e|] eqn:E.
  - unfold ret at 1. rewrite bindM_eq. cbn [get]. rewrite E. destruct (H _ _ E) as (t' & s1 & s2 & r & Mt' & Et & T1 & Hr & He).
    apply (plain_made_unique os) in Et as ->; [|assumption|assumption].
    unfold settingsP. rewrite (same_resolve _ t _ s1 told_init T1), Hr. symmetry. exact He.
  - fold cx b. unfold settingsP. rewrite <- (same_resolve (ec_de_target c) t s _ T told_init). rewrite bindM_eq.
    destruct (os_resolve_target os suffix pr w cx b (ec_de_target c) t s) as [[r|e|p] s1]; [|reflexivity|reflexivity].
    rewrite bind_lift. cbn. destruct (os_etarget_of os (cx_current_dir cx) r) as [e|e|p]; [|reflexivity|reflexivity].
    cbn. now rewrite bget_binsert, str_eqb_refl.
Qed.
Lemma target_query_value q a s s' : target_query q a -> os_real_arg os a -> full s -> full s' ->
  fst (os_run_query os suffix pr w c q s) = fst (os_run_query os suffix pr w c q s').
Proof.
  intros Q Ra F F'. rewrite !(target_query_run os suffix _ _ _ _ _ _ Q), !bindM_eq. unfold os_q_target. rewrite !bind_lift.
  destruct (os_to_triple os a) as [t|e|p] eqn:Ht; [|reflexivity|reflexivity]. apply (real_arg_made os a) in Ht; [|assumption].
  assert (E := target_value t s Ht F). assert (E' := target_value t s' Ht F').
  destruct (os_q_target_of os suffix pr w c t s) as [x s1], (os_q_target_of os suffix pr w c t s') as [x' s1']. cbn in E, E'. subst x x'.
  now destruct (settingsP t).
Qed.

Lemma near_bind {A A'} (x v : result A) (f : A -> result A') : near x v -> near (bind x f) (bind v f).
Proof. intros [->|[D ->]]; [now left|now right]. Qed.
Lemma mapM_fst {A A'} (f : A -> A') (m : M A) s : fst (mapM f m s) = map_ok f (fst (m s)).
Proof. unfold mapM. rewrite bindM_eq. now destruct (m s) as [[x|e|p] s1]. Qed.
Lemma near_map {A A'} (f : A -> A') (x v : result A) : near x v -> near (map_ok f x) (map_ok f v).
Proof. intros [->|[D ->]]; [now left|now right]. Qed.
(** Nothing is known about versions. *)
Definition calm (s : state) : Prop := told s /\ s_cargo_version s = None /\ s_rustc_version s = None.
Definition exact {A} (m : M A) (v : result A) : Prop :=
  answers m v /\ forall s, calm s -> fst (m s) = v.
Lemma exact_map {A A'} (f : A -> A') (m : M A) v : exact m v -> exact (mapM f m) (map_ok f v).
Proof.
  intros [H K]. split.
  - intros s T. rewrite mapM_fst. now apply near_map, H.
  - intros s T. rewrite mapM_fst. now rewrite K.
Qed.
Lemma exact_const {A} (m : M A) v : (forall s, fst (m s) = v) -> exact m v.
Proof. intros H. split; [now intros s T; left|now intros s T]. Qed.
Lemma host_exact : exact (os_cx_host_triple os suffix pr w cx b) hostP.
Proof.
  split; [apply host_answers|]. intros s (T & N1 & N2). destruct (host_answers s T) as [H|[_ H]]; [assumption|].
  destruct (host_told_result s T) as (_ & _ & K). rewrite H in K. destruct K as (_ & _ & _ & [K|K]); now destruct K.
Qed.
Lemma rv_exact : exact (os_cx_rustc_version os suffix pr w cx b) rvP.
Proof.
  split; [apply rv_answers|]. intros s (T & N1 & N2). destruct (rv_answers s T) as [H|[_ H]]; [assumption|].
  destruct (rv_told_result s T) as (_ & K). rewrite H in K. destruct K as (_ & _ & _ & K); now destruct K.
Qed.
Lemma cv_exact : exact (os_cx_cargo_version os suffix pr w cx b) cargoP.
Proof.
  split; [apply cv_answers|]. intros s (T & N1 & N2). destruct (cv_answers s T) as [H|[_ H]]; [assumption|].
  destruct (cv_told_result s T) as (_ & K). rewrite H in K. destruct K as (_ & _ & _ & K); now destruct K.
Qed.
Lemma query_exact q : (forall a, ~ target_query q a) -> exists v, exact (os_run_query os suffix pr w c q) v.
Proof.
  intros N. destruct q; try (exfalso; eapply N; unfold target_query; eauto 6; fail); cbn [os_run_query].
  - assert (K : exists v, exact (os_q_build_target_for_config os suffix pr w c l) v).
    2:{ destruct K as (v & K). exists (map_ok ATriples v). now apply exact_map. }
    unfold os_q_build_target_for_config. destruct (traverse (os_to_triple os) l) as [ts|e|p].
    2:{ exists (Err e). now apply exact_const. }
    2:{ exists (Panic p). now apply exact_const. }
    assert (K : exists v, exact (h <~ os_cx_host_triple os suffix pr w (ec_cx c) (ec_build c);; t <~ lift (os_triple os h None None);; ret [t]) v).
    { exists (h <- hostP ;; t <- os_triple os h None None ;; Ok [t]). split.
      - intros s' T'. rewrite bindM_eq. fold cx b. assert (H := host_answers s' T').
        destruct (os_cx_host_triple os suffix pr w cx b s') as [x s1]. cbn in H. destruct H as [->|[D ->]]; [|now right].
        left. destruct hostP as [h|e|p]; [|reflexivity|reflexivity]. rewrite bind_lift. cbn. now destruct (os_triple os h None None).
      - intros s' T'. rewrite bindM_eq. fold cx b. assert (H := proj2 host_exact s' T').
        destruct (os_cx_host_triple os suffix pr w cx b s') as [x s1]. cbn in H. subst x.
        destruct hostP as [h|e|p]; [|reflexivity|reflexivity]. rewrite bind_lift. cbn. now destruct (os_triple os h None None). }
    destruct K as (v & K). destruct ts as [|t ts].
    + destruct (eb_target (ec_build c)) as [[|x y]|].
      * exists v. exact K.
      * exists (Ok (x :: y)). now apply exact_const.
      * exists v. exact K.
    + exists (Ok (t :: ts)). now apply exact_const.
  - exists (Ok (AStrs (q_build_target_for_cli c l))). now apply exact_const.
  - exists (Ok (AProgram rustcP)). assert (H : forall s, told s -> fst (mapM AProgram (os_cx_rustc os suffix w (ec_cx c) (ec_build c)) s) = Ok (AProgram rustcP)).
    { intros s T. rewrite mapM_fst. fold cx b. now rewrite rustc_value. }
    split; [intros s T; left; auto|]. intros s [T _]. auto.
  - exists (Ok (AStr (q_cargo c))). now apply exact_const.
  - exists (map_ok AStr hostP). apply exact_map, host_exact.
  - exists (map_ok ARustcVersion rvP). apply exact_map, rv_exact.
  - exists (map_ok ACargoVersion cargoP). apply exact_map, cv_exact.
Qed.

(** Every answer is the one of a new configuration. *)
Lemma query_as_new q s : os_real_query os q -> full s ->
  near (fst (os_run_query os suffix pr w c q s)) (fst (os_run_query os suffix pr w c q (state_init cx))).
Proof.
  intros Rq F. assert (F0 : full (state_init cx)) by (split; [apply told_init|intros ? ? [=]]).
  destruct (is_target_query q) as [(a & Q)|N].
  - left. apply (target_query_value q a); auto. destruct Q as [-> | [-> | [-> | [-> | -> ]]]]; exact Rq.
  - destruct (query_exact q N) as (v & H & K). rewrite (K (state_init cx)); [apply H, F|].
    split; [apply told_init|split; reflexivity].
Qed.

(** *** Outputs that tell the host along with the version *)
Context (Whole : tell_all found w b (cx_cargo cx)).
Definition quiet (s : state) : Prop := s_host s = None -> s_cargo_version s = None /\ s_rustc_version s = None.

Lemma filled_host s : told s -> s_cargo_version s <> None \/ s_rustc_version s <> None -> exists h, hostP = Ok h.
Proof.
  intros T H. unfold hostP. destruct (cx_host0 cx) as [h|]; [eauto|].
  assert (K : (exists h, cargo_hostP = Ok h) \/ ((exists e, cargo_hostP = Err e) /\ s_rustc_version s <> None)).
  { destruct (s_cargo_version s) as [v|] eqn:E.
    - left. apply told_cv in E; [|assumption]. destruct E as (out & _ & R & Hv).
      destruct (proj1 Whole 0 out v) as (h & Hh); [now rewrite rd_at, (ran_rd _ _ _ R)|assumption|]. exists h.
      unfold cargo_hostP, cargo_vv. rewrite (ran_rd _ _ _ R). cbn.
      apply (cargo_version_iff (out, asked_cargo (cx_cargo cx))) in Hv. rewrite Hv. now apply (host_iff (out, asked_cargo (cx_cargo cx))) in Hh.
    - destruct H as [H|H]; [now destruct H|]. destruct cargo_hostP as [h|e|p] eqn:Ec; [eauto|right; eauto|now apply cargo_host_no_panic in Ec]. }
  destruct K as [(h & ->)|((e & ->) & N)]; [eauto|].
  destruct (s_rustc_version s) as [v|] eqn:E; [|now destruct N]. apply told_rv in E; [|assumption].
  destruct E as (cmd & out & Q & _ & R & Hv).
  destruct (proj2 Whole (s_clock s) cmd out v) as (h & Hh); [assumption|now rewrite rd_at, (ran_rd _ _ _ R)|assumption|]. exists h.
  apply rustc_question_value in Q as ->. unfold rustc_hostP, rustc_vv. rewrite (ran_rd _ _ _ R). cbn.
  apply (rustc_version_iff (out, rustcQ)) in Hv. rewrite Hv. now apply (host_iff (out, rustcQ)) in Hh.
Qed.
(** In a quiet state an attempt at the host gives it, if anything can be known. *)
Lemma quiet_host s h : told s -> quiet s -> hostP = Ok h -> s_host (snd (os_cx_host_triple os suffix pr w cx b s)) = Some h.
Proof.
  intros T Q H. destruct (host_told_result s T) as (_ & _ & K). destruct (host_answers s T) as [E|[_ E]].
  - now rewrite E, H in K.
  - rewrite E in K. destruct K as (_ & _ & N & [K|K]); now destruct (Q N).
Qed.

Lemma host_rest_rv s1 : s_host (snd ((s2 <~ get;;
      match s_rustc_version s2 with
      | Some v => ret v
      | None =>
          p <~ os_rustc_for_version os suffix w cx b;;
          vv <~ verbose_version w p;;
          v <~ lift (rustc_version_of vv);; _ <~ set_rustc_version v;; ret v
      end) s1)) = s_host s1.
Proof.
  rewrite bindM_eq. cbn [get]. destruct (s_rustc_version s1); [reflexivity|]. revert s1.
  match goal with |- forall s1, s_host (snd (?m s1)) = _ => change (untouched s_host m) end.
  apply untouched_bind.
  { unfold os_rustc_for_version. apply untouched_bind; [|easy]. unfold os_base_rustc. destruct (eb_rustc b); [easy|]. now apply untouched_bind. }
  intros p. apply untouched_bind; [now apply untouched_bind|]. intros vv. apply untouched_bind; [easy|]. intros v. now apply untouched_bind.
Qed.
Lemma host_rest_cv s1 : s_host (snd ((s2 <~ get;;
      match s_cargo_version s2 with
      | Some v => ret v
      | None =>
          vv <~ verbose_version w (epa_new (cx_cargo cx));;
          v <~ lift (cargo_version_of vv);; _ <~ set_cargo_version v;; ret v
      end) s1)) = s_host s1.
Proof.
  rewrite bindM_eq. cbn [get]. destruct (s_cargo_version s1); [reflexivity|]. revert s1.
  match goal with |- forall s1, s_host (snd (?m s1)) = _ => change (untouched s_host m) end.
  apply untouched_bind; [now apply untouched_bind|]. intros vv. apply untouched_bind; [easy|]. intros v. now apply untouched_bind.
Qed.

Lemma mapM_snd {A A'} (f : A -> A') (m : M A) s : snd (mapM f m s) = snd (m s).
Proof. unfold mapM. rewrite bindM_eq. now destruct (m s) as [[x|e|p] s1]. Qed.
Lemma ignore_snd {A} (m : M A) s : snd (ignore_err m s) = snd (m s).
Proof. unfold ignore_err. now destruct (m s) as [[x|e|p] s1]. Qed.
Definition unfilled (s s' : state) : Prop :=
  s_cargo_version s' = s_cargo_version s /\ s_rustc_version s' = s_rustc_version s.
Lemma unfilled_refl s : unfilled s s. Proof. now split. Qed.
Lemma quiet_tried q s h : told s -> quiet s -> hostP = Ok h ->
  s_host (snd (os_run_query os suffix pr w c q s)) = Some h \/ unfilled s (snd (os_run_query os suffix pr w c q s)).
Proof.
  intros T Q H. assert (Hh := quiet_host s h T Q H).
  destruct (is_target_query q) as [(a & Qa)|Nt].
  { right. split; [now apply (u_target_query s_cargo_version pr w c) with a|now apply (u_target_query s_rustc_version pr w c) with a]. }
  assert (Nx : forall e s1, os_cx_host_triple os suffix pr w cx b s = (Err e, s1) \/ (exists p, e = e /\ os_cx_host_triple os suffix pr w cx b s = (Panic p, s1)) -> False).
  { intros e s1 K. destruct (host_told_result s T) as (_ & _ & R). destruct K as [K|(p & _ & K)]; rewrite K in *; cbn in *; [congruence|].
    destruct R as (_ & _ & N & [R|R]); now destruct (Q N). }
  destruct q; try (exfalso; eapply Nt; unfold target_query; eauto 6; fail); cbn [os_run_query];
    try (right; apply unfilled_refl); rewrite !mapM_snd.
  - unfold os_q_build_target_for_config. rewrite bind_lift. destruct (traverse (os_to_triple os) l) as [ts|e|p]; try (right; apply unfilled_refl).
    assert (K : s_host (snd ((h <~ os_cx_host_triple os suffix pr w (ec_cx c) (ec_build c);; t <~ lift (os_triple os h None None);; ret [t]) s)) = Some h).
    { rewrite bindM_eq. fold cx b. destruct (os_cx_host_triple os suffix pr w cx b s) as [[x|e|p] s1]; cbn [snd] in Hh; try assumption.
      rewrite bind_lift. now destruct (os_triple os x None None). }
    destruct ts; [|right; apply unfilled_refl]. destruct (eb_target (ec_build c)) as [[|x y]|]; try (left; exact K). right. apply unfilled_refl.
  - right. unfold unfilled. split; (apply untouched_rustc; easy).
  - left. exact Hh.
  - unfold os_cx_rustc_version. fold cx b. rewrite bindM_eq. cbn [get].
    destruct (s_rustc_version s); [right; apply unfilled_refl|]. left. rewrite bindM_eq.
    assert (Ei := ignore_snd (os_cx_host_triple os suffix pr w cx b) s). destruct (ignore_err (os_cx_host_triple os suffix pr w cx b) s) as [[x|e|p] s1]; cbn [snd] in Ei; subst s1.
    + rewrite host_rest_rv. exact Hh.
    + exact Hh.
    + exact Hh.
  - unfold os_cx_cargo_version. fold cx b. rewrite bindM_eq. cbn [get].
    destruct (s_cargo_version s); [right; apply unfilled_refl|]. left. rewrite bindM_eq.
    assert (Ei := ignore_snd (os_cx_host_triple os suffix pr w cx b) s). destruct (ignore_err (os_cx_host_triple os suffix pr w cx b) s) as [[x|e|p] s1]; cbn [snd] in Ei; subst s1.
    + rewrite host_rest_cv. exact Hh.
    + exact Hh.
    + exact Hh.
Qed.
Lemma quiet_query q s : told s -> quiet s -> quiet (snd (os_run_query os suffix pr w c q s)).
Proof.
  intros T Q N.
  assert (T' := keeps_query q s T). assert (G := query_grows pr w c q s).
  assert (N0 : s_host s = None).
  { destruct (s_host s) as [h|] eqn:E; [|reflexivity]. pose proof G as (_ & _ & _ & Gh & _). rewrite (Gh h E) in N. discriminate. }
  destruct (Q N0) as [Q1 Q2].
  assert (K : forall h, hostP = Ok h -> unfilled s (snd (os_run_query os suffix pr w c q s))).
  { intros h H. destruct (quiet_tried q s h T Q H) as [K|K]; [congruence|assumption]. }
  set (s' := snd (os_run_query os suffix pr w c q s)) in *.
  assert (D : (exists h, hostP = Ok h) \/ (s_cargo_version s' = None /\ s_rustc_version s' = None)).
  { destruct (s_cargo_version s') eqn:E1; [left; apply (filled_host s' T'); left; congruence|].
    destruct (s_rustc_version s') eqn:E2; [left; apply (filled_host s' T'); right; congruence|auto]. }
  destruct D as [(h & D)|D]; [|exact D]. destruct (K h D) as [-> ->]. auto.
Qed.
Lemma reached_quiet s : os_reached os suffix pr w c s -> quiet s.
Proof.
  intros (qs & _ & ->). fold cx. assert (T := told_init). assert (Q : quiet (state_init cx)) by (now intros _).
  revert T Q. generalize (state_init cx) as s.
  induction qs as [|q qs IH]; intros s T Q; [assumption|]. cbn [os_run_queries]. apply IH; [now apply keeps_query|now apply quiet_query].
Qed.
End Steady.

(** ** Panics *)
Lemma version_panic q s p : told s -> version_query q -> fst (os_run_query os suffix pr w c q s) = Panic p ->
  p = PDebugAssert /\ debug_assertions pr = true /\ s_host s = None /\ (s_cargo_version s <> None \/ s_rustc_version s <> None).
Proof.
  intros T [-> | [-> | -> ]]; cbn [os_run_query]; rewrite mapM_fst.
  - destruct (host_told_result s T) as (_ & _ & K). fold cx b.
    destruct (fst (os_cx_host_triple os suffix pr w cx b s)) as [h|e|p']; try discriminate. intros [= ->]. exact K.
  - destruct (rv_told_result s T) as (_ & K). fold cx b.
    destruct (fst (os_cx_rustc_version os suffix pr w cx b s)) as [h|e|p']; try discriminate. intros [= ->]. tauto.
  - destruct (cv_told_result s T) as (_ & K). fold cx b.
    destruct (fst (os_cx_cargo_version os suffix pr w cx b s)) as [h|e|p']; try discriminate. intros [= ->]. tauto.
Qed.
End Told.

(** ** Once known *)
Lemma tool_repeat pr w c q s x s1 s2 : tool_query q -> os_run_query os suffix pr w c q s = (Ok x, s1) -> grows s1 s2 ->
  os_run_query os suffix pr w c q s2 = (Ok x, s2).
Proof.
  intros Q H G. destruct G as (_ & _ & G1 & G2 & G3 & G4 & _).
  destruct Q as [-> | [-> | [-> | -> ]]]; cbn [os_run_query] in *; unfold mapM in *; apply bindM_ok in H as (y & s0 & H & K); injection K as <- <-.
  - apply cx_rustc_ok in H. apply G1 in H. unfold os_cx_rustc. rewrite !bindM_eq. cbn [get]. now rewrite H.
  - assert (K : s_host s0 = Some y).
    { unfold os_cx_host_triple in H. rewrite bindM_eq in H. cbn [get] in H. destruct (s_host s) as [h|] eqn:E; [now injection H as <- <-|].
      apply bindM_ok in H as (h & s3 & _ & H). apply bindM_ok in H as ([] & s4 & Hs & H). injection H as <- <-. now injection Hs as <-. }
    apply G2 in K. unfold os_cx_host_triple. rewrite !bindM_eq. cbn [get]. now rewrite K.
  - assert (K : s_rustc_version s0 = Some y).
    { unfold os_cx_rustc_version in H. rewrite bindM_eq in H. cbn [get] in H.
      destruct (s_rustc_version s) as [v|] eqn:E; [now injection H as <- <-|].
      apply bindM_ok in H as (h & s3 & _ & H). rewrite bindM_eq in H. cbn [get] in H.
      destruct (s_rustc_version s3) as [v|] eqn:E3; [now injection H as <- <-|].
      apply bindM_ok in H as (r & s4 & _ & H). apply bindM_ok in H as (vv & s5 & _ & H). apply bindM_ok in H as (v & s6 & _ & H).
      apply bindM_ok in H as ([] & s7 & Hs & H). injection H as <- <-. now injection Hs as <-. }
    apply G3 in K. unfold os_cx_rustc_version. rewrite !bindM_eq. cbn [get]. now rewrite K.
  - assert (K : s_cargo_version s0 = Some y).
    { unfold os_cx_cargo_version in H. rewrite bindM_eq in H. cbn [get] in H.
      destruct (s_cargo_version s) as [v|] eqn:E; [now injection H as <- <-|].
      apply bindM_ok in H as (h & s3 & _ & H). rewrite bindM_eq in H. cbn [get] in H.
      destruct (s_cargo_version s3) as [v|] eqn:E3; [now injection H as <- <-|].
      apply bindM_ok in H as (vv & s5 & _ & H). apply bindM_ok in H as (v & s6 & _ & H).
      apply bindM_ok in H as ([] & s7 & Hs & H). injection H as <- <-. now injection Hs as <-. }
    apply G4 in K. unfold os_cx_cargo_version. rewrite !bindM_eq. cbn [get]. now rewrite K.
Qed.
Lemma target_repeat pr w c q a s x s1 s2 : target_query q a -> os_run_query os suffix pr w c q s = (Ok x, s1) -> grows s1 s2 ->
  os_run_query os suffix pr w c q s2 = (Ok x, s2).
Proof.
  intros Q H G. apply (target_query_ok os suffix _ _ _ _ _ _ _ _ Q) in H as (e & H & ->).
  apply q_target_ok in H as (t & Ht & He). destruct G as (_ & _ & _ & _ & _ & _ & _ & G). apply G in He.
  rewrite (target_query_run os suffix _ _ _ _ _ _ Q). unfold os_q_target. rewrite bindM_assoc, bind_lift. rewrite Ht.
  unfold os_q_target_of. rewrite bindM_eq. unfold os_init_target_config. rewrite !bindM_eq. cbn [get]. rewrite He.
  unfold ret at 1. rewrite bindM_eq. cbn [get]. now rewrite He.
Qed.
Lemma target_failed pr w c q a s r s1 : target_query q a -> os_run_query os suffix pr w c q s = (r, s1) -> is_ok r = false ->
  s_target s1 = s_target s.
Proof.
  intros Q. rewrite (target_query_run os suffix _ _ _ _ _ _ Q). unfold os_q_target. rewrite bindM_assoc, bind_lift.
  destruct (os_to_triple os a) as [t|e|p]; [|now intros [= <- <-]|now intros [= <- <-]].
  unfold os_q_target_of. rewrite !bindM_eq. unfold os_init_target_config. rewrite bindM_eq. cbn [get].
  destruct (bget (cli_target t) (s_target s)) as [e|] eqn:E.
  { unfold ret at 1. rewrite bindM_eq. cbn [get]. rewrite E. now intros [= <- <-]. }
  rewrite bindM_eq. assert (U := target_untouched_resolve os suffix pr w (ec_cx c) (ec_build c) (ec_de_target c) t s).
  destruct (os_resolve_target os suffix pr w (ec_cx c) (ec_build c) (ec_de_target c) t s) as [[x|e|p] s2]; cbn [snd] in U;
    [|now intros [= <- <-]|now intros [= <- <-]].
  rewrite bind_lift. destruct (os_etarget_of os (cx_current_dir (ec_cx c)) x) as [e|e|p]; [|now intros [= <- <-]|now intros [= <- <-]].
  cbn. rewrite bget_binsert, str_eqb_refl. now intros [= <- <-].
Qed.
End Os.
