(** Lemmas about panics of queries on Windows. *)
From Verif.Model Require Import Base Str Path StdPath OsPaths BMap Error Value De CfgExpr CfgError Triple EasyTypes Context ApplyEnv
  Walk Load Process Resolve Easy OsLoad.
From Verif.Spec Require Import StrSpec ConfigSpec LoadSpec EnvSpec Utf8Spec TripleSpec CfgSpec TargetSpec QuerySpec FinalSpec PanicSpec WinSpec
  WinLoadSpec WinPanicSpec.
From Verif.Proof Require Import StrFacts BMapFacts Utf8Proof LoadProof EnvProof CfgProof CfgEvalProof CfgPanicProof TripleProof EnvVarsProof StateProof
  TargetProof FinalProof VersionProof QueryProof OsLoadProof WinUseProof WinLoadProof OsTargetProof WinTargetProof OsQueryProof WinPanicProof.
From Verif.Spec Require Import TargetSpec QuerySpec OsTargetSpec OsQuerySpec WinSpec WinLoadSpec WinPanicSpec.

Section Os.
Context (os : system) (suffix : str) (pr : profile) (w : world).

(** ** No panic before the programs are looked at *)
Section Target.
Context (cx : context) (b : ebuild) (t : triple).

Lemma target_cfg_no_panic s p : fst (os_target_cfg os suffix w cx b t s) <> Panic p.
Proof.
  unfold os_target_cfg. rewrite bindM_eq. cbn [get].
  destruct (cfg_get (cli_target t) (s_cfg s)); [discriminate|].
  destruct (rustc_ok os suffix w (any_config cx b) s) as (r & s1 & Hr). change (os_cx_rustc os suffix w cx b s = (Ok r, s1)) in Hr.
  rewrite bindM_eq, Hr, bindM_eq. unfold run_read at 1.
  assert (Np : forall cmd o p, read_outcome cmd o <> Panic p).
  { intros cmd o p'. unfold read_outcome. destruct o; try discriminate.
    destruct success; [|discriminate]. destruct (to_str stdout); discriminate. }
  destruct (read_outcome _ _) as [o|e|p'] eqn:E; [discriminate|discriminate|now apply Np in E].
Qed.
(** A key of which the brackets cannot be counted. *)
Definition crowded_in (tables : bmap target_config) : Prop :=
  exists k v x, In (k, v) tables /\ is_cfg k = true /\ unwrapped k x /\ crowded x.
Lemma resolve_cfgs_panic all tables p : keys_utf8 tables -> (forall y, In y tables -> In y all) ->
  forall acc s, fst (os_resolve_cfgs os suffix pr w cx b t tables acc s) = Panic p ->
  p = POverflow /\ overflow_checks pr = true /\ crowded_in all.
Proof.
  intros U. induction tables as [|[k v] tables IH]; intros Sub acc s H; [discriminate H|].
  assert (U' : keys_utf8 tables) by (intros k' v' I; apply (U k' v'); now right).
  assert (Sub' : forall y, In y tables -> In y all) by (intros y I; apply Sub; now right).
  cbn [os_resolve_cfgs] in H. destruct (negb (starts_with (B "cfg(") k)) eqn:C; [eauto|].
  rewrite bindM_eq in H. unfold os_eval_cfg in H. rewrite bindM_eq in H. unfold lift at 1 in H.
  assert (Uk := U k v (or_introl eq_refl)).
  destruct (parse_expr pr k) as [e|e|p'] eqn:Q; cbn [map_err] in H; [|discriminate H|].
  - rewrite bindM_eq in H. assert (Tp := target_cfg_no_panic s).
    destruct (os_target_cfg os suffix w cx b t s) as [[x|e'|p'] s1]; [|discriminate H|now destruct (Tp p')].
    destruct (parse_eval_ok (E := error) logic_bool (cfg_pred x) pr k e Uk Q) as (m & Ev).
    unfold lift in H. rewrite Ev in H. destruct acc as [[x1 x2] x3]. eauto.
  - injection H as <-. destruct (parse_cases pr k Uk) as (x & Ux & _).
    apply (parse_panic_iff pr k x p' Uk Ux) in Q as (-> & O & Cr). split; [reflexivity|]. split; [exact O|].
    exists k, v, x. split; [apply Sub; now left|]. split; [rewrite <- is_cfg_starts; now apply negb_false_iff in C|]. now split.
Qed.
Lemma resolve_target_panic tables s p : keys_utf8 tables ->
  fst (os_resolve_target os suffix pr w cx b tables t s) = Panic p ->
  p = POverflow /\ overflow_checks pr = true /\ crowded_in tables.
Proof.
  intros U. unfold os_resolve_target. cbv zeta. destruct (starts_with _ _); [discriminate|].
  assert (Lb : forall A B (r : result A) (f : A -> M B) s (G : Prop), (forall q, r <> Panic q) ->
            (forall a s, fst (f a s) = Panic p -> G) -> fst (bindM (lift r) f s) = Panic p -> G).
  { intros A B0 r f s0 G Nr Nf. rewrite bindM_eq. unfold lift. destruct r; [apply Nf|discriminate|now destruct (Nr p0)]. }
  apply Lb; [intros q; apply env_var_no_panic|intros x1 s1].
  apply Lb; [intros q; apply env_var_no_panic|intros x2 s2].
  apply Lb; [|intros x3 s3].
  { intros q. destruct x2 as [v|]; [|discriminate]. cbn. unfold pa_of_var, context_opt.
    destruct (pa_from_string _ _); discriminate. }
  apply Lb; [intros q; apply env_var_no_panic|intros x4 s4].
  apply Lb; [intros q; apply env_var_no_panic|intros x5 s5].
  rewrite bindM_eq.
  match goal with |- context [os_resolve_cfgs os suffix pr w cx b t tables ?acc s5] =>
    assert (K := resolve_cfgs_panic tables tables p U (fun y I => I) acc s5);
    destruct (os_resolve_cfgs os suffix pr w cx b t tables acc s5) as [[[[r1 r2] r3]|e|q] s6] end;
    [discriminate|discriminate|]. cbn in *. intros [= ->]. now apply K.
Qed.

(** ** Where the programs are from *)
Context (P : Value.value str -> Prop).
Definition kept (l : option (Value.value str)) (r : option path_and_args) : Prop :=
  (forall v, l = Some v -> P v) /\ (forall a, r = Some a -> P (pa_path a)).
Lemma resolve_cfgs_kept tables : (forall k v, In (k, v) tables -> kept (t_linker v) (t_runner v)) ->
  forall l r f s l' r' f' s', kept l r -> os_resolve_cfgs os suffix pr w cx b t tables (l, r, f) s = (Ok (l', r', f'), s') -> kept l' r'.
Proof.
  induction tables as [|[k v] tables IH]; intros T l r f s l' r' f' s' K H; cbn [os_resolve_cfgs] in H.
  - unfold ret in H. injection H as <- <- <- <-. exact K.
  - assert (T' : forall k v, In (k, v) tables -> kept (t_linker v) (t_runner v)) by (intros k' v' I; apply (T k'); now right).
    destruct (negb (starts_with (B "cfg(") k)); [now apply (IH T' l r f s l' r' f' s')|].
    apply bindM_ok in H as (m & s1 & _ & H).
    assert (Kv := T k v (or_introl eq_refl)).
    destruct m; [|now apply (IH T' l r f s1 l' r' f' s')].
    refine (IH T' _ _ _ s1 l' r' f' s' _ H). destruct K as [K1 K2], Kv as [V1 V2].
    split; [destruct l; auto|destruct r; auto].
Qed.
Lemma env_var_def env name v : cx_env_var env name = Ok (Some v) -> def v = Some (DefEnv name).
Proof.
  unfold cx_env_var. destruct (env_get name env) as [r|]; [|discriminate]. destruct (to_str r); [|discriminate].
  now intros [= <-].
Qed.
Lemma resolve_target_kept tables s de s' : (forall v n, def v = Some (DefEnv n) -> P v) ->
  (forall k v, In (k, v) tables -> kept (t_linker v) (t_runner v)) ->
  os_resolve_target os suffix pr w cx b tables t s = (Ok de, s') -> kept (t_linker de) (t_runner de).
Proof.
  intros E T H. unfold os_resolve_target in H. cbv zeta in H. destruct (starts_with _ _); [discriminate H|].
  apply bindM_ok in H as (x1 & s1 & L1 & H). apply bindM_ok in H as (x2 & s2 & L2 & H). apply bindM_ok in H as (x3 & s3 & L3 & H).
  apply bindM_ok in H as (x4 & s4 & _ & H). apply bindM_ok in H as (x5 & s5 & _ & H). apply bindM_ok in H as ([[r1 r2] r3] & s6 & R & H).
  unfold ret in H. injection H as <- <-. cbn [t_linker t_runner]. unfold lift in L1, L2, L3. injection L1 as L1 _. injection L2 as L2 _. injection L3 as L3 _.
  assert (Kb : kept (t_linker (match bget (tt_triple t) tables with Some c => c | None => target_default end))
                    (t_runner (match bget (tt_triple t) tables with Some c => c | None => target_default end))).
  { destruct (bget (tt_triple t) tables) as [c|] eqn:G; [apply bget_in in G; exact (T _ _ G)|split; discriminate]. }
  refine (resolve_cfgs_kept tables T _ _ _ _ _ _ _ _ _ R). destruct Kb as [K1 K2]. split.
  - intros v Hv. unfold or_keep in Hv. destruct x1 as [v1|]; [|auto]. injection Hv as <-. exact (E _ _ (env_var_def _ _ _ L1)).
  - intros a Hv. unfold or_keep in Hv. destruct x3 as [a1|]; [|auto]. injection Hv as <-.
    destruct x2 as [v2|]; [|discriminate L3]. cbn in L3. unfold pa_of_var, context_opt, pa_from_string in L3.
    destruct (split_space_separated (val v2)) as [|w0 ws]; [discriminate L3|]. injection L3 as <-. cbn.
    eapply E. cbn. exact (env_var_def _ _ _ L2).
Qed.
End Target.
End Os.

(** ** Windows *)
Lemma target_of_tied cwd de (P : Value.value str -> Prop) x : place_ok cwd -> (forall v, P v -> tied cwd (def v)) ->
  kept P (t_linker de) (t_runner de) -> os_etarget_of windows (at_place cwd) de = Panic x ->
  x = PUnwrapNone /\ exists v, P v /\ astray v /\ has_separator (val v).
Proof.
  intros K T [K1 K2].
  assert (Pr : forall v, P v -> (exists y, os_program_path windows v (at_place cwd) = Ok y :> result str)
    \/ os_program_path windows v (at_place cwd) = Panic PUnwrapNone :> result str /\ astray v /\ has_separator (val v)).
  { intros v Pv. destruct (@program_tied error cwd v K (T v Pv)) as [[O _]|X]; auto. }
  unfold os_etarget_of, os_epa_of. destruct (t_linker de) as [li|]; cbn [opt_traverse bind].
  - destruct (Pr li (K1 _ eq_refl)) as [(y & ->)|[-> A]]; cbn [bind].
    2:{ intros [= <-]. split; [reflexivity|]. exists li. split; [now apply K1|exact A]. }
    destruct (t_runner de) as [ru|]; cbn [opt_traverse bind]; [|discriminate].
    destruct (Pr _ (K2 _ eq_refl)) as [(z & ->)|[-> A]]; cbn [bind]; [discriminate|].
    intros [= <-]. split; [reflexivity|]. exists (pa_path ru). split; [now apply K2|exact A].
  - destruct (t_runner de) as [ru|]; cbn [opt_traverse bind]; [|discriminate].
    destruct (Pr _ (K2 _ eq_refl)) as [(z & ->)|[-> A]]; cbn [bind]; [discriminate|].
    intros [= <-]. split; [reflexivity|]. exists (pa_path ru). split; [now apply K2|exact A].
Qed.
Section Loaded.
Context (f : fs) (p : process_env) (cwd : place) (o : options) (env : env_map) (l : LoadSpec.files) (ec : econfig).
Context (S : win_sources f p cwd o env l) (L : os_easy_load windows f p (at_place cwd) o = Ok ec).

Definition placed (v : Value.value str) : Prop := tied cwd (def v) /\ (at_top (def v) -> win_tool env l v).
Lemma tables_kept k v : In (k, v) (ec_de_target ec) -> kept placed (t_linker v) (t_runner v).
Proof.
  intros I. destruct (win_tables f p cwd o env l ec S L) as (Ord & _ & Li & Ru & _).
  apply (sorted_in_bget _ _ _ (proj1 (in_order_sorted _) Ord)) in I.
  destruct S as (K & En & home & ps & Hh & V & R).
  assert (Sd := fun d => said_tied f p cwd o home ps K Hh V d). split.
  - intros x Hx. specialize (Li k). unfold under in Li. rewrite I, Hx in Li. cbn in Li.
    assert (H : scalar_of env l (TargetLinker k) = Some x) by (symmetry; exact Li).
    split; [exact (proj1 (Sd _ (scalar_said f env l ps R _ _ x H)))|]. intros _. left. eauto.
  - intros a Ha. specialize (Ru k). unfold under, runner_words in Ru. rewrite I, Ha in Ru. cbn in Ru.
    assert (H : program_in_all env l (TargetRunner k) = Some (program_words a)) by (symmetry; exact Ru).
    destruct a as [pa args d]. destruct (program_words (mkPathAndArgs pa args d)) as [fm ws] eqn:E.
    assert (Iw : exists r, ws = pa :: r) by (destruct d; injection E as <- <-; eauto). destruct Iw as (r & ->).
    split; [exact (proj1 (Sd _ (program_said f env l ps R _ _ _ pa H (or_introl eq_refl))))|]. intros _. right. eauto.
Qed.
Lemma win_target_panic pr w q a t s x : Forall (fun y => text_keys (c_target (snd y))) l ->
  target_query q a -> os_to_triple windows a = Ok t ->
  fst (os_run_query windows (Base.B ".exe") pr w ec q s) = Panic x ->
  (x = POverflow /\ overflow_checks pr = true /\ crowded_key l)
  \/ x = PUnwrapNone /\ exists v, win_tool env l v /\ astray v /\ has_separator (val v).
Proof.
  intros U Q Ht. assert (Uk := win_keys l U _ (win_tables f p cwd o env l ec S L)).
  assert (K : place_ok cwd) by apply S.
  assert (Cd : cx_current_dir (ec_cx ec) = at_place cwd).
  { clear - L. unfold os_easy_load in L. cbv zeta in L. apply bind_okk in L as (c & _ & L).
    destruct (os_unresolved_ok windows c _ ec L) as (de & _ & -> & _). reflexivity. }
  rewrite (target_query_run windows (Base.B ".exe") _ _ _ _ _ _ Q). unfold os_q_target. rewrite bindM_assoc, bindM_eq.
  unfold lift at 1. rewrite Ht. unfold os_q_target_of. rewrite !bindM_eq. unfold os_init_target_config. rewrite bindM_eq.
  cbn [get]. destruct (bget (cli_target t) (s_target s)) as [y|] eqn:E.
  - unfold ret at 1. rewrite !bindM_eq. cbn [get]. rewrite E. discriminate.
  - rewrite bindM_eq.
    assert (Np := resolve_target_panic windows (Base.B ".exe") pr w (ec_cx ec) (ec_build ec) t (ec_de_target ec) s x Uk).
    assert (Kp := fun de s' => resolve_target_kept windows (Base.B ".exe") pr w (ec_cx ec) (ec_build ec) t
                    placed (ec_de_target ec) s de s').
    destruct (os_resolve_target windows _ _ _ _ _ _ _ _) as [[de|e|y] s1]; [|discriminate|].
    + rewrite bindM_eq. unfold lift at 1. rewrite Cd.
      destruct (os_etarget_of windows (at_place cwd) de) as [et|e|y] eqn:Et.
      * cbn. rewrite bget_binsert, str_eqb_refl. discriminate.
      * discriminate.
      * cbn. intros [= <-]. right. apply (target_of_tied cwd de placed) in Et as (-> & v & Pv & A & Hs); [|exact K|now intros v [T _]|].
        -- split; [reflexivity|]. exists v. split; [apply Pv, A|]. now split.
        -- apply (Kp de s1); [|exact tables_kept|reflexivity].
           intros v n D. unfold placed. rewrite D. split; [left; exists cwd; apply relative_to_variable|]. intros H. inversion H.
    + cbn. intros [= ->]. left. destruct (Np eq_refl) as (-> & O & k & v & z & I & C & Uz & Cr). split; [reflexivity|]. split; [exact O|].
      destruct (win_tables f p cwd o env l ec S L) as (Ord & H4 & _). specialize (H4 k).
      rewrite (sorted_in_bget _ _ _ (proj1 (in_order_sorted _) Ord) I) in H4. cbn in H4. symmetry in H4. apply existsb_exists in H4 as ((q0 & c0) & Ix & Hx).
      cbn in Hx. destruct (bget k (c_target c0)) as [v0|] eqn:Kb; [|discriminate Hx]. apply bget_in in Kb.
      exists (q0, c0), k, v0, z. auto.
Qed.
Lemma win_target_no_panic pr w q a t s x : (forall h, win_home p o (Some h) -> snd h <> []) ->
  Forall (fun y => text_keys (c_target (snd y))) l -> overflow_checks pr = false ->
  target_query q a -> os_to_triple windows a = Ok t ->
  fst (os_run_query windows (Base.B ".exe") pr w ec q s) <> Panic x.
Proof.
  intros Bh U O Q Ht H. destruct (home_below f p cwd o env l S Bh) as (T1 & _ & T3).
  destruct (win_target_panic pr w q a t s x U Q Ht H) as [(_ & O' & _)|(_ & v & [(k & X)|(k & fm & args & X)] & [A _] & _)].
  - congruence.
  - exact (T1 _ _ _ X A).
  - exact (T3 _ _ _ v X (or_introl eq_refl) A).
Qed.
End Loaded.
