(** Lemmas about panics. *)
From Verif.Model Require Import Base Str Path BMap Error Value De CfgExpr CfgError Triple EasyTypes Context ApplyEnv
  Walk Load Process Resolve Easy.
From Verif.Spec Require Import StrSpec PathSpec ConfigSpec EnvSpec Utf8Spec CfgSpec CfgErrorSpec TripleSpec RootSpec
  TargetSpec QuerySpec PanicSpec.
From Verif.Proof Require Import StrFacts BMapFacts Utf8Proof WalkProof LoadProof EnvProof CfgProof CfgEvalProof
  CfgErrorProof TripleProof EnvVarsProof RootProof ErrorProof StateProof TargetProof TargetEnvProof QueryProof BlameProof
  QueryBlameProof CfgPanicProof VersionProof.
From Verif.Spec Require Import TargetSpec QuerySpec PanicSpec.

(** ** Values *)
Definition soft {A} (r : result A) : Prop := is_ok r = true \/ r = Panic PUnwrapNone.

Lemma root_soft {E} d cwd : (exists r, @def_root E d cwd = Ok r /\ root_of cwd d r)
  \/ (@def_root E d cwd = Panic PUnwrapNone /\ forall r, ~ root_of cwd d r).
Proof.
  destruct (def_root_cases (E := E) d cwd) as [(r & H)|[H N]]; [left; exists r; split; auto; now apply (def_root_ok (E := E))|].
  right. split; [assumption|]. intros r R. apply (def_root_ok (E := E)) in R. congruence.
Qed.
Lemma program_soft {E} v cwd : (exists p, @resolve_as_program_path E v cwd = Ok p /\ program_at cwd v p)
  \/ (@resolve_as_program_path E v cwd = Panic PUnwrapNone /\ forall p, ~ program_at cwd v p).
Proof.
  destruct (program_cases (E := E) v cwd) as [(r & H)|[H N]]; [left; exists r; split; auto; now apply (program_ok (E := E))|].
  right. split; [assumption|]. intros r R. apply (program_ok (E := E)) in R. congruence.
Qed.
Lemma path_soft {E} v cwd : (exists p, @resolve_as_path E v cwd = Ok p /\ path_at cwd v p)
  \/ (@resolve_as_path E v cwd = Panic PUnwrapNone /\ forall p, ~ path_at cwd v p).
Proof.
  destruct (path_cases (E := E) v cwd) as [(r & H)|[H N]]; [left; exists r; split; auto; now apply (path_ok (E := E))|].
  right. split; [assumption|]. intros r R. apply (path_ok (E := E)) in R. congruence.
Qed.
Lemma epa_soft {E} cwd p : (exists e, @epa_of E cwd p = Ok e /\ command_at cwd (program_words p) (program_of e))
  \/ (@epa_of E cwd p = Panic PUnwrapNone /\ forall e, ~ command_at cwd (program_words p) e).
Proof.
  unfold epa_of, resolve_program. destruct (program_soft (E := E) (pa_path p) cwd) as [(x & H & R)|[H N]]; rewrite H; cbn.
  - left. eexists. split; [reflexivity|]. unfold command_at, program_words, program_of. cbn. eauto.
  - right. split; [reflexivity|]. intros e (v & args & [= <- <-] & R & _). exact (N _ R).
Qed.
(** Names of targets. *)
Lemma nameless_iff s : nameless s <->
  is_spec_path s = true /\ match file_stem s with Some st => to_str st = None | None => True end.
Proof.
  unfold nameless. rewrite is_spec_path_iff. split; intros [S H]; (split; [assumption|]).
  - destruct (file_stem s) as [st|] eqn:F; [|exact I]. apply file_stem_iff in F as (n & L & St).
    unfold to_str. destruct (utf8_valid st) eqn:V; [|reflexivity]. apply utf8_valid_iff in V. now destruct (H n st L St).
  - intros n st L St U. apply utf8_valid_iff in U.
    assert (F : file_stem s = Some st) by (apply file_stem_iff; eauto).
    rewrite F in H. unfold to_str in H. now rewrite U in H.
Qed.
Lemma triple_soft {E} s d cwd :
  (exists t, @triple_new E s (Some d) (Some cwd) = Ok t /\ ~ nameless s /\ (spec_like s -> exists r, root_of cwd d r))
  \/ (@triple_new E s (Some d) (Some cwd) = Panic PUnwrapNone
      /\ (nameless s \/ spec_like s /\ forall r, ~ root_of cwd d r)).
Proof.
  assert (N := nameless_iff s). unfold triple_new. destruct (is_spec_path s) eqn:S.
  2:{ left. eexists. split; [reflexivity|]. split; [rewrite N; intros [? _]; discriminate|].
      intros K. apply is_spec_path_iff in K. congruence. }
  assert (Sp := proj1 (is_spec_path_iff s) S).
  destruct (file_stem s) as [st|]; [|right; split; [reflexivity|left; apply N; auto]].
  destruct (to_str st) as [x|] eqn:T; [|right; split; [reflexivity|left; apply N; auto]].
  unfold resolve_spec_path. rewrite def_root_opt_root.
  destruct (root_soft (E := E) d cwd) as [(r & H & R)|[H R]]; rewrite H; cbn.
  - left. eexists. split; [reflexivity|]. split; [|eauto]. rewrite N. intros [_ ?]. congruence.
  - right. auto.
Qed.
Lemma triple_new_soft {E} v cwd :
  (exists t, @triple_new E (val v) (def v) (Some cwd) = Ok t
     /\ ~ (nameless (val v) \/ spec_like (val v) /\ afloat cwd v))
  \/ (@triple_new E (val v) (def v) (Some cwd) = Panic PUnwrapNone
      /\ (nameless (val v) \/ spec_like (val v) /\ afloat cwd v)).
Proof.
  unfold afloat. destruct (def v) as [d|] eqn:D.
  - destruct (triple_soft (E := E) (val v) d cwd) as [(t & H & N & R)|[H N]].
    + left. exists t. split; [assumption|]. intros [K|[K (d' & [= <-] & F)]]; [auto|].
      destruct (R K) as (r & Hr). exact (F r Hr).
    + right. split; [assumption|]. destruct N as [N|[S N]]; [auto|]. right. eauto.
  - assert (N := nameless_iff (val v)). unfold triple_new. destruct (is_spec_path (val v)) eqn:S.
    2:{ left. eexists. split; [reflexivity|]. rewrite N. intros [[? _]|[_ (d & ? & _)]]; discriminate. }
    destruct (file_stem (val v)) as [st|]; [|right; split; [reflexivity|left; apply N; auto]].
    destruct (to_str st) as [x|] eqn:T; [|right; split; [reflexivity|left; apply N; auto]].
    cbn. left. eexists. split; [reflexivity|]. rewrite N. intros [[_ ?]|[_ (d & ? & _)]]; congruence.
Qed.
Lemma triple_from_soft {E} s :
  (exists t, @triple_from E s = Ok t /\ ~ nameless s) \/ (@triple_from E s = Panic PUnwrapNone /\ nameless s).
Proof.
  assert (N := nameless_iff s). unfold triple_from, triple_new. destruct (is_spec_path s) eqn:S.
  2:{ left. eexists. split; [reflexivity|]. rewrite N. intros [? _]; discriminate. }
  destruct (file_stem s) as [st|]; [|right; split; [reflexivity|apply N; auto]].
  destruct (to_str st) as [x|] eqn:T; [|right; split; [reflexivity|apply N; auto]].
  cbn. left. eexists. split; [reflexivity|]. rewrite N. intros [_ ?]; congruence.
Qed.

(** ** Loading *)
Lemma opt_soft_panic {A A'} (f : A -> result A') (P : A -> Prop) o x :
  (forall a p, f a = Panic p -> p = PUnwrapNone /\ P a) -> opt_traverse f o = Panic x ->
  x = PUnwrapNone /\ exists a, o = Some a /\ P a.
Proof. intros H K. apply opt_traverse_panic in K as (a & -> & K). apply H in K as [-> K]. eauto. Qed.
Lemma program_panic cwd o x :
  opt_traverse (fun v => resolve_as_program_path (E := error) v cwd) o = Panic x ->
  x = PUnwrapNone /\ exists v, o = Some v /\ forall p, ~ program_at cwd v p.
Proof.
  apply opt_soft_panic. intros a p H.
  destruct (program_soft (E := error) a cwd) as [(y & K & _)|[K N]]; rewrite K in H; [discriminate|]. now injection H as <-.
Qed.
Lemma path_panic cwd o x :
  opt_traverse (fun v => resolve_as_path (E := error) v cwd) o = Panic x ->
  x = PUnwrapNone /\ exists v, o = Some v /\ forall p, ~ path_at cwd v p.
Proof.
  apply opt_soft_panic. intros a p H.
  destruct (path_soft (E := error) a cwd) as [(y & K & _)|[K N]]; rewrite K in H; [discriminate|]. now injection H as <-.
Qed.
Lemma epa_panic cwd o x : opt_traverse (epa_of (E := error) cwd) o = Panic x ->
  x = PUnwrapNone /\ exists v, o = Some v /\ forall p, ~ command_at cwd (program_words v) p.
Proof.
  apply opt_soft_panic. intros a p H.
  destruct (epa_soft (E := error) cwd a) as [(y & K & _)|[K N]]; rewrite K in H; [discriminate|]. now injection H as <-.
Qed.

Lemma unresolved_panic c cx x : sorted (c_env c) ->
  from_unresolved c cx = Panic x ->
  x = PUnwrapNone /\ exists de, apply_env (cx_env cx) c = Ok de /\ unnamed (cx_current_dir cx) de.
Proof.
  intros Srt. unfold from_unresolved. intros H. apply bind_panic in H as [H|(de & Ha & H)].
  { assert (N := apply_env_panic (cx_env cx) c). rewrite H in N. discriminate N. }
  enough (x = PUnwrapNone /\ unnamed (cx_current_dir cx) de) as [-> K] by eauto.
  set (cwd := cx_current_dir cx) in *.
  apply bind_panic in H as [H|(b & _ & H)].
  - unfold ebuild_of in H.
    apply bind_panic in H as [H|(x1 & _ & H)].
    { apply program_panic in H as (-> & v & E & R). split; [reflexivity|].
      apply (unnamed_program cwd de BuildRustc v); cbn; auto. }
    apply bind_panic in H as [H|(x2 & _ & H)].
    { apply program_panic in H as (-> & v & E & R). split; [reflexivity|].
      apply (unnamed_program cwd de BuildRustcWrapper v); cbn; auto. }
    apply bind_panic in H as [H|(x3 & _ & H)].
    { apply program_panic in H as (-> & v & E & R). split; [reflexivity|].
      apply (unnamed_program cwd de BuildRustcWorkspaceWrapper v); cbn; auto. }
    apply bind_panic in H as [H|(x4 & _ & H)].
    { apply program_panic in H as (-> & v & E & R). split; [reflexivity|].
      apply (unnamed_program cwd de BuildRustdoc v); cbn; auto. }
    apply bind_panic in H as [H|(x5 & _ & H)].
    { apply opt_traverse_panic in H as (t & E & H). unfold targets_of in H.
      apply traverse_panic in H as (v & I & H). destruct (build_target_words de t E) as (fm & L).
      destruct (triple_new_soft (E := error) v cwd) as [(y & K & _)|[K N]]; rewrite K in H; [discriminate|].
      injection H as <-. split; [reflexivity|]. exact (unnamed_target cwd de fm _ v L I N). }
    apply bind_panic in H as [H|(x6 & _ & H)].
    { apply path_panic in H as (-> & v & E & R). split; [reflexivity|].
      apply (unnamed_path cwd de BuildTargetDir v); cbn; auto. }
    apply bind_panic in H as [H|(x7 & _ & H)]; [|discriminate].
    apply path_panic in H as (-> & v & E & R). split; [reflexivity|].
    apply (unnamed_path cwd de BuildDepInfoBasedir v); cbn; auto.
  - apply bind_panic in H as [H|(d & _ & H)].
    + unfold edoc_of in H. apply bind_panic in H as [H|(? & _ & H)]; [|discriminate].
      apply epa_panic in H as (-> & v & E & R). split; [reflexivity|].
      apply (unnamed_browser cwd de (program_words v)); [|assumption]. cbn. now rewrite E.
    + apply bind_panic in H as [H|(en & _ & H)]; [|discriminate].
      apply btraverse_panic in H as (k & e & I & H).
      assert (Eq : c_env de = c_env c) by apply (apply_env_env _ _ _ Ha). rewrite Eq in I.
      apply sorted_in_bget in I; [|assumption]. rewrite <- Eq in I.
      unfold eenv_of in H. destruct e as [v|v f r]; [discriminate|].
      destruct (is_true r) eqn:T; [|discriminate]. apply bind_panic in H as [H|(? & _ & H)]; [|discriminate].
      unfold env_resolve in H. destruct r as [r|]; [|discriminate]. cbn in T. rewrite T in H.
      destruct (def v) as [d0|] eqn:D; [|discriminate].
      apply bind_panic in H as [H|(? & _ & H)]; [|discriminate].
      destruct (root_soft (E := error) d0 cwd) as [(y & K & _)|[K N]]; rewrite K in H; [discriminate|].
      injection H as <-. split; [reflexivity|].
      apply (unnamed_variable cwd de k v r); [..|assumption|exists d0; auto]; cbn; unfold under; now rewrite I.
Qed.

Lemma unresolved_panics c cx de : apply_env (cx_env cx) c = Ok de -> unnamed (cx_current_dir cx) de ->
  sorted (c_env c) -> from_unresolved c cx = Panic PUnwrapNone.
Proof.
  intros Ha Un Srt. destruct (from_unresolved c cx) as [ec|e|p] eqn:F.
  - exfalso. destruct (from_unresolved_ok c cx ec F) as (de' & Ha' & Rb & Rd & Re & _).
    assert (de' = de) as -> by congruence. set (cwd := cx_current_dir cx) in *.
    assert (Pr : forall v o, both (program_at cwd) (Some v) o -> exists p, program_at cwd v p).
    { intros v [p|]; [eauto|intros []]. }
    assert (Pa : forall v o, both (path_at cwd) (Some v) o -> exists p, path_at cwd v p).
    { intros v [p|]; [eauto|intros []]. }
    destruct Un as [k v I L N|k v I L N|ws L N|fm ws v L I N|n v r L Lr T A].
    + assert (X : exists p, program_at cwd v p); [|destruct X as (p & X); exact (N p X)].
      destruct Rb. cbn in I. repeat (destruct I as [<-|I]; [cbn in L; rewrite L in *; eauto|]). destruct I.
    + assert (X : exists p, path_at cwd v p); [|destruct X as (p & X); exact (N p X)].
      destruct Rb. cbn in I. repeat (destruct I as [<-|I]; [cbn in L; rewrite L in *; eauto|]). destruct I.
    + cbn in L. destruct (d_browser (c_doc de)) as [p|]; [|discriminate]. injection L as <-.
      destruct (ed_browser (ec_doc ec)) as [e|]; [|destruct Rd]. cbn in Rd. exact (N _ Rd).
    + assert (R := br_target _ _ _ Rb). cbn in L.
      assert (G : forall l ts, Forall2 (fun v t => triple_new (E := error) (val v) (def v) (Some cwd) = Ok t) l ts -> In v l -> False).
      { clear - N. induction 1 as [|v' t l ts H _ IH]; [intros []|]. intros [->|I]; [|auto].
        destruct (triple_new_soft (E := error) v cwd) as [(y & K & Nn)|[K _]]; [auto|congruence]. }
      destruct (b_target (c_build de)) as [[y|l]|]; cbn in L; [| |discriminate]; injection L as <- <-;
        (destruct (eb_target (ec_build ec)) as [ts|]; [|destruct R]); cbn in R; exact (G _ _ R I).
    + cbn in L, Lr. unfold under in L, Lr. specialize (Re n).
      destruct (bget n (c_env de)) as [e|]; [|discriminate].
      destruct (bget n (ec_env ec)) as [y|]; [|destruct Re]. cbn in Re.
      destruct e as [v0|v0 f0 r0]; [discriminate|]. injection L as ->. rewrite Lr in Re.
      unfold eenv_of in Re. cbn [is_true] in Re. rewrite T in Re. unfold env_resolve in Re. rewrite T in Re.
      destruct A as (d & D & A). rewrite D in Re.
      destruct (root_soft (E := error) d cwd) as [(y' & _ & K)|[K _]]; [exact (A _ K)|]. rewrite K in Re. discriminate.
  - apply unresolved_err in F. congruence.
  - now apply unresolved_panic in F as [-> _].
Qed.

Lemma load_panic_iff f p cwd o x : let cx := into_context p o cwd in
  easy_load_with_options f p cwd o = Panic x <->
  x = PUnwrapNone /\ exists c de,
    load_with_options f cwd (cx_cargo_home p cx cwd) = Ok c /\ apply_env (cx_env cx) c = Ok de /\ unnamed cwd de.
Proof.
  intros cx. unfold easy_load_with_options. fold cx. change (cx_current_dir cx) with cwd.
  set (home := cx_cargo_home p cx cwd).
  assert (Srt : forall c, load_with_options f cwd home = Ok c -> sorted (c_env c)).
  { intros c Hc. apply (load_files_sorted f _ c Hc). }
  split.
  - intros H. apply bind_panic in H as [H|(c & Hc & H)].
    { assert (N := load_files_panic f (walk_all (fs_exists f) (walk_init cwd home))). unfold load_with_options in H. rewrite H in N. discriminate N. }
    apply unresolved_panic in H as (-> & de & Ha & U); [|auto]. eauto 10.
  - intros (-> & c & de & Hc & Ha & U). rewrite Hc. cbn [bind]. apply (unresolved_panics c cx de); auto.
Qed.

(** ** Settings of a target *)
Lemma bindM_panic {A A'} (m : M A) (f : A -> M A') s p s' : bindM m f s = (Panic p, s') ->
  m s = (Panic p, s') \/ exists a s1, m s = (Ok a, s1) /\ f a s1 = (Panic p, s').
Proof. rewrite bindM_eq. destruct (m s) as [[a|e|q] s1]; [eauto|discriminate|]. intros [= -> ->]. auto. Qed.

Lemma key_ok pr k : utf8_valid k = true ->
  is_ok (parse_expr pr k) = true <->
  valid_cfg k /\ forall x, unwrapped k x -> overflow_checks pr = true -> ~ crowded x.
Proof.
  intros V. split.
  - intros O. split; [now apply (parse_ok_accepted pr)|]. intros x U Ov C.
    destruct (parse_panic_iff pr k x POverflow V U) as [_ H]. rewrite H in O by auto. discriminate O.
  - intros [Val N]. destruct (parse_cases pr k V) as (x & U & _ & C).
    destruct (parse_expr pr k) as [e|e|p] eqn:P; [reflexivity|exfalso..].
    + destruct Val as (x' & roots & U' & A). rewrite (unwrapped_unique _ _ _ U' U) in A. apply (proj2 C). eauto.
    + destruct (proj1 (parse_panic_iff pr k x p V U) P) as (_ & Ov & Cr). exact (N x U Ov Cr).
Qed.
Lemma harmless_iff pr tables : keys_utf8 tables ->
  harmless pr tables <-> forall k v, In (k, v) tables -> is_cfg k = true -> is_ok (parse_expr pr k) = true.
Proof.
  intros U. unfold harmless. split; intros H k v I K; apply (key_ok pr k (U k v I)); eauto.
Qed.

Section Target.
Context (pr : profile) (w : world) (cx : context) (b : ebuild) (t : triple).
Let here s := exists x s1, target_cfg w cx b t s = (Ok x, s1).

Lemma resolve_cfgs_panic tables : keys_utf8 tables -> forall acc s p s',
  resolve_cfgs pr w cx b t tables acc s = (Panic p, s') ->
  p = POverflow /\ overflow_checks pr = true /\ exists pre k v post x,
    tables = pre ++ (k, v) :: post
    /\ (forall k v, In (k, v) pre -> is_cfg k = true -> is_ok (parse_expr pr k) = true)
    /\ (has_cfg pre -> here s) /\ is_cfg k = true /\ unwrapped k x /\ crowded x.
Proof.
  intros U. induction tables as [|[k v] tables IH]; intros acc s p s' H; [discriminate H|].
  assert (U' : keys_utf8 tables) by (intros k' v' I; apply (U k' v'); now right). specialize (IH U').
  assert (Uk := U k v (or_introl eq_refl)).
  cbn [resolve_cfgs] in H. rewrite is_cfg_starts in H. destruct (is_cfg k) eqn:K; cbn [negb] in H.
  - apply bindM_panic in H as [H|(m & s1 & Hm & H)].
    + unfold eval_cfg in H. apply bindM_panic in H as [H|(e & s1 & He & H)].
      * unfold lift in H. destruct (parse_expr pr k) as [e|e|q] eqn:P; cbn in H; try discriminate.
        injection H as -> <-. destruct (parse_cases pr k Uk) as (x & Ux & _).
        destruct (proj1 (parse_panic_iff pr k x p Uk Ux) P) as (-> & Ov & Cr).
        split; [reflexivity|]. split; [assumption|]. exists [], k, v, tables, x. split; [reflexivity|].
        split; [intros ? ? []|]. split; [intros (? & ? & [] & _)|auto].
      * unfold lift in He. destruct (parse_expr pr k) as [e'|e'|q] eqn:P; cbn in He; try discriminate.
        injection He as <- <-. apply bindM_panic in H as [H|(x & s2 & Hx & H)].
        { exfalso. apply (target_cfg_no_panic w cx b t s p). now rewrite H. }
        destruct (parse_eval_ok (E := error) logic_bool (cfg_pred x) pr k e' Uk P) as (m & Ev).
        unfold lift in H. rewrite Ev in H. discriminate.
    + apply eval_cfg_ok in Hm as (e & x & P & Hx & _). destruct acc as [[x1 x2] x3].
      apply IH in H as (-> & Ov & pre & k' & v' & post & y & -> & G & _ & R).
      split; [reflexivity|]. split; [assumption|]. exists ((k, v) :: pre), k', v', post, y.
      split; [reflexivity|]. split; [|split; [intros _; exists x, s1; assumption|exact R]].
      intros k0 v0 [[= <- <-]|I] K0; [now rewrite P|eauto].
  - apply IH in H as (-> & Ov & pre & k' & v' & post & y & -> & G & Hh & R).
    split; [reflexivity|]. split; [assumption|]. exists ((k, v) :: pre), k', v', post, y.
    split; [reflexivity|]. split; [|split; [|exact R]].
    + intros k0 v0 [[= <- <-]|I] K0; [congruence|eauto].
    + intros (k0 & v0 & [[= <- <-]|I] & K0); [congruence|]. apply Hh. now exists k0, v0.
Qed.

Lemma resolve_cfgs_panics pre k v post x : keys_utf8 (pre ++ (k, v) :: post) -> overflow_checks pr = true ->
  (forall k v, In (k, v) pre -> is_cfg k = true -> is_ok (parse_expr pr k) = true) ->
  is_cfg k = true -> unwrapped k x -> crowded x ->
  forall acc s, (has_cfg pre -> here s) ->
  fst (resolve_cfgs pr w cx b t (pre ++ (k, v) :: post) acc s) = Panic POverflow.
Proof.
  intros U Ov G K Ux Cr. induction pre as [|[k0 v0] pre IH]; intros acc s H.
  - cbn [app resolve_cfgs]. rewrite is_cfg_starts, K. cbn [negb]. unfold eval_cfg.
    rewrite bindM_eq, bindM_eq. unfold lift at 1.
    assert (Uk : utf8_valid k = true) by (apply (U k v), in_elt).
    rewrite (proj2 (parse_panic_iff pr k x POverflow Uk Ux)) by auto. reflexivity.
  - assert (U' : keys_utf8 (pre ++ (k, v) :: post)) by (intros k' v' I; apply (U k' v'); now right).
    specialize (IH U' ltac:(intros k' v' I; apply (G k' v'); now right)).
    cbn [app resolve_cfgs]. rewrite is_cfg_starts. destruct (is_cfg k0) eqn:K0; cbn [negb].
    + assert (P := G k0 v0 (or_introl eq_refl) K0). assert (Uk := U k0 v0 (or_introl eq_refl)).
      destruct (parse_expr pr k0) as [e| |] eqn:Q; try discriminate P.
      destruct H as (y & s1 & H); [exists k0, v0; cbn; auto|].
      destruct (parse_eval_ok (E := error) logic_bool (cfg_pred y) pr k0 e Uk Q) as (m & Ev).
      unfold eval_cfg. rewrite bindM_eq, bindM_eq. unfold lift at 1. rewrite Q. cbn [map_err]. rewrite bindM_eq, H.
      unfold lift. rewrite Ev. destruct acc as [[x1 x2] x3]. apply IH. intros _. exists y, s1.
      apply target_cfg_cached. now apply target_cfg_ok in H.
    + apply IH. intros (k' & v' & I & K'). apply H. exists k', v'. cbn; auto.
Qed.

(** The work before the [cfg(..)] tables. *)
Lemma resolve_target_ready tables : ready (cx_env cx) (tt_triple t) ->
  exists acc g, (forall r s, exists x, g r s = (Ok x, s)) /\ forall s,
    resolve_target pr w cx b tables t s = bindM (resolve_cfgs pr w cx b t tables acc) g s.
Proof.
  intros [C [V N]]. unfold resolve_target. cbv zeta. rewrite is_cfg_starts, C.
  change (B "_LINKER") with (B "_" ++ B "LINKER"). change (B "_RUNNER") with (B "_" ++ B "RUNNER").
  change (B "_RUSTFLAGS") with (B "_" ++ B "RUSTFLAGS").
  change (B "_RUSTDOCFLAGS") with (B "_" ++ B "RUSTDOCFLAGS").
  rewrite !target_var_name.
  assert (R : forall key, In key [B "LINKER"; B "RUNNER"; B "RUSTFLAGS"; B "RUSTDOCFLAGS"] ->
              cx_env_var (cx_env cx) (target_variable (tt_triple t) key)
              = Ok (option_map (of_variable (target_variable (tt_triple t) key))
                      (env_get (target_variable (tt_triple t) key) (cx_env cx)))).
  { intros key I. destruct (proj2 (env_var_iff (cx_env cx) (target_variable (tt_triple t) key))) as (o & E).
    - intros v. now apply V.
    - rewrite E. apply env_var_ok in E as [-> _]. reflexivity. }
  rewrite (R (B "LINKER")), (R (B "RUNNER")), (R (B "RUSTFLAGS")), (R (B "RUSTDOCFLAGS")) by (cbn; auto 10).
  assert (Ru : exists p, opt_traverse pa_of_var
              (option_map (of_variable (target_variable (tt_triple t) (B "RUNNER")))
                 (env_get (target_variable (tt_triple t) (B "RUNNER")) (cx_env cx))) = Ok p).
  { destruct (env_get (target_variable (tt_triple t) (B "RUNNER")) (cx_env cx)) as [v|] eqn:E; [|cbn; eauto].
    specialize (N v eq_refl). cbn [option_map opt_traverse]. unfold pa_of_var, pa_from_string. cbn [val def of_variable].
    destruct (split_space_separated v) as [|y l]; [easy|]. cbn. eauto. }
  destruct Ru as (p & Ru).
  eexists _, _. split.
  2:{ intros s. do 2 (rewrite bindM_eq; unfold lift at 1). rewrite bindM_eq. unfold lift at 1. rewrite Ru.
      do 2 (rewrite bindM_eq; unfold lift at 1). reflexivity. }
  intros [[r1 r2] r3] s. cbn. unfold ret. eauto.
Qed.
Lemma resolve_target_unready tables s p s' :
  resolve_target pr w cx b tables t s = (Panic p, s') -> ready (cx_env cx) (tt_triple t).
Proof.
  unfold resolve_target. cbv zeta. rewrite is_cfg_starts. destruct (is_cfg (tt_triple t)) eqn:C; [discriminate|].
  change (B "_LINKER") with (B "_" ++ B "LINKER"). change (B "_RUNNER") with (B "_" ++ B "RUNNER").
  change (B "_RUSTFLAGS") with (B "_" ++ B "RUSTFLAGS").
  change (B "_RUSTDOCFLAGS") with (B "_" ++ B "RUSTDOCFLAGS").
  rewrite !target_var_name. intros H.
  assert (L : forall A (r : result A) (f : A -> M target_config) s, (forall q, r <> Panic q) ->
            bindM (lift r) f s = (Panic p, s') -> exists a, r = Ok a /\ f a s = (Panic p, s')).
  { intros A r f s0 Nr. rewrite bindM_eq. unfold lift. destruct r as [a|e|q]; [eauto|discriminate|now destruct (Nr q)]. }
  apply L in H as (li & H1 & H); [|intros q; apply env_var_no_panic].
  apply L in H as (rv & H2 & H); [|intros q; apply env_var_no_panic].
  apply env_var_ok in H2 as [-> V2].
  set (T := tt_triple t) in *.
  apply L in H as (ru & H3 & H).
  2:{ intros q. destruct (env_get _ _); [|discriminate]. cbn. unfold pa_of_var, context_opt.
      destruct (pa_from_string _ _); discriminate. }
  apply L in H as (fv & H4 & H); [|intros q; apply env_var_no_panic].
  apply L in H as (dv & H5 & H); [|intros q; apply env_var_no_panic].
  apply env_var_ok in H1 as [_ V1]. apply env_var_ok in H4 as [_ V4]. apply env_var_ok in H5 as [_ V5].
  split; [assumption|]. split.
  { intros key v I G. repeat (destruct I as [<-|I]; [eauto|]). destruct I. }
  intros v G. fold T in G. rewrite G in H3. cbn [option_map opt_traverse] in H3.
  destruct (pa_of_var (of_variable (target_variable T (B "RUNNER")) v)) as [q|?|?] eqn:Q; try discriminate H3.
  now apply pa_of_var_ok in Q as [_ Q2].
Qed.
End Target.

(** Whether what rustc prints is to be had. *)
Lemma cfg_available_iff pr w c t s :
  cfg_available pr w c s (cli_target t) <-> exists x s1, target_cfg w (ec_cx c) (ec_build c) t s = (Ok x, s1).
Proof.
  split; [apply target_cfg_available|]. intros (x & s1 & H). unfold target_cfg in H. rewrite bindM_eq in H. cbn [get] in H.
  destruct (cfg_get (cli_target t) (s_cfg s)) as [y|] eqn:E; [left; eauto|right].
  apply bindM_ok in H as (r & s2 & Hr & H). apply bindM_ok in H as (out & s3 & Ho & H).
  exists r, s2, out. split; [|unfold run_read in Ho; injection Ho as Ho _; exact Ho].
  cbn [run_query]. unfold mapM, q_rustc. rewrite bindM_eq, Hr. reflexivity.
Qed.

(** A query about a target, given its triple. *)
Lemma target_query_of pr w c q a t s : target_query q a -> to_triple a = Ok t ->
  fst (run_query pr w c q s) = map_ok (answer_of q) (fst (q_target_of pr w c t s))
  /\ snd (run_query pr w c q s) = snd (q_target_of pr w c t s).
Proof.
  intros Q Ht. rewrite (target_query_run _ _ _ _ _ _ Q). unfold q_target. rewrite bindM_assoc, bindM_eq.
  unfold lift. rewrite Ht. rewrite !bindM_eq. destruct (q_target_of pr w c t s) as [[e|e|p] s1]; split; reflexivity.
Qed.
Lemma etarget_soft cwd x : (exists e, etarget_of cwd x = Ok e)
  \/ (etarget_of cwd x = Panic PUnwrapNone
      /\ ((exists v, t_linker x = Some v /\ forall p, ~ program_at cwd v p)
          \/ (exists ws, option_map program_words (t_runner x) = Some ws /\ forall p, ~ command_at cwd ws p))).
Proof.
  unfold etarget_of.
  destruct (opt_traverse (fun v => resolve_as_program_path (E := error) v cwd) (t_linker x)) as [l|e|p] eqn:E1; cbn [bind].
  - destruct (opt_traverse (epa_of (E := error) cwd) (t_runner x)) as [r|e|p] eqn:E2; cbn [bind]; [eauto| |].
    + exfalso. destruct (t_runner x) as [v|]; [|discriminate]. cbn in E2.
      destruct (epa_soft (E := error) cwd v) as [(y & K & _)|[K _]]; rewrite K in E2; discriminate.
    + apply epa_panic in E2 as (-> & v & E & N). right. split; [reflexivity|]. right.
      exists (program_words v). now rewrite E.
  - exfalso. destruct (t_linker x) as [v|]; [|discriminate]. cbn in E1.
    destruct (program_soft (E := error) v cwd) as [(y & K & _)|[K _]]; rewrite K in E1; discriminate.
  - apply program_panic in E1 as (-> & v & E & N). right. split; [reflexivity|]. left. eauto.
Qed.

Section Query.
Context (conf : config) (cx : context) (c : econfig) (pr : profile) (w : world).
Hypothesis Hc : from_unresolved conf cx = Ok c.
Hypothesis U : keys_utf8 (c_target conf).

Lemma target_panic_cases t s p s' : cfgs_printed w s' ->
  q_target_of pr w c t s = (Panic p, s') ->
  bget (cli_target t) (s_target s) = None /\ ready (cx_env cx) (tt_triple t)
  /\ (p = POverflow /\ key_overflows pr w c (c_target conf) (cli_target t) s
      \/ p = PUnwrapNone /\ harmless pr (c_target conf) /\ (has_cfg (c_target conf) -> cfg_available pr w c s (cli_target t))
         /\ exists matches, decided_by w s' (cli_target t) (c_target conf) matches
            /\ no_program (cx_current_dir cx) (cx_env cx) (c_target conf) (tt_triple t) matches).
Proof.
  intros Pr. destruct (from_unresolved_ok _ _ _ Hc) as (de & Ha & Rb & _ & _ & Et & Ecx).
  rewrite (proj2 (proj2 (apply_env_env _ _ _ Ha))) in Et.
  unfold q_target_of. intros H. apply bindM_panic in H as [H|(u & s1 & Hi & H)].
  - unfold init_target_config in H. rewrite bindM_eq in H. cbn [get] in H.
    destruct (bget (cli_target t) (s_target s)) as [e|] eqn:E; [discriminate|]. split; [reflexivity|].
    rewrite Et, Ecx in H. apply bindM_panic in H as [H|(x & s1 & Hx & H)].
    + assert (Rd := resolve_target_unready _ _ _ _ _ _ _ _ _ H). split; [exact Rd|]. left.
      destruct (resolve_target_ready pr w cx (ec_build c) t (c_target conf) Rd) as (acc & g & Go & G). rewrite G in H.
      apply bindM_panic in H as [H|(r & s2 & _ & H)]; [|destruct (Go r s2) as (y & Gy); congruence].
      apply resolve_cfgs_panic in H as (-> & Ov & pre & k & v & post & x & Ep & Gd & Hh & K & Ux & Cr); [|assumption].
      split; [reflexivity|]. split; [assumption|]. exists pre, k, v, post, x.
      split; [assumption|]. split.
      { apply harmless_iff; [|assumption]. intros k' v' I. apply (U k' v'). rewrite Ep. apply in_or_app. auto. }
      split; [|auto]. intros Hp. apply cfg_available_iff. rewrite Ecx. exact (Hh Hp).
    + apply bindM_panic in H as [H|(y & s2 & _ & H)]; [|discriminate].
      unfold lift in H. injection H as H ->.
      assert (Hx' := Hx). apply resolve_target_ok in Hx'. cbv zeta in Hx'. destruct Hx' as (C & V & D & L1 & L2 & _).
      split; [split; assumption|]. right.
      assert (Gd : forall k v, In (k, v) (c_target conf) -> is_cfg k = true -> is_ok (parse_expr pr k) = true).
      { intros k v I K. destruct (D k v I K) as (e & y & P & _). now rewrite P. }
      destruct (etarget_soft (cx_current_dir cx) x) as [(e & K)|[K B]]; rewrite K in H; [discriminate|].
      injection H as <-. split; [reflexivity|]. split; [now apply harmless_iff|]. split.
      * intros (k & v & I & K'). apply cfg_available_iff. rewrite Ecx.
        destruct (resolve_target_ready pr w cx (ec_build c) t (c_target conf) (conj C V)) as (acc & g & Go & G).
        rewrite G in Hx. apply bindM_ok in Hx as (r & s2 & Hr & _).
        clear - Hr I K'. revert acc s Hr. induction (c_target conf) as [|[k0 v0] l IH]; intros acc s Hr; [destruct I|].
        cbn [resolve_cfgs] in Hr. rewrite is_cfg_starts in Hr. destruct (is_cfg k0) eqn:K0; cbn [negb] in Hr.
        -- apply bindM_ok in Hr as (m & s3 & Hm & _). apply eval_cfg_ok in Hm as (e & y & _ & Hy & _). eauto.
        -- destruct I as [[= -> ->]|I]; [congruence|]. exact (IH I _ _ Hr).
      * exists (matched_in pr t s'). split; [apply (decided_decided_by pr w t s' s'); auto using grows_refl|].
        unfold no_program. rewrite <- L1, <- L2. exact B.
  - exfalso. rewrite bindM_eq in H. cbn [get] in H. unfold init_target_config in Hi. rewrite bindM_eq in Hi. cbn [get] in Hi.
    destruct (bget (cli_target t) (s_target s)) as [e|] eqn:E.
    + injection Hi as <- <-. rewrite E in H. discriminate.
    + apply bindM_ok in Hi as (x & s2 & _ & Hi). apply bindM_ok in Hi as (y & s3 & _ & Hi).
      injection Hi as <- <-. cbn in H. rewrite bget_binsert, str_eqb_refl in H. discriminate.
Qed.

Lemma target_overflows t s : bget (cli_target t) (s_target s) = None -> ready (cx_env cx) (tt_triple t) ->
  key_overflows pr w c (c_target conf) (cli_target t) s -> fst (q_target_of pr w c t s) = Panic POverflow.
Proof.
  intros E Rd (Ov & pre & k & v & post & x & Ep & G & Hh & K & Ux & Cr).
  destruct (from_unresolved_ok _ _ _ Hc) as (de & Ha & Rb & _ & _ & Et & Ecx).
  rewrite (proj2 (proj2 (apply_env_env _ _ _ Ha))) in Et.
  unfold q_target_of. rewrite bindM_eq. unfold init_target_config. rewrite bindM_eq. cbn [get].
  rewrite E, bindM_eq, Et, Ecx.
  destruct (resolve_target_ready pr w cx (ec_build c) t (c_target conf) Rd) as (acc & g & _ & Gr). rewrite Gr, bindM_eq.
  assert (P : fst (resolve_cfgs pr w cx (ec_build c) t (c_target conf) acc s) = Panic POverflow).
  { rewrite Ep. apply (resolve_cfgs_panics pr w cx (ec_build c) t pre k v post x); auto.
    - now rewrite <- Ep.
    - apply harmless_iff; [|assumption]. intros k' v' I. apply (U k' v'). rewrite Ep. apply in_or_app. auto.
    - intros Hp. apply Hh, cfg_available_iff in Hp. now rewrite Ecx in Hp. }
  destruct (resolve_cfgs _ _ _ _ _ _ _ _) as [[r|e|q] s1]; cbn in P; try discriminate. now injection P as ->.
Qed.

Lemma target_goes_on t s : bget (cli_target t) (s_target s) = None -> ready (cx_env cx) (tt_triple t) ->
  harmless pr (c_target conf) -> (has_cfg (c_target conf) -> cfg_available pr w c s (cli_target t)) ->
  cfgs_printed w (snd (q_target_of pr w c t s)) ->
  exists matches, decided_by w (snd (q_target_of pr w c t s)) (cli_target t) (c_target conf) matches
  /\ (fst (q_target_of pr w c t s) = Panic PUnwrapNone
        /\ no_program (cx_current_dir cx) (cx_env cx) (c_target conf) (tt_triple t) matches
      \/ is_ok (fst (q_target_of pr w c t s)) = true
        /\ ~ no_program (cx_current_dir cx) (cx_env cx) (c_target conf) (tt_triple t) matches).
Proof.
  intros E [C V] G Av.
  destruct (from_unresolved_ok _ _ _ Hc) as (de & Ha & Rb & _ & _ & Et & Ecx).
  rewrite (proj2 (proj2 (apply_env_env _ _ _ Ha))) in Et.
  destruct (resolve_target_success pr w cx (ec_build c) t (c_target conf) s U C V (proj1 (harmless_iff pr _ U) G)) as (r & s1 & R).
  { intros Hp. apply Av, cfg_available_iff in Hp. now rewrite Ecx in Hp. }
  assert (Q : q_target_of pr w c t s = match etarget_of (cx_current_dir cx) r with
              | Ok e => (Ok e, snd (add_target (cli_target t) e s1))
              | Err e => (Err e, s1)
              | Panic p => (Panic p, s1) end).
  { unfold q_target_of. rewrite bindM_eq. unfold init_target_config. rewrite bindM_eq. cbn [get].
    rewrite E, bindM_eq, Et, Ecx, R, bindM_eq. unfold lift at 1.
    destruct (etarget_of (cx_current_dir cx) r) as [e|e|p]; [|reflexivity..].
    cbn. now rewrite bget_binsert, str_eqb_refl. }
  rewrite Q. clear Q.
  assert (R' := R). apply resolve_target_ok in R'. cbv zeta in R'. destruct R' as (_ & _ & D & L1 & L2 & _).
  destruct (etarget_soft (cx_current_dir cx) r) as [(e & K)|[K B]]; rewrite K; cbn [fst snd]; intros P;
    exists (matched_in pr t s1).
  - split.
    + apply (decided_decided_by pr w t); [assumption|assumption| |assumption].
      apply add_target_grows. assert (X := target_untouched_resolve pr w cx (ec_build c) (c_target conf) t s).
      rewrite R in X. cbn in X. now rewrite X.
    + right. split; [reflexivity|]. apply target_programs in K as (K1 & K2 & _). unfold no_program. rewrite <- L1, <- L2.
      intros [(v & Ev & N)|(ws & Ev & N)].
      * rewrite Ev in K1. destruct (et_linker e) as [y|]; [|destruct K1]. exact (N _ K1).
      * rewrite Ev in K2. destruct (option_map program_of (et_runner e)) as [y|]; [|destruct K2]. exact (N _ K2).
  - split; [apply (decided_decided_by pr w t s1 s1); auto using grows_refl|]. left. split; [reflexivity|].
    unfold no_program. now rewrite <- L1, <- L2.
Qed.
End Query.

(** ** Tools *)
Section Tools.
Context (pr : profile) (w : world) (c : econfig).
Let cx := ec_cx c.
Let b := ec_build c.

Lemma read_cases cmd o : (exists out, read_outcome cmd o = Ok out) \/ (exists e, read_outcome cmd o = Err e).
Proof.
  assert (N := read_no_panic cmd o). destruct (read_outcome cmd o) as [out|e|p]; [eauto|eauto|now destruct (N p)].
Qed.
Lemma verbose_eq r cmd s : cmd = mkCommand (epa_path r) (epa_args r ++ [B "-vV"]) ->
  verbose_version w r s = (map_ok (fun out => (out, cmd)) (read_outcome cmd (w_run w (s_clock s) cmd)),
                           snd (run_read w cmd s)).
Proof.
  intros E. unfold verbose_version. cbv zeta. rewrite <- E, bindM_eq. unfold run_read. cbn [snd].
  destruct (read_cases cmd (w_run w (s_clock s) cmd)) as [(out & R)|(e & R)]; rewrite R; reflexivity.
Qed.
Lemma cargo_version_cases vv : (exists v, cargo_version_of vv = Ok v /\ says_cargo (fst vv) v)
  \/ ((exists e, cargo_version_of vv = Err e) /\ forall v, ~ says_cargo (fst vv) v).
Proof.
  destruct (cargo_version_of vv) as [v|e|p] eqn:E.
  - left. exists v. split; [reflexivity|]. now apply cargo_version_iff.
  - right. split; [eauto|]. intros v K. apply cargo_version_iff in K. congruence.
  - exfalso. unfold cargo_version_of, unexpected_version, bail in E.
    destruct (parse_version (fst vv)) as [[[[? ?] [?|]] ?]|]; discriminate.
Qed.
Lemma rustc_version_cases vv : (exists v, rustc_version_of vv = Ok v /\ says_rustc (fst vv) v)
  \/ ((exists e, rustc_version_of vv = Err e) /\ forall v, ~ says_rustc (fst vv) v).
Proof.
  destruct (rustc_version_of vv) as [v|e|p] eqn:E.
  - left. exists v. split; [reflexivity|]. now apply rustc_version_iff.
  - right. split; [eauto|]. intros v K. apply rustc_version_iff in K. congruence.
  - exfalso. unfold rustc_version_of, unexpected_version, bail in E.
    destruct (parse_version (fst vv)) as [[[[? ?] ?] ?]|]; discriminate.
Qed.
Lemma host_cases vv : (exists h, host_of vv = Ok h /\ says_host (fst vv) h)
  \/ ((exists e, host_of vv = Err e) /\ forall h, ~ says_host (fst vv) h).
Proof.
  destruct (host_of vv) as [v|e|p] eqn:E.
  - left. exists v. split; [reflexivity|]. now apply host_iff.
  - right. split; [eauto|]. intros v K. apply host_iff in K. congruence.
  - exfalso. unfold host_of, unexpected_version, bail in E. destruct (find_prefix _ _); discriminate.
Qed.

Definition known {A} (o : option A) : bool := match o with Some _ => true | None => false end.
Lemma known_iff {A} (o : option A) : known o = true <-> o <> None.
Proof. destruct o; cbn; split; congruence. Qed.
Lemma store_cv_eq v s : store_cargo_version pr v s =
  if known (s_cargo_version s) then ((if debug_assertions pr then Panic PDebugAssert else Ok tt), s)
  else set_cargo_version v s.
Proof.
  unfold store_cargo_version. rewrite bindM_eq. cbn [get]. destruct (s_cargo_version s); cbn [known]; [|reflexivity].
  destruct (debug_assertions pr); reflexivity.
Qed.
Lemma store_rv_eq v s : store_rustc_version pr v s =
  if known (s_rustc_version s) then ((if debug_assertions pr then Panic PDebugAssert else Ok tt), s)
  else set_rustc_version v s.
Proof.
  unfold store_rustc_version. rewrite bindM_eq. cbn [get]. destruct (s_rustc_version s); cbn [known]; [|reflexivity].
  destruct (debug_assertions pr); reflexivity.
Qed.

(** How the search with cargo ends. *)
Lemma cargo_host_cases s :
  let s1 := snd (cargo_host pr w cx s) in
  s_clock s1 = S (s_clock s) /\ s_rustc_version s1 = s_rustc_version s
  /\ ((fst (cargo_host pr w cx s) = Panic PDebugAssert
       /\ debug_assertions pr = true /\ s_cargo_version s <> None
       /\ answers w (s_clock s) (cargo_question cx) (fun out => exists v, says_cargo out v))
      \/ ((forall p, fst (cargo_host pr w cx s) <> Panic p)
          /\ ~ (debug_assertions pr = true /\ s_cargo_version s <> None
                /\ answers w (s_clock s) (cargo_question cx) (fun out => exists v, says_cargo out v))
          /\ (is_ok (fst (cargo_host pr w cx s)) = true <->
              answers w (s_clock s) (cargo_question cx) (fun out => (exists v, says_cargo out v) /\ exists h, says_host out h)))).
Proof.
  cbv zeta. unfold cargo_host. rewrite bindM_eq, (verbose_eq _ (cargo_question cx)) by reflexivity.
  set (cmd := cargo_question cx). unfold answers.
  destruct (read_cases cmd (w_run w (s_clock s) cmd)) as [(out & R)|(e & R)]; rewrite R; cbn [map_ok].
  2:{ cbn. split; [reflexivity|]. split; [reflexivity|]. right. split; [discriminate|]. split.
      - intros (_ & _ & o & K & _). congruence.
      - split; [discriminate|]. intros (o & K & _). congruence. }
  rewrite bindM_eq. unfold lift. cbv beta.
  set (s1 := snd (run_read w cmd s)).
  assert (Ck : s_clock s1 = S (s_clock s)) by reflexivity.
  assert (Rv : s_rustc_version s1 = s_rustc_version s) by reflexivity.
  assert (Cv : s_cargo_version s1 = s_cargo_version s) by reflexivity.
  clearbody s1.
  destruct (cargo_version_cases (out, cmd)) as [(v & V & Sv)|[(e & V) Nv]]; cbn [fst] in *; rewrite V.
  2:{ cbn. split; [assumption|]. split; [assumption|]. right. split; [discriminate|]. split.
      - intros (_ & _ & o & K & v & Kv). assert (o = out) as -> by congruence. exact (Nv v Kv).
      - split; [discriminate|]. intros (o & K & (v & Kv) & _). assert (o = out) as -> by congruence. now destruct (Nv v). }
  rewrite bindM_eq, store_cv_eq. rewrite Cv.
  assert (Tells : exists o, Ok (E := error) out = Ok o /\ exists v, says_cargo o v) by eauto.
  assert (K0 := known_iff (s_cargo_version s)).
  destruct (known (s_cargo_version s)).
  - destruct (debug_assertions pr) eqn:D.
    + cbn. split; [exact Ck|]. split; [exact Rv|]. left. split; [reflexivity|]. split; [reflexivity|].
      split; [now apply K0|]. assumption.
    + cbn [fst snd]. split; [assumption|]. split; [assumption|]. right.
      destruct (host_cases (out, cmd)) as [(h & H & Sh)|[(e & H) Nh]]; rewrite H; cbn [fst] in *.
      * split; [discriminate|]. split; [intros (? & _); discriminate|]. split; [intros _; eauto 10|reflexivity].
      * split; [discriminate|]. split; [intros (? & _); discriminate|]. split; [discriminate|].
        intros (o & [= <-] & _ & h & Kh). now destruct (Nh h).
  - unfold set_cargo_version. cbn [fst snd s_clock s_rustc_version]. split; [assumption|]. split; [assumption|]. right.
    assert (Nk : ~ s_cargo_version s <> None) by (intros K; apply K0 in K; discriminate).
    destruct (host_cases (out, cmd)) as [(h & H & Sh)|[(e & H) Nh]]; rewrite H; cbn [fst] in *.
    * split; [discriminate|]. split; [tauto|]. split; [intros _; eauto 10|reflexivity].
    * split; [discriminate|]. split; [tauto|]. split; [discriminate|].
      intros (o & [= <-] & _ & h & Kh). now destruct (Nh h).
Qed.

Lemma rustc_asked_unique n m m' q q' : rustc_asked w cx b n m q -> rustc_asked w cx b n m' q' -> m = m' /\ q = q'.
Proof.
  intros (p & A & P) (p' & A' & P').
  assert (p = p' /\ m = m') as [-> ->].
  { destruct (eb_rustc b); [destruct P, P'; now subst|].
    destruct P as (f & F & -> & ->), P' as (f' & F' & -> & ->). apply next_to_iff in F, F'. now subst. }
  split; [reflexivity|]. unfold ask in *. rewrite A in A'. destruct q, q'. cbn in A'. now injection A' as -> ->.
Qed.
Lemma for_version_asked s : exists r s1, rustc_for_version w cx b s = (Ok r, s1)
  /\ rustc_asked w cx b (s_clock s) (s_clock s1) (mkCommand (epa_path r) (epa_args r ++ [B "-vV"]))
  /\ s_rustc_version s1 = s_rustc_version s.
Proof.
  unfold rustc_for_version, base_rustc, rustc_asked, rustc_path. destruct (eb_rustc b) as [r|].
  - eexists _, s. rewrite bindM_eq. split; [reflexivity|]. split; [|reflexivity]. exists r.
    split; [|split; reflexivity]. unfold ask. destruct (eb_rustc_wrapper b); reflexivity.
  - eexists _, _. rewrite !bindM_eq. split; [reflexivity|]. split; [|reflexivity].
    eexists. split; [|eexists; split; [apply next_to_iff; reflexivity|split; reflexivity]].
    unfold ask. destruct (eb_rustc_wrapper b); reflexivity.
Qed.

Lemma rustc_host_panic s x : fst (rustc_host pr w cx b s) = Panic x <->
  x = PDebugAssert /\ debug_assertions pr = true /\ s_rustc_version s <> None
  /\ exists m q, rustc_asked w cx b (s_clock s) m q /\ answers w m q (fun out => exists v, says_rustc out v).
Proof.
  unfold rustc_host. destruct (for_version_asked s) as (r & s1 & F & A & Rv). rewrite bindM_eq, F, bindM_eq.
  rewrite (verbose_eq r _ s1 eq_refl). set (cmd := mkCommand _ _) in *. unfold answers.
  assert (Un : forall m q, rustc_asked w cx b (s_clock s) m q -> m = s_clock s1 /\ q = cmd).
  { intros m q K. exact (rustc_asked_unique _ _ _ _ _ K A). }
  destruct (read_cases cmd (w_run w (s_clock s1) cmd)) as [(out & R)|(e & R)]; rewrite R; cbn [map_ok].
  2:{ split; [discriminate|]. intros (_ & _ & _ & m & q & K & o & Ko & _). apply Un in K as [-> ->]. congruence. }
  rewrite bindM_eq. unfold lift. cbv beta.
  destruct (rustc_version_cases (out, cmd)) as [(v & V & Sv)|[(e & V) Nv]]; cbn [fst] in *; rewrite V.
  2:{ split; [discriminate|]. intros (_ & _ & _ & m & q & K & o & Ko & v & Kv). apply Un in K as [-> ->].
      assert (o = out) as -> by congruence. now destruct (Nv v). }
  rewrite bindM_eq, store_rv_eq.
  assert (K0 := known_iff (s_rustc_version (snd (run_read w cmd s1)))).
  change (s_rustc_version (snd (run_read w cmd s1))) with (s_rustc_version s1) in *. rewrite Rv in *.
  assert (Hh : forall h, fst (host_of (out, cmd), h : state) = Panic x -> False).
  { intros h. destruct (host_cases (out, cmd)) as [(h' & H & _)|[(e & H) _]]; rewrite H; discriminate. }
  destruct (known (s_rustc_version s)).
  - destruct (debug_assertions pr) eqn:D.
    + cbn. split; [intros [= <-]|intros (-> & _); reflexivity].
      split; [reflexivity|]. split; [reflexivity|]. split; [now apply K0|]. eauto 10.
    + split; [intros H; now apply Hh in H|]. intros (_ & ? & _). discriminate.
  - unfold set_rustc_version. split; [intros H; now apply Hh in H|]. intros (_ & _ & K & _). apply K0 in K. discriminate.
Qed.

Lemma host_panic_iff s x : fst (cx_host_triple pr w cx b s) = Panic x <-> x = PDebugAssert /\ told_twice pr w c s.
Proof.
  unfold told_twice. fold cx b. cbv zeta. unfold cx_host_triple. rewrite bindM_eq. cbn [get].
  destruct (s_host s) as [h|] eqn:Eh; [split; [discriminate|intros (_ & _ & ? & _); discriminate]|].
  rewrite bindM_eq. unfold or_else.
  destruct (cargo_host_cases s) as (Ck & Rv & Cases). cbv zeta in *.
  destruct (cargo_host pr w cx s) as [r s1] eqn:E. cbn [fst snd] in *.
  destruct Cases as [(-> & D & Cv & A)|(Np & Nc & Ok1)].
  - cbn. split; [intros [= <-]|intros (-> & _); reflexivity]. split; [reflexivity|]. auto.
  - destruct r as [h|e|p]; [| |now destruct (Np p)].
    + cbn. split; [discriminate|]. intros (_ & D & _ & [(Cv & A)|(_ & N & _)]); [tauto|]. destruct N. now apply Ok1.
    + assert (N : ~ answers w (s_clock s) (cargo_question cx) (fun out => (exists v, says_cargo out v) /\ exists h, says_host out h)).
      { intros K. apply Ok1 in K. discriminate. }
      assert (R := rustc_host_panic s1 x). rewrite Ck, Rv in R.
      destruct (rustc_host pr w cx b s1) as [[h|e'|p] s2]; cbn [fst] in *.
      * cbn. split; [discriminate|]. intros (-> & D & _ & [(Cv & A)|(Kv & _ & K)]); [tauto|].
        apply R. auto.
      * cbn. split; [discriminate|]. intros (-> & D & _ & [(Cv & A)|(Kv & _ & K)]); [tauto|].
        apply R. auto.
      * cbn. split.
        -- intros H. destruct (proj1 R H) as (-> & D & K1 & K2). auto 10.
        -- intros (-> & D & _ & [(Cv & A)|(Kv & _ & K)]); [tauto|]. apply R. auto.
Qed.

Lemma rv_panic_iff s x : fst (cx_rustc_version pr w cx b s) = Panic x <->
  s_rustc_version s = None /\ x = PDebugAssert /\ told_twice pr w c s.
Proof.
  unfold cx_rustc_version. rewrite bindM_eq. cbn [get].
  destruct (s_rustc_version s) as [v|] eqn:E; [split; [discriminate|intros [? _]; discriminate]|].
  rewrite bindM_eq. unfold ignore_err. assert (H := host_panic_iff s x). fold cx b in H.
  assert (Tail : forall s1, fst ((s0 <~ get;;
      match s_rustc_version s0 with
      | Some v => ret v
      | None => p <~ rustc_for_version w cx b;; vv <~ verbose_version w p;; v <~ lift (rustc_version_of vv);;
          _ <~ set_rustc_version v;; ret v
      end) s1) <> Panic x).
  { intros s1. rewrite bindM_eq. cbn [get]. destruct (s_rustc_version s1); [discriminate|].
    destruct (for_version_asked s1) as (r & s2 & F & _). rewrite bindM_eq, F, bindM_eq, (verbose_eq r _ s2 eq_refl).
    destruct (read_cases (mkCommand (epa_path r) (epa_args r ++ [B "-vV"])) (w_run w (s_clock s2) (mkCommand (epa_path r) (epa_args r ++ [B "-vV"]))))
      as [(out & R)|(e & R)]; rewrite R; cbn [map_ok]; [|discriminate].
    rewrite bindM_eq. unfold lift.
    destruct (rustc_version_cases (out, mkCommand (epa_path r) (epa_args r ++ [B "-vV"]))) as [(v & V & _)|[(e & V) _]]; rewrite V; discriminate. }
  destruct (cx_host_triple pr w cx b s) as [[h|e|p] s1]; cbn [fst] in H.
  - split; [intros K; now apply Tail in K|]. intros (_ & K). apply H in K. discriminate.
  - split; [intros K; now apply Tail in K|]. intros (_ & K). apply H in K. discriminate.
  - cbn. split; [intros [= <-]; split; [reflexivity|]; now apply H|intros (_ & K); apply H in K; congruence].
Qed.
Lemma cv_panic_iff s x : fst (cx_cargo_version pr w cx b s) = Panic x <->
  s_cargo_version s = None /\ x = PDebugAssert /\ told_twice pr w c s.
Proof.
  unfold cx_cargo_version. rewrite bindM_eq. cbn [get].
  destruct (s_cargo_version s) as [v|] eqn:E; [split; [discriminate|intros [? _]; discriminate]|].
  rewrite bindM_eq. unfold ignore_err. assert (H := host_panic_iff s x). fold cx b in H.
  assert (Tail : forall s1, fst ((s0 <~ get;;
      match s_cargo_version s0 with
      | Some v => ret v
      | None => vv <~ verbose_version w (epa_new (cx_cargo cx));; v <~ lift (cargo_version_of vv);;
          _ <~ set_cargo_version v;; ret v
      end) s1) <> Panic x).
  { intros s1. rewrite bindM_eq. cbn [get]. destruct (s_cargo_version s1); [discriminate|].
    rewrite bindM_eq, (verbose_eq (epa_new (cx_cargo cx)) (cargo_question cx) s1 eq_refl).
    destruct (read_cases (cargo_question cx) (w_run w (s_clock s1) (cargo_question cx))) as [(out & R)|(e & R)]; rewrite R; cbn [map_ok]; [|discriminate].
    rewrite bindM_eq. unfold lift.
    destruct (cargo_version_cases (out, cargo_question cx)) as [(v & V & _)|[(e & V) _]]; rewrite V; discriminate. }
  destruct (cx_host_triple pr w cx b s) as [[h|e|p] s1]; cbn [fst] in H.
  - split; [intros K; now apply Tail in K|]. intros (_ & K). apply H in K. discriminate.
  - split; [intros K; now apply Tail in K|]. intros (_ & K). apply H in K. discriminate.
  - cbn. split; [intros [= <-]; split; [reflexivity|]; now apply H|intros (_ & K); apply H in K; congruence].
Qed.
End Tools.

(** ** Targets to build for *)
Lemma to_triple_cases a : (is_ok (to_triple a) = true /\ ~ exists s, a = ArgText s /\ nameless s)
  \/ (to_triple a = Panic PUnwrapNone /\ exists s, a = ArgText s /\ nameless s).
Proof.
  destruct a as [s|t]; cbn [to_triple].
  - destruct (@triple_from_soft error s) as [(t & O & N)|[P N]]; [left|right]; (split; [now rewrite ?O|]); [|eauto].
    intros (s' & [= <-] & K). contradiction.
  - left. split; [reflexivity|]. intros (s & ? & _). discriminate.
Qed.
Lemma traverse_triples l : (is_ok (traverse to_triple l) = true /\ ~ exists s, In (ArgText s) l /\ nameless s)
  \/ (traverse to_triple l = Panic PUnwrapNone /\ exists s, In (ArgText s) l /\ nameless s).
Proof.
  induction l as [|a l IH]; [left; split; [reflexivity|]; intros (s & [] & _)|].
  cbn [traverse]. destruct (to_triple_cases a) as [[O N]|[P (s & -> & K)]].
  - destruct (to_triple a) as [t|e|p]; [|discriminate|discriminate]. cbn [bind].
    destruct IH as [[O' N']|[P' (s & I & K)]].
    + left. split; [destruct (traverse to_triple l); now try discriminate|].
      intros (s & [->|I] & K); [apply N|apply N']; eauto.
    + right. rewrite P'. split; [reflexivity|]. exists s. split; [now right|assumption].
  - right. rewrite P. split; [reflexivity|]. exists s. split; [now left|assumption].
Qed.

(** ** Programs of a loaded configuration *)
Lemma rooted_program cwd v : (forall d, def v = Some d -> rooted d) -> exists p, program_at cwd v p.
Proof.
  intros H. destruct (program_soft (E := error) v cwd) as [(p & _ & P)|[_ N]]; [eauto|]. exfalso.
  destruct (def v) as [d|] eqn:D; [|apply (N (val v)); constructor; auto].
  assert (R : exists r, root_of cwd d r).
  { specialize (H d eq_refl). destruct d as [q|n|[q|]]; cbn in H; [|eexists; constructor| |eexists; constructor];
      destruct H as (x & y & P1 & P2); exists y; econstructor; eassumption. }
  destruct R as (r & R).
  destruct (program_cases (E := error) v cwd) as [(p & H')|[H' N']]; [apply (program_ok (E := error)) in H'; exact (N _ H')|].
  assert (A : ~ absolute (val v)) by (intros A; apply (N (val v)); constructor; auto).
  assert (S : ~ ~ has_separator (val v)) by (intros A'; apply (N (val v)); constructor; auto).
  apply S. intros S'. eapply N. eapply program_below; eassumption.
Qed.
Lemma loaded_programs f cwd home conf env matches triple :
  load_with_options f cwd home = Ok conf -> (forall h, home = Some h -> ~ rootish h) ->
  target_vars_readable env triple -> ~ no_program cwd env (c_target conf) triple matches.
Proof.
  intros Hl Hh [_ Rd].
  destruct (visited_ex f cwd home) as (ps & V).
  assert (L : load_files f ps = Ok conf) by (rewrite <- (visited_load f cwd home ps V); assumption).
  destruct (load_files_sorted f ps conf L) as (_ & _ & _ & Srt).
  assert (Rt : forall q, In q ps -> rooted (DefPath q)).
  { intros q I. destruct (visited_rooted f cwd home ps q V I) as [R|(h & E & R)]; [assumption|]. now destruct (Hh h E). }
  assert (Lk : forall k v, look (TargetLinker k) conf = Some v -> exists p, program_at cwd v p).
  { intros k v H. apply rooted_program. intros d D.
    destruct (origin_scalar f ps conf _ _ v L H) as (q & c0 & v0 & I & _ & _ & D' & _).
    rewrite D in D'. injection D' as ->. now apply Rt. }
  assert (Pk : forall k ws, look_program (TargetRunner k) conf = Some ws -> exists p, command_at cwd ws p).
  { intros k [fm ws] H. assert (H0 := H). cbn in H0. unfold under in H0.
    destruct (bget k (c_target conf)) as [t|]; [|discriminate]. destruct (t_runner t) as [pa|]; [|discriminate].
    cbn in H0. injection H0 as <- <-.
    destruct (rooted_program cwd (pa_path pa)) as (p & P).
    - intros d D. destruct (origin_program f ps conf _ _ _ (pa_path pa) L H (or_introl eq_refl))
        as (q & c0 & fm0 & ws0 & w0 & I & _ & _ & _ & D' & _).
      rewrite D in D'. injection D' as ->. now apply Rt.
    - exists (p, map val (pa_args pa)). exists (pa_path pa), (pa_args pa). auto. }
  intros [(v & H & N)|(ws & H & N)]; unfold target_linker, target_runner in H; apply first_defined_in in H;
    cbn [app] in H; destruct H as [H|[H|H]].
  - unfold var in H. destruct (env_get (target_variable triple (B "LINKER")) env); [|discriminate].
    cbn [option_map] in H. injection H as <-.
    destruct (rooted_program cwd (of_variable (target_variable triple (B "LINKER")) s)) as (p & P); [|exact (N p P)].
    intros d [= <-]. exact I.
  - destruct (Lk triple v H) as (p & P). exact (N p P).
  - apply in_map_iff in H as (t & H & I). unfold matching in I. apply in_map_iff in I as ([k t'] & E & I).
    cbn in E. subst t'. apply filter_In in I as [I _]. apply (sorted_in_bget _ _ _ Srt) in I.
    destruct (Lk k v) as (p & P); [|exact (N p P)]. cbn. unfold under. now rewrite I.
  - unfold var_words in H. destruct (env_get (target_variable triple (B "RUNNER")) env) as [x|] eqn:E; [|discriminate].
    specialize (Rd x eq_refl). cbn [option_map] in H. injection H as <-.
    destruct (split_space_separated x) as [|y l]; [now apply Rd|].
    destruct (rooted_program cwd (of_variable (target_variable triple (B "RUNNER")) y)) as (p & P).
    { intros d [= <-]. exact I. }
    apply (N (p, map val (map (of_variable (target_variable triple (B "RUNNER"))) l))). repeat eexists. exact P.
  - destruct (Pk triple ws H) as (p & P). exact (N p P).
  - apply in_map_iff in H as (t & H & I). unfold matching in I. apply in_map_iff in I as ([k t'] & E & I).
    cbn in E. subst t'. apply filter_In in I as [I _]. apply (sorted_in_bget _ _ _ Srt) in I.
    destruct (Pk k ws) as (p & P); [|exact (N p P)]. cbn. unfold under. now rewrite I.
Qed.
