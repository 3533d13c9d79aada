(** Lemmas about the resolved configuration as a whole. *)
From Verif.Model Require Import Base Str Path BMap Error Value De Triple EasyTypes Merge SetPath Walk Load Context
  ApplyEnv Resolve Process Easy.
From Verif.Spec Require Import StrSpec PathSpec WalkSpec ConfigSpec LoadSpec EnvSpec TripleSpec RootSpec
  Utf8Spec CfgSpec TargetSpec FinalSpec.
From Verif.Proof Require Import Utf8Proof StrFacts PathFacts WalkProof BMapFacts TripleProof MergeProof LoadProof EnvProof
  EnvVarsProof EnvTextProof RootProof TargetProof TargetEnvProof.

(** ** The sources are those of the model *)
Lemma environment_cx p o cwd env : environment p o env ->
  one_value_each (cx_env (into_context p o cwd))
  /\ forall n, env_get n env = env_get n (cx_env (into_context p o cwd)).
Proof.
  unfold environment, into_context. cbn. destruct (o_env o) as [e|]; [tauto|].
  intros H. split; [apply env_filter_unique|]. intros n.
  destruct (env_get n env) as [v|] eqn:K.
  - symmetry. apply env_filter_get. now apply H.
  - destruct (env_get n (env_filter (p_vars p))) as [v|] eqn:K'; [|reflexivity].
    apply env_filter_get in K'. apply H in K'. congruence.
Qed.
Lemma environment_ex p o cwd : (forall e, o_env o = Some e -> one_value_each e) ->
  environment p o (cx_env (into_context p o cwd)).
Proof.
  unfold environment, into_context. cbn. destruct (o_env o) as [e|]; [auto|]. intros _ n v. apply env_filter_get.
Qed.
Lemma home_cx p o cwd h : home_of p o cwd h <-> cx_cargo_home p (into_context p o cwd) cwd = h.
Proof.
  unfold cx_cargo_home, into_context. cbn [cx_cargo_home0]. destruct (o_cargo_home o) as [x|] eqn:O.
  - split; [intros H; inversion H; congruence|]. intros <-. now apply home_option.
  - rewrite cargo_home_spec. split.
    + intros H. inversion H as [? K|v K V A|v K V Nv A|K V]; subst; try congruence.
      * rewrite V. destruct A as (r & ->). now rewrite Ascii.eqb_refl.
      * rewrite V. destruct v as [|c v]; [contradiction|]. destruct (Ascii.eqb_spec c separator); [|reflexivity].
        subst c. exfalso. apply A. now exists v.
      * destruct V as [-> | ->]; now destruct (p_home_dir p).
    + intros <-. destruct (env_get (B "CARGO_HOME") (p_vars p)) as [[|c v]|] eqn:V.
      * assert (K := home_default p o cwd O (or_intror V)). now destruct (p_home_dir p).
      * destruct (Ascii.eqb_spec c separator).
        -- subst c. apply home_absolute; auto. now exists v.
        -- apply home_relative; auto; [discriminate|]. intros (r & [= ? _]). contradiction.
      * assert (K := home_default p o cwd O (or_introl V)). now destruct (p_home_dir p).
Qed.

Lemma sources_cx f p cwd o env l : sources f p cwd o env l ->
  let cx := into_context p o cwd in
  one_value_each (cx_env cx) /\ (forall n, env_get n env = env_get n (cx_env cx))
  /\ exists ps, visited f cwd (cx_cargo_home p cx cwd) ps /\ reads f ps l.
Proof.
  intros (E & home & ps & H & V & R). cbn. destruct (environment_cx p o cwd env E) as [N G].
  apply home_cx in H. subst home. eauto.
Qed.

(** ** From the files to the configuration before resolution *)
Lemma load_of_sources f p cwd o env l ec : sources f p cwd o env l ->
  easy_load_with_options f p cwd o = Ok ec ->
  let cx := into_context p o cwd in
  exists c, from_unresolved c cx = Ok ec
  /\ (forall A (k : scalar_key A), look k c = first_defined (map (scalar_in k) l))
  /\ (forall k, look_list k c = join_lists (defined (map (list_in k) l)))
  /\ (forall k, look_program k c = join_programs (defined (map (program_in k) l)))
  /\ (forall k, has_entry k c = existsb (fun x => has_entry k (snd x)) l)
  /\ tables_in_order c.
Proof.
  intros S H cx. destruct (sources_cx _ _ _ _ _ _ S) as (_ & _ & ps & V & R).
  apply bind_okk in H as (c & Hc & H). exists c. split; [assumption|]. fold cx in Hc, V.
  change (cx_current_dir cx) with cwd in Hc.
  assert (L : load_files f ps = Ok c) by (rewrite <- (visited_load f cwd _ ps V); assumption).
  split; [exact (load_scalar f ps c l L R)|]. split; [exact (load_list f ps c l L R)|].
  split; [exact (load_program f ps c l L R)|]. split; [exact (load_entry f ps c l L R)|].
  apply tables_in_order_sorted. exact (load_files_sorted f ps c L).
Qed.

(** The keys with the environment applied. *)
Lemma scalar_after_ext {A} (k : scalar_key A) env env' b : (forall n, env_get n env = env_get n env') ->
  scalar_after k env b = scalar_after k env' b.
Proof. intros H. unfold scalar_after. now rewrite (consulted_ext _ _ _ H). Qed.
Lemma words_after_ext vars env env' b : (forall n, env_get n env = env_get n env') ->
  words_after vars env b = words_after vars env' b.
Proof. intros H. unfold words_after. now rewrite (consulted_ext _ _ _ H). Qed.
Lemma program_after_ext k env env' b : (forall n, env_get n env = env_get n env') ->
  program_after k env b = program_after k env' b.
Proof. intros H. unfold program_after. now rewrite (words_after_ext _ _ _ _ H). Qed.
Lemma entry_after_ext k env env' b : (forall n, env_get n env = env_get n env') ->
  entry_after k env b = entry_after k env' b.
Proof. intros H. unfold entry_after, set. destruct k; now rewrite ?H. Qed.

Lemma merged_of_sources f p cwd o env l ec : sources f p cwd o env l ->
  easy_load_with_options f p cwd o = Ok ec ->
  let cx := into_context p o cwd in
  exists c de, from_unresolved c cx = Ok ec /\ apply_env (cx_env cx) c = Ok de
  /\ (forall A (k : scalar_key A), look k de = scalar_of env l k)
  /\ (forall k, look_list k de = words_of env l k)
  /\ (forall k, look_program k de = program_in_all env l k)
  /\ (forall k, has_entry k de = entry_of env l k).
Proof.
  intros S H cx. destruct (load_of_sources _ _ _ _ _ _ _ S H) as (c & Hc & H1 & H2 & H3 & H4 & _).
  destruct (sources_cx _ _ _ _ _ _ S) as (N & G & _). fold cx in Hc, N, G.
  destruct (from_unresolved_ok c cx ec Hc) as (de & Ha & _). exists c, de.
  split; [assumption|]. split; [assumption|]. split; [|split; [|split]].
  - intros A k. rewrite (apply_env_scalar _ _ _ N Ha), H1. symmetry. now apply scalar_after_ext.
  - intros k. rewrite (apply_env_list _ _ _ N Ha), H2. symmetry. now apply words_after_ext.
  - intros k. rewrite (apply_env_program _ _ _ Ha), H3. symmetry. now apply program_after_ext.
  - intros k. rewrite (apply_env_entry _ _ _ N Ha), H4. symmetry. now apply entry_after_ext.
Qed.

(** ** The fields *)
Lemma from_unresolved_fields c cx de ec : from_unresolved c cx = Ok ec -> apply_env (cx_env cx) c = Ok de ->
  let cwd := cx_current_dir cx in
  (forall A (k : scalar_key A), field k = true -> both (final_at cwd k) (look k de) (easy_look k ec))
  /\ (forall k, list_field k = true -> both (final_words cwd k) (look_list k de) (easy_words k ec))
  /\ both (command_at cwd) (look_program DocBrowser de) (option_map program_of (ed_browser (ec_doc ec)))
  /\ (forall n, both (env_at cwd (look (EnvVarForce n) de) (look (EnvVarRelative n) de))
                  (look (EnvVarValue n) de) (bget n (ec_env ec)))
  /\ (forall k, easy_entry k ec = has_entry k de).
Proof.
  intros H Ha cwd. destruct (from_unresolved_ok c cx ec H) as (de' & Ha' & Rb & Rd & Re & Rt & Rc).
  assert (de' = de) by congruence. subst de'. fold cwd in Rb, Rd, Re.
  unfold from_unresolved in H. rewrite Ha in H. cbn [bind] in H. fold cwd in H.
  apply bind_okk in H as (b & Hb & H). apply bind_okk in H as (d & Hd & H). apply bind_okk in H as (en & He & H).
  injection H as <-. cbn [ec_build ec_doc ec_env ec_de_target] in *.
  split; [|split; [|split; [|split]]].
  - assert (K : forall A (x : option (value A)), both (fun v a => a = val v) x (option_map val x))
      by (intros A [x|]; cbn; auto).
    intros A k. destruct k; intros Fk; try discriminate Fk;
      cbn -[under bget bmapv]; try apply Rb; try apply K;
      try (rewrite (br_jobs _ _ _ Rb) || rewrite (br_incremental _ _ _ Rb); apply K);
      unfold under; rewrite bget_bmapv; destruct (bget name (c_registries de)); cbn; auto; apply K.
  - intros k Fk. destruct k; try discriminate Fk; cbn -[under bget bmapv].
    + unfold under. rewrite bget_bmapv. destruct (bget name (c_alias de)); cbn; auto.
    + assert (R := br_target _ _ _ Rb).
      assert (G : forall l ts, Forall2 (fun v t => triple_new (E := error) (val v) (def v) (Some cwd) = Ok t) l ts ->
              Forall2 (target_at cwd) l (map cli_target ts)).
      { induction 1; cbn; constructor; auto. now apply target_ok in H. }
      destruct (b_target (c_build de)) as [[v|l]|], (eb_target b) as [ts|]; cbn in *; auto.
    + rewrite (br_rustflags _ _ _ Rb). now destruct (b_rustflags (c_build de)).
    + rewrite (br_rustdocflags _ _ _ Rb). now destruct (b_rustdocflags (c_build de)).
  - cbn. destruct (d_browser (c_doc de)), (ed_browser d); cbn in *; auto.
  - intros n. specialize (Re n). cbn -[bget]. unfold under.
    destruct (bget n (c_env de)) as [e|], (bget n en) as [x|]; cbn in *; auto.
    apply eenv_of_ok in Re as [R1 R2]. split; [assumption|].
    destruct e as [v|v f r]; [cbn; tauto|]. unfold is_true in R2. unfold on. tauto.
  - intros k. destruct k; cbn -[bget bmapv]; rewrite ?bget_bmapv; try reflexivity.
    + now destruct (bget name (c_alias de)).
    + specialize (Re name). destruct (bget name (c_env de)), (bget name en); cbn in *; tauto.
    + now destruct (bget name (c_registries de)).
Qed.

(** ** When the resolution succeeds *)
Definition fine {E A} (r : res E A) : Prop := exists a, r = Ok a.
Lemma fine_ok {E A} (r : res E A) : fine r <-> is_ok r = true.
Proof. unfold fine. destruct r; cbn; split; try discriminate; eauto; intros (a & H); discriminate H. Qed.
Lemma fine_bind {E A A'} (m : res E A) (f : A -> res E A') (P Q : Prop) :
  (fine m <-> P) -> (forall a, m = Ok a -> (fine (f a) <-> Q)) -> (fine (bind m f) <-> P /\ Q).
Proof.
  intros H H'. split.
  - intros (b & K). apply bind_okk in K as (a & Ea & K). split; [apply H; now exists a|].
    apply (H' a Ea). now exists b.
  - intros [Hp Hq]. apply H in Hp as (a & Ea). rewrite Ea. cbn. now apply (H' a Ea).
Qed.
Lemma fine_ret {E A} (a : A) : fine (@Ok E A a) <-> True.
Proof. split; [auto|]. now exists a. Qed.
Lemma fine_opt {E A A'} (f : A -> res E A') o :
  fine (opt_traverse f o) <-> forall a, o = Some a -> fine (f a).
Proof.
  unfold fine. destruct o as [a|]; cbn.
  - split.
    + intros (x & H) b [= <-]. destruct (f a); try discriminate H. eauto.
    + intros H. destruct (H a eq_refl) as (x & ->). cbn. eauto.
  - split; [discriminate|eauto].
Qed.
Lemma fine_traverse {E A A'} (f : A -> res E A') l :
  fine (traverse f l) <-> forall a, In a l -> fine (f a).
Proof.
  induction l as [|a l IH]; cbn [traverse].
  - rewrite fine_ret. cbn. tauto.
  - rewrite (fine_bind _ _ (fine (f a)) (forall x, In x l -> fine (f x))); [|reflexivity|].
    + cbn. split; [intros [H1 H2] x [<-|I]; auto|auto].
    + intros b _. rewrite <- IH. rewrite (fine_bind _ _ (fine (traverse f l)) True); [tauto|reflexivity|].
      intros ? _. apply fine_ret.
Qed.
Lemma fine_btraverse {E V W} (f : V -> res E W) m :
  fine (btraverse f m) <-> forall k v, In (k, v) m -> fine (f v).
Proof.
  induction m as [|[k v] m IH]; cbn [btraverse].
  - rewrite fine_ret. cbn. tauto.
  - rewrite (fine_bind _ _ (fine (f v)) (forall k v, In (k, v) m -> fine (f v))); [|reflexivity|].
    + cbn. split; [intros [H1 H2] k' v' [[= <- <-]|I]; eauto|].
      intros H. split; [apply (H k); now left|]. intros k' v' I. apply (H k'). now right.
    + intros b _. rewrite <- IH. rewrite (fine_bind _ _ (fine (btraverse f m)) True); [tauto|reflexivity|].
      intros ? _. apply fine_ret.
Qed.

Lemma fine_program cwd v : fine (resolve_as_program_path (E := error) v cwd) <-> exists p, program_at cwd v p.
Proof. unfold fine. split; intros (p & H); exists p; now apply (program_ok (E := error)). Qed.
Lemma fine_path cwd v : fine (resolve_as_path (E := error) v cwd) <-> exists p, path_at cwd v p.
Proof. unfold fine. split; intros (p & H); exists p; now apply (path_ok (E := error)). Qed.
Lemma fine_epa cwd a : fine (epa_of (E := error) cwd a) <-> exists p, command_at cwd (program_words a) p.
Proof.
  unfold epa_of, resolve_program. rewrite (fine_bind _ _ _ True (fine_program cwd (pa_path a))) by (intros; apply fine_ret).
  unfold command_at, program_words. cbn. split.
  - intros [(p & H) _]. exists (p, map val (pa_args a)). exists (pa_path a), (pa_args a). auto.
  - intros (p & v & args & [= <- <-] & H & _). eauto.
Qed.
Lemma fine_root {A} cwd (v : value A) d : def v = Some d ->
  (fine (def_root (E := error) d cwd) <-> has_root cwd v).
Proof.
  intros D. unfold fine, has_root. rewrite D. split.
  - intros (r & H) d' [= <-]. exists r. now apply def_root_ok in H.
  - intros H. destruct (H d eq_refl) as (r & K). exists r. now apply def_root_ok.
Qed.
Lemma fine_triple cwd v : fine (triple_new (E := error) (val v) (def v) (Some cwd)) <->
  (spec_like (val v) -> has_root cwd v /\ exists n st, last_name (val v) n /\ stem_of n st /\ utf8_valid st = true).
Proof.
  unfold triple_new. destruct (is_spec_path (val v)) eqn:Sp.
  - apply is_spec_path_iff in Sp.
    assert (K : (exists n st, last_name (val v) n /\ stem_of n st /\ utf8_valid st = true)
                <-> exists st, file_stem (val v) = Some st /\ utf8_valid st = true).
    { split.
      - intros (n & st & H1 & H2 & H3). exists st. split; [|assumption]. apply file_stem_iff. eauto.
      - intros (st & H & H3). apply file_stem_iff in H as (n & H1 & H2). eauto 6. }
    rewrite K. destruct (file_stem (val v)) as [st|] eqn:F.
    + unfold to_str. destruct (utf8_valid st) eqn:U.
      * rewrite (fine_bind _ _ (has_root cwd v) True); [|destruct (def v) as [d|] eqn:D|intros; apply fine_ret].
        -- split; [intros [H _] _; eauto|]. intros H. split; [now apply H|exact I].
        -- rewrite <- (fine_root cwd v d D). unfold resolve_spec_path. rewrite def_root_opt_root.
           rewrite (fine_bind _ _ (fine (def_root (E := error) d cwd)) True); [tauto| |intros [?|] _; apply fine_ret].
           rewrite (fine_bind _ _ (fine (def_root (E := error) d cwd)) True); [tauto|reflexivity|intros; apply fine_ret].
        -- unfold resolve_spec_path. rewrite fine_ret. unfold has_root. rewrite D. split; [discriminate|auto].
      * split; [intros (? & H); discriminate H|]. intros H. destruct (H Sp) as (_ & st' & [= <-] & U'). congruence.
    + split; [intros (? & H); discriminate H|]. intros H. destruct (H Sp) as (_ & st' & H' & _). discriminate H'.
  - rewrite fine_ret. split; [|auto]. intros _ H. apply is_spec_path_iff in H. congruence.
Qed.
Lemma fine_env cwd e : fine (eenv_of cwd e) <->
  match e with EnvTable v _ r => on r = true -> has_root cwd v | EnvValue _ => True end.
Proof.
  unfold eenv_of. destruct e as [v|v f r]; [apply fine_ret|]. change (on r) with (is_true r).
  destruct (is_true r) eqn:T; [|rewrite fine_ret; split; [discriminate|auto]].
  rewrite (fine_bind _ _ (has_root cwd v) True); [tauto| |intros; apply fine_ret].
  unfold env_resolve. destruct r as [r|]; [|discriminate T]. cbn in T. rewrite T.
  destruct (def v) as [d|] eqn:D.
  - rewrite <- (fine_root cwd v d D).
    rewrite (fine_bind _ _ (fine (def_root (E := error) d cwd)) True); [tauto|reflexivity|intros; apply fine_ret].
  - rewrite fine_ret. unfold has_root. rewrite D. split; [discriminate|auto].
Qed.

Lemma fine_resolution c cx de : apply_env (cx_env cx) c = Ok de -> tables_in_order c ->
  let cwd := cx_current_dir cx in
  (fine (from_unresolved c cx) <->
   (forall (k : scalar_key str) v, field k = true -> look k de = Some v -> exists p, final_at cwd k v p)
   /\ (forall ws v, look_list BuildTarget de = Some ws -> In v (snd ws) -> spec_like (val v) ->
        has_root cwd v /\ exists n st, last_name (val v) n /\ stem_of n st /\ utf8_valid st = true)
   /\ (forall ws, look_program DocBrowser de = Some ws -> exists p, command_at cwd ws p)
   /\ (forall n v, look (EnvVarValue n) de = Some v -> on (look (EnvVarRelative n) de) = true -> has_root cwd v)).
Proof.
  intros Ha Ord cwd. unfold from_unresolved. rewrite Ha. cbn [bind]. fold cwd.
  set (prog o := forall v : value str, o = Some v -> exists p, program_at cwd v p).
  set (pth o := forall v : value str, o = Some v -> exists p, path_at cwd v p).
  assert (Fp : forall o, fine (opt_traverse (fun v => resolve_as_program_path (E := error) v cwd) o) <-> prog o).
  { intros o. rewrite fine_opt. unfold prog. split; intros H v Hv; apply fine_program; auto. }
  assert (Fq : forall o, fine (opt_traverse (fun v => resolve_as_path (E := error) v cwd) o) <-> pth o).
  { intros o. rewrite fine_opt. unfold pth. split; intros H v Hv; apply fine_path; auto. }
  assert (Fb : fine (ebuild_of cwd (c_build de)) <->
     (forall k v, field k = true -> look k de = Some v -> exists p, final_at cwd (k : scalar_key str) v p)
     /\ (forall ws v, look_list BuildTarget de = Some ws -> In v (snd ws) -> spec_like (val v) ->
        has_root cwd v /\ exists n st, last_name (val v) n /\ stem_of n st /\ utf8_valid st = true)).
  { unfold ebuild_of. rewrite (fine_bind _ _ _ (prog (b_rustc_wrapper (c_build de))
      /\ prog (b_rustc_workspace_wrapper (c_build de)) /\ prog (b_rustdoc (c_build de))
      /\ (forall ws v, look_list BuildTarget de = Some ws -> In v (snd ws) -> spec_like (val v) ->
        has_root cwd v /\ exists n st, last_name (val v) n /\ stem_of n st /\ utf8_valid st = true)
      /\ pth (b_target_dir (c_build de)) /\ pth (b_dep_info_basedir (c_build de)) /\ True) (Fp _)).
    - split.
      + intros (H1 & H2 & H3 & H4 & H5 & H6 & H7 & _). split; [|exact H5].
        assert (G : forall A (k : scalar_key A) v, field k = true -> look k de = Some v ->
                    exists p, final_at cwd k v p).
        { intros A k v Fk. destruct k; cbn [final_at]; intros Lk;
          first [exact (H1 v Lk)|exact (H2 v Lk)|exact (H3 v Lk)|exact (H4 v Lk)|exact (H6 v Lk)|exact (H7 v Lk)|eauto]. }
        intros k v. apply G.
      + intros [H1 H2]. split; [exact (fun v => H1 BuildRustc v eq_refl)|].
        split; [exact (fun v => H1 BuildRustcWrapper v eq_refl)|].
        split; [exact (fun v => H1 BuildRustcWorkspaceWrapper v eq_refl)|].
        split; [exact (fun v => H1 BuildRustdoc v eq_refl)|]. split; [exact H2|].
        split; [exact (fun v => H1 BuildTargetDir v eq_refl)|].
        split; [exact (fun v => H1 BuildDepInfoBasedir v eq_refl)|exact I].
    - intros ? _. apply fine_bind; [apply Fp|intros ? _]. apply fine_bind; [apply Fp|intros ? _].
      apply fine_bind; [apply Fp|intros ? _]. apply fine_bind; [|intros ? _].
      + rewrite fine_opt. cbn [look_list]. split.
        * intros H ws v Hw Iv. apply fine_triple.
          destruct (b_target (c_build de)) as [t|]; [|discriminate Hw].
          specialize (H t eq_refl). unfold targets_of in H. rewrite fine_traverse in H. apply H.
          destruct t; injection Hw as <-; exact Iv.
        * intros H t Ht. unfold targets_of. apply fine_traverse. intros v Iv. apply fine_triple.
          rewrite Ht in H. destruct t; (eapply H; [reflexivity|exact Iv]).
      + apply fine_bind; [apply Fq|intros ? _]. apply fine_bind; [apply Fq|intros ? _]. apply fine_ret. }
  rewrite (fine_bind _ _ _ ((forall ws, look_program DocBrowser de = Some ws -> exists p, command_at cwd ws p)
     /\ (forall n v, look (EnvVarValue n) de = Some v -> on (look (EnvVarRelative n) de) = true -> has_root cwd v)) Fb).
  { tauto. }
  intros b0 _. apply fine_bind.
  - unfold edoc_of. rewrite (fine_bind _ _ (forall a, d_browser (c_doc de) = Some a -> fine (epa_of (E := error) cwd a)) True);
      [|apply fine_opt|intros; apply fine_ret]. cbn [look_program]. split.
    + intros [H _] ws Hw. destruct (d_browser (c_doc de)) as [a|]; [|discriminate Hw]. injection Hw as <-.
      apply fine_epa. now apply H.
    + intros H. split; [|exact I]. intros a Ea. apply fine_epa. apply H. now rewrite Ea.
  - intros ? _. rewrite (fine_bind _ _ (forall k e, In (k, e) (c_env de) -> fine (eenv_of cwd e)) True);
      [|apply fine_btraverse|intros; apply fine_ret].
    assert (Srt : sorted (c_env de)).
    { rewrite (proj1 (apply_env_env _ _ _ Ha)). apply tables_in_order_sorted in Ord. apply Ord. }
    cbn [look]. unfold under. split.
    + intros [H _] n v Hv Hr. destruct (bget n (c_env de)) as [e|] eqn:G; [|discriminate Hv].
      apply bget_in in G. specialize (H n e G). rewrite fine_env in H.
      destruct e as [w|w f r]; injection Hv as <-; [discriminate Hr|auto].
    + intros H. split; [|exact I]. intros k e Ie. apply fine_env.
      apply sorted_in_bget in Ie; [|assumption]. destruct e as [w|w f r]; [exact I|]. intros Hr.
      apply (H k w); rewrite Ie; [reflexivity|exact Hr].
Qed.

Lemma join_programs_none l : join_programs l = None <-> l = [].
Proof. destruct l as [|[[] ws] l]; cbn; split; intros H; easy. Qed.
Lemma defined_none {A} (l : list (option A)) : defined l = [] <-> Forall (eq None) l.
Proof.
  unfold defined. induction l as [|[a|] l IH]; cbn.
  - split; auto.
  - split; [discriminate|]. intros H. inversion H. discriminate.
  - rewrite IH. split; [auto|]. intros H. now inversion H.
Qed.
Lemma no_browser (l : files) :
  join_programs (defined (map (program_in DocBrowser) l)) = None
  <-> Forall (fun x => look_program DocBrowser (snd x) = None) l.
Proof.
  rewrite join_programs_none, defined_none, Forall_map.
  split; apply Forall_impl; intros x; unfold program_in; destruct (look_program DocBrowser (snd x)); easy.
Qed.

Lemma readable_ext {A} (vars : list (reader A)) env env' : (forall n, env_get n env = env_get n env') ->
  readable vars env -> readable vars env'.
Proof. intros H R n. rewrite <- (consulted_ext _ _ _ H). apply R. Qed.

Lemma load_accepted f p cwd o : (forall e, o_env o = Some e -> one_value_each e) ->
  (is_ok (easy_load_with_options f p cwd o) = true <->
   exists env l, sources f p cwd o env l /\ same_shapes (map snd l) /\ variables_readable env l
                 /\ resolvable cwd env l).
Proof.
  intros No. rewrite <- fine_ok. set (cx := into_context p o cwd).
  assert (N : one_value_each (cx_env cx)) by (apply (environment_cx p o cwd _ (environment_ex p o cwd No))).
  split.
  - intros (ec & H).
    destruct (visited_ex f cwd (cx_cargo_home p cx cwd)) as (ps & V).
    assert (K := H). apply bind_okk in K as (c & Hc & K). fold cx in Hc, K. change (cx_current_dir cx) with cwd in Hc.
    rewrite (visited_load f cwd _ ps V) in Hc.
    assert (E : exists l, reads f ps l /\ same_shapes (map snd l)) by (apply load_files_ok; now rewrite Hc).
    destruct E as (l & R & Sh). exists (cx_env cx), l.
    assert (S : sources f p cwd o (cx_env cx) l).
    { split; [now apply environment_ex|]. exists (cx_cargo_home p cx cwd), ps. split; [now apply home_cx|auto]. }
    split; [exact S|]. split; [exact Sh|].
    destruct (load_of_sources _ _ _ _ _ _ _ S H) as (c' & Hc' & _ & _ & H3 & _ & Ord).
    destruct (merged_of_sources _ _ _ _ _ _ _ S H) as (c'' & de & Hc'' & Ha & M1 & M2 & M3 & _).
    fold cx in Hc', Hc'', Ha.
    assert (Srt := load_files_sorted f ps c Hc).
    destruct (from_unresolved_ok c cx ec K) as (de0 & Ha0 & _).
    assert (L3 := load_program f ps c l Hc R). assert (L1 := load_scalar f ps c l Hc R).
    assert (L2 := load_list f ps c l Hc R).
    split.
    + assert (Rd : all_readable (cx_env cx) c) by (apply apply_env_ok; [assumption|now rewrite Ha0]).
      destruct Rd as (R1 & R2 & R3). split; [exact R1|]. split; [exact R2|]. intros Nb. apply R3.
      rewrite L3. now apply no_browser.
    + destruct (proj1 (fine_resolution c cx de0 Ha0 (proj2 (tables_in_order_sorted c) Srt)) (ex_intro _ ec K))
        as (F1 & F2 & F3 & F4). change (cx_current_dir cx) with cwd in F1, F2, F3, F4.
      assert (D1 : forall A (k : scalar_key A), scalar_of (cx_env cx) l k = look k de0).
      { intros A k. rewrite (apply_env_scalar _ _ _ N Ha0), L1. reflexivity. }
      assert (D2 : forall k, words_of (cx_env cx) l k = look_list k de0).
      { intros k. rewrite (apply_env_list _ _ _ N Ha0), L2. reflexivity. }
      assert (D3 : forall k, program_in_all (cx_env cx) l k = look_program k de0).
      { intros k. rewrite (apply_env_program _ _ _ Ha0), L3. reflexivity. }
      split; [|split; [|split]].
      * intros k v Fk. rewrite D1. now apply F1.
      * intros ws v. rewrite D2. apply F2.
      * intros ws. rewrite D3. apply F3.
      * intros n v. rewrite !D1. apply F4.
  - intros (env & l & S & Sh & (R1 & R2 & R3) & F1 & F2 & F3 & F4).
    destruct (sources_cx _ _ _ _ _ _ S) as (_ & G & ps & V & R). fold cx in G, V.
    assert (E : is_ok (load_files f ps) = true) by (apply load_files_ok; eauto).
    apply fine_ok in E as (c & Hc).
    assert (Srt := load_files_sorted f ps c Hc).
    assert (L3 := load_program f ps c l Hc R). assert (L1 := load_scalar f ps c l Hc R).
    assert (L2 := load_list f ps c l Hc R).
    assert (Ok1 : is_ok (apply_env (cx_env cx) c) = true).
    { apply apply_env_ok; [assumption|]. split; [|split].
      - intros A k. apply (readable_ext _ _ _ G). apply R1.
      - intros k. apply (readable_ext _ _ _ G). apply R2.
      - intros K. apply (readable_ext _ _ _ G). apply R3. rewrite L3 in K. now apply no_browser. }
    apply fine_ok in Ok1 as (de & Ha).
    assert (D1 : forall A (k : scalar_key A), scalar_of env l k = look k de).
    { intros A k. rewrite (apply_env_scalar _ _ _ N Ha), L1. now apply scalar_after_ext. }
    assert (D2 : forall k, words_of env l k = look_list k de).
    { intros k. rewrite (apply_env_list _ _ _ N Ha), L2. now apply words_after_ext. }
    assert (D3 : forall k, program_in_all env l k = look_program k de).
    { intros k. rewrite (apply_env_program _ _ _ Ha), L3. now apply program_after_ext. }
    unfold easy_load_with_options. fold cx. change (cx_current_dir cx) with cwd.
    rewrite (visited_load f cwd _ ps V), Hc. cbn [bind].
    apply (fine_resolution c cx de Ha (proj2 (tables_in_order_sorted c) Srt)).
    change (cx_current_dir cx) with cwd. split; [|split; [|split]].
    + intros k v Fk. rewrite <- D1. now apply F1.
    + intros ws v. rewrite <- D2. apply F2.
    + intros ws. rewrite <- D3. apply F3.
    + intros n v. rewrite <- !D1. apply F4.
Qed.

(** ** Targets *)
Lemma tables_loaded f p cwd o env l ec : sources f p cwd o env l ->
  easy_load_with_options f p cwd o = Ok ec -> tables_of l (ec_de_target ec).
Proof.
  intros S H. destruct (load_of_sources _ _ _ _ _ _ _ S H) as (c & Hc & H1 & H2 & H3 & H4 & Ord).
  destruct (from_unresolved_ok c _ ec Hc) as (de & Ha & _ & _ & _ & Et & _).
  rewrite Et, (proj2 (proj2 (apply_env_env _ _ _ Ha))).
  split; [apply Ord|]. split; [intros t; apply (H4 (TargetEntry t))|].
  split; [intros t; apply (H1 _ (TargetLinker t))|].
  split; [intros t; apply (H3 (TargetRunner t))|].
  split; [intros t; apply (H2 (TargetRustflags t))|intros t; apply (H2 (TargetRustdocflags t))].
Qed.

Lemma words_eq_flags x y : option_map flags_words x = option_map flags_words y -> x = y.
Proof.
  destruct x as [[l r]|], y as [[l' r']|]; cbn; try discriminate; [|reflexivity].
  unfold flags_words. cbn. intros [= K ->]. f_equal. f_equal. now destruct r, r'.
Qed.
Lemma words_eq_program x y : option_map program_words x = option_map program_words y -> x = y.
Proof.
  destruct x as [[a l r]|], y as [[a' l' r']|]; cbn; try discriminate; [|reflexivity].
  unfold program_words. cbn. intros [= K -> ->]. f_equal. f_equal. now destruct r, r'.
Qed.
Lemma tables_unique l m m' : tables_of l m -> tables_of l m' -> m = m'.
Proof.
  intros (O & H1 & H2 & H3 & H4 & H5) (O' & H1' & H2' & H3' & H4' & H5').
  apply in_order_sorted in O, O'. apply sorted_ext; [assumption..|]. intros k.
  specialize (H1 k). rewrite <- (H1' k) in H1. specialize (H2 k). rewrite <- (H2' k) in H2.
  specialize (H3 k). rewrite <- (H3' k) in H3. specialize (H4 k). rewrite <- (H4' k) in H4.
  specialize (H5 k). rewrite <- (H5' k) in H5. clear -H1 H2 H3 H4 H5. unfold under in *.
  destruct (bget k m) as [[a b c d]|], (bget k m') as [[a' b' c' d']|]; try discriminate; [|reflexivity].
  unfold runner_words, rustflags_words, rustdocflags_words in *. cbn in *.
  apply words_eq_program in H3. apply words_eq_flags in H4, H5. congruence.
Qed.

Lemma var_ext env env' t key : (forall n, env_get n env = env_get n env') -> var env t key = var env' t key.
Proof. intros H. unfold var. now rewrite H. Qed.
Lemma var_words_ext env env' t key :
  (forall n, env_get n env = env_get n env') -> var_words env t key = var_words env' t key.
Proof. intros H. unfold var_words. now rewrite H. Qed.
Lemma settings_ext env env' l m cwd matches t e : (forall n, env_get n env = env_get n env') ->
  settings_of env l m cwd matches t e -> settings_of env' l m cwd matches t e.
Proof.
  intros H. unfold settings_of, target_linker, target_runner, target_rustflags, target_rustdocflags,
    overrides_target, set, words_of.
  rewrite (var_ext _ _ _ _ H), !(var_words_ext _ _ _ _ H), !(words_after_ext _ _ _ _ H), !H. auto.
Qed.

Lemma target_final f p cwd o env l ec pr w q a t s x s' :
  sources f p cwd o env l -> easy_load_with_options f p cwd o = Ok ec ->
  Forall (fun x => text_keys (c_target (snd x))) l ->
  reached pr w ec s -> target_query q a -> real_arg a -> to_triple a = Ok t ->
  run_query pr w ec q s = (Ok x, s') ->
  forall tables, tables_of l tables ->
  exists matches e, decided_by w s' (cli_target t) tables matches
    /\ settings_of env l tables cwd matches (tt_triple t) e /\ x = part_of q e.
Proof.
  intros S H U Rs Q Ra Ht Hq tables Tb.
  assert (Tb' := tables_loaded _ _ _ _ _ _ _ S H).
  destruct (load_of_sources _ _ _ _ _ _ _ S H) as (c & Hc & _ & H2 & _ & H4 & _).
  destruct (sources_cx _ _ _ _ _ _ S) as (N & G & _). set (cx := into_context p o cwd) in *.
  destruct (from_unresolved_ok c cx ec Hc) as (de & Ha & _ & _ & _ & Et & _).
  assert (Eq : c_target c = tables).
  { rewrite <- (proj2 (proj2 (apply_env_env _ _ _ Ha))), <- Et. now apply tables_unique with l. }
  assert (Uc : text_keys (c_target c)).
  { intros k v I. specialize (H4 (TargetEntry k)). cbn [has_entry] in H4.
    assert (Srt : sorted (c_target c)) by (rewrite Eq; apply in_order_sorted; apply Tb).
    rewrite (sorted_in_bget _ _ _ Srt I) in H4. cbn in H4. symmetry in H4. apply existsb_exists in H4 as ((q0 & c0) & Ix & Hx).
    cbn in Hx. destruct (bget k (c_target c0)) as [v0|] eqn:K; [|discriminate]. apply bget_in in K.
    rewrite Forall_forall in U. exact (U _ Ix _ _ K). }
  assert (Ku : keys_utf8 (c_target c)) by (intros k v I; apply utf8_valid_iff; exact (Uc k v I)).
  destruct (target_settings c cx ec pr w q a t s x s' N Hc Ku Rs Q Ra Ht Hq)
    as (matches & e & Ex & D & _ & _ & X1 & X2 & X3 & X4).
  exists matches, e. rewrite Eq in *. split; [assumption|]. split.
  - apply (settings_ext (cx_env cx)); [intros n; symmetry; apply G|].
    split; [exact X1|]. split; [exact X2|].
    assert (W : forall k, words_of (cx_env cx) l k = look_list k de).
    { intros k. now rewrite (apply_env_list _ _ _ N Ha), H2. }
    rewrite !W. split.
    + rewrite (flags_key BuildRustflags _ _ _ _ _ _
                 (or_introl (conj eq_refl (conj eq_refl (conj eq_refl eq_refl)))) N Ha). exact X3.
    + rewrite (flags_key BuildRustdocflags _ _ _ _ _ _
                 (or_intror (conj eq_refl (conj eq_refl (conj eq_refl eq_refl)))) N Ha). exact X4.
  - rewrite Ex. destruct Q as [-> | [-> | [-> | [-> | -> ]]]]; reflexivity.
Qed.

(** ** Nothing but the sources matters *)
Lemma load_file_same f f' p c : contents f p c -> contents f' p c -> load_file f p = load_file f' p.
Proof.
  intros H H'. transitivity (Ok (E := error) (sp_config p c)); [|symmetry]; apply load_file_ok; eauto.
Qed.
Lemma load_rest_same f f' bp ps : (forall p, In p ps -> load_file f p = load_file f' p) ->
  forall base, load_rest f bp base ps = load_rest f' bp base ps.
Proof.
  induction ps as [|p ps IH]; intros H base; cbn [load_rest]; [reflexivity|].
  rewrite (H p (or_introl eq_refl)). destruct (load_file f' p); cbn [bind]; [|reflexivity..].
  destruct (with_context _ (merge_config base a false)); cbn [bind]; [|reflexivity..].
  apply IH. intros q I. apply H. now right.
Qed.
Lemma load_files_same f f' ps l : reads f ps l -> reads f' ps l -> load_files f ps = load_files f' ps.
Proof.
  intros [H1 H2] [_ H2'].
  assert (K : forall p, In p ps -> load_file f p = load_file f' p).
  { intros p I. rewrite <- H1 in I. apply in_map_iff in I as ((q & c) & Eq & I). cbn in Eq. subst q.
    rewrite Forall_forall in H2, H2'. exact (load_file_same f f' p c (H2 _ I) (H2' _ I)). }
  destruct ps as [|p ps]; [reflexivity|]. cbn [load_files]. rewrite (K p (or_introl eq_refl)).
  destruct (load_file f' p); cbn [bind]; [|reflexivity..]. apply load_rest_same. intros q I. apply K. now right.
Qed.
Lemma sources_alike f f' p p' cwd o o' env l :
  sources f p cwd o env l -> sources f' p' cwd o' env l ->
  alike (easy_load_with_options f p cwd o) (easy_load_with_options f' p' cwd o').
Proof.
  intros S S'. destruct (sources_cx _ _ _ _ _ _ S) as (N & G & ps & V & R).
  destruct (sources_cx _ _ _ _ _ _ S') as (N' & G' & ps' & V' & R').
  assert (ps' = ps) by (destruct R as [<- _], R' as [<- _]; reflexivity). subst ps'.
  unfold easy_load_with_options. set (cx := into_context p o cwd) in *. set (cx' := into_context p' o' cwd) in *.
  change (cx_current_dir cx) with cwd. change (cx_current_dir cx') with cwd.
  rewrite (visited_load f cwd _ ps V), (visited_load f' cwd _ ps V'), <- (load_files_same f f' ps l R R').
  destruct (load_files f ps) as [c| |] eqn:L; cbn [bind alike]; auto.
  unfold from_unresolved.
  assert (Q : same_outcome (apply_env (cx_env cx) c) (apply_env (cx_env cx') c)).
  { apply same_env_same; [assumption..| |exact (load_files_sorted f ps c L)]. intros n. now rewrite <- G, <- G'. }
  unfold same_outcome in Q. destruct (apply_env (cx_env cx) c), (apply_env (cx_env cx') c); try contradiction; cbn [bind alike]; auto.
  subst a0. change (cx_current_dir cx) with cwd. change (cx_current_dir cx') with cwd.
  destruct (ebuild_of cwd (c_build a)); cbn [bind alike]; auto.
  destruct (edoc_of cwd (c_doc a)); cbn [bind alike]; auto.
  destruct (btraverse (eenv_of cwd) (c_env a)); cbn [bind alike]; auto.
Qed.

(** ** The views are complete *)
Lemma btraverse_keys {E V W} (f : V -> res E W) m : forall m', btraverse f m = Ok m' -> map fst m' = map fst m.
Proof.
  induction m as [|[k v] m IH]; intros m'; cbn [btraverse]; [now intros [= <-]|].
  intros H. apply bind_okk in H as (w & _ & H). apply bind_okk in H as (r & Hr & H). injection H as <-.
  cbn. f_equal. now apply IH.
Qed.
Lemma sorted_keys {V W} (m : bmap V) : forall (m' : bmap W), map fst m' = map fst m -> sorted m -> sorted m'.
Proof.
  induction m as [|[k v] m IH]; intros [|[k' w] m'] H S; try discriminate H; [constructor|].
  injection H as -> H. inversion S as [|? ? S1 S2]; subst. constructor; [now apply IH|].
  rewrite Forall_forall in *. intros [k0 w0] I. apply (in_map fst) in I. rewrite H in I.
  apply in_map_iff in I as ([k1 v1] & Ek & I). cbn in Ek. subst k1. apply (S2 _ I).
Qed.
Lemma load_well_formed f p cwd o ec : easy_load_with_options f p cwd o = Ok ec ->
  well_formed ec.
Proof.
  intros H. apply bind_okk in H as (c & Hc & H). unfold load_with_options in Hc.
  assert (Srt := load_files_sorted f _ c Hc). unfold from_unresolved in H. apply bind_okk in H as (de & Ha & H).
  apply (apply_env_sorted _ _ _ Srt) in Ha. destruct Ha as (S1 & S2 & S3 & S4).
  apply bind_okk in H as (b & Hb & H). apply bind_okk in H as (d & Hd & H). apply bind_okk in H as (en & He & H).
  injection H as <-. unfold well_formed. cbn. split; [|split; [|split]].
  - apply in_order_sorted. now apply bmapv_sorted.
  - apply btraverse_keys in He. apply in_order_sorted. now apply (sorted_keys _ _ He).
  - apply in_order_sorted. now apply bmapv_sorted.
  - intros ts Ht. apply ebuild_of_ok in Hb. assert (R := br_target _ _ _ Hb). rewrite Ht in R.
    destruct (b_target (c_build de)) as [t|]; [|destruct R]. cbn in R. clear -R.
    induction R as [|v t0 vs ts H R IH]; constructor; [|assumption]. eexists _, _, _. exact H.
Qed.

Lemma option_flags_eq x y : option_map ef_flags x = option_map ef_flags y -> x = y.
Proof. destruct x as [[]|], y as [[]|]; cbn; congruence. Qed.
Lemma settings_complete a b : well_formed a -> well_formed b -> same_settings a b -> same_hidden a b -> a = b.
Proof.
  intros (A1 & A2 & A3 & A4) (B1 & B2 & B3 & B4) (H1 & H2 & H3 & H4 & H5) (D1 & D2 & D3 & D4 & D5 & D6).
  assert (Et : eb_target (ec_build a) = eb_target (ec_build b)).
  { specialize (H2 BuildTarget). cbn in H2. destruct (eb_target (ec_build a)) as [x|], (eb_target (ec_build b)) as [y|];
      try discriminate; [|reflexivity]. f_equal. injection H2 as H2. specialize (A4 x eq_refl). specialize (B4 y eq_refl).
    clear -A4 B4 H2. revert y B4 H2. induction A4 as [|t x M A4 IH]; intros [|u y] F E; try discriminate; [reflexivity|].
    inversion F; subst. injection E as E E'. f_equal; [now apply made_unique|now apply IH]. }
  assert (Eb : ec_build a = ec_build b).
  { assert (K1 := H1 _ BuildJobs). assert (K2 := H1 _ BuildRustc). assert (K3 := H1 _ BuildRustcWrapper).
    assert (K4 := H1 _ BuildRustcWorkspaceWrapper). assert (K5 := H1 _ BuildRustdoc).
    assert (K6 := H1 _ BuildTargetDir). assert (K7 := H1 _ BuildIncremental). assert (K8 := H1 _ BuildDepInfoBasedir).
    assert (K9 := H2 BuildRustflags). assert (K10 := H2 BuildRustdocflags). cbn in *.
    apply option_flags_eq in K9, K10.
    clear - K1 K2 K3 K4 K5 K6 K7 K8 K9 K10 Et D1 D2 D3 D4.
    destruct (ec_build a), (ec_build b); cbn in *. subst. reflexivity. }
  assert (Ea : ec_alias a = ec_alias b).
  { apply in_order_sorted in A1, B1. apply sorted_ext; [assumption..|]. intros k. specialize (H2 (Alias k)). cbn in H2.
    destruct (bget k (ec_alias a)) as [[]|], (bget k (ec_alias b)) as [[]|]; cbn in *; congruence. }
  assert (Ee : ec_env a = ec_env b).
  { apply in_order_sorted in A2, B2. apply sorted_ext; assumption. }
  assert (Er : ec_registries a = ec_registries b).
  { apply in_order_sorted in A3, B3. apply sorted_ext; [assumption..|]. intros k.
    assert (K1 := H1 _ (RegistriesIndex k)). assert (K2 := H1 _ (RegistriesToken k)).
    assert (K3 := H1 _ (RegistriesProtocol k)). specialize (H5 (RegistriesEntry k)). cbn in *. unfold under in *.
    destruct (bget k (ec_registries a)) as [[]|], (bget k (ec_registries b)) as [[]|]; cbn in *; congruence. }
  assert (Eh : ec_http a = ec_http b).
  { assert (K1 := H1 _ HttpDebug). assert (K2 := H1 _ HttpProxy). assert (K3 := H1 _ HttpTimeout).
    assert (K4 := H1 _ HttpCainfo). assert (K5 := H1 _ HttpCheckRevoke). assert (K6 := H1 _ HttpLowSpeedLimit).
    assert (K7 := H1 _ HttpMultiplexing). assert (K8 := H1 _ HttpUserAgent). cbn in *.
    destruct (ec_http a), (ec_http b); cbn in *. congruence. }
  assert (En : ec_net a = ec_net b).
  { assert (K1 := H1 _ NetRetry). assert (K2 := H1 _ NetGitFetchWithCli). assert (K3 := H1 _ NetOffline). cbn in *.
    destruct (ec_net a), (ec_net b); cbn in *. congruence. }
  assert (Eg : ec_registry a = ec_registry b).
  { assert (K1 := H1 _ RegistryDefault). assert (K2 := H1 _ RegistryToken). cbn in *.
    destruct (ec_registry a), (ec_registry b); cbn in *. congruence. }
  assert (Em : ec_term a = ec_term b).
  { assert (K1 := H1 _ TermQuiet). assert (K2 := H1 _ TermVerbose). assert (K3 := H1 _ TermColor).
    assert (K4 := H1 _ TermProgressWhen). assert (K5 := H1 _ TermProgressWidth). cbn in *.
    destruct (ec_term a) as [? ? ? []], (ec_term b) as [? ? ? []]; cbn in *. congruence. }
  assert (Ef : ec_future_incompat_report a = ec_future_incompat_report b).
  { assert (K1 := H1 _ FutureFrequency). cbn in *. destruct (ec_future_incompat_report a), (ec_future_incompat_report b); cbn in *. congruence. }
  assert (Ec : ec_cargo_new a = ec_cargo_new b).
  { assert (K1 := H1 _ CargoNewVcs). cbn in *. destruct (ec_cargo_new a), (ec_cargo_new b); cbn in *. congruence. }
  assert (Eo : ec_doc a = ec_doc b).
  { destruct (ec_doc a), (ec_doc b); cbn in *. congruence. }
  destruct a, b; cbn in *. subst. reflexivity.
Qed.
