(** What the caller's options, the process and the defaults decide. *)
From Verif.Model Require Import Base Str Path BMap Error Value De EasyTypes Triple Context ApplyEnv Load Process
  Resolve Easy.
From Verif.Spec Require Import StrSpec ConfigSpec LoadSpec EnvSpec TargetSpec FinalSpec OptionsSpec.
From Verif.Proof Require Import StrFacts MergeProof RootProof EnvProof EnvTextProof EnvVarsProof LoadProof FinalProof.
From Verif.Proof Require SecretProof.

#[local] Arguments B : simpl never.

(** ** The builder *)
Lemma last_given_snoc {A} (g : call -> option A) l c o : last_given g l o ->
  last_given g (l ++ [c]) (match g c with Some a => Some a | None => o end).
Proof.
  intros H. destruct (g c) as [a|] eqn:E.
  - exists l, c, []. split; [reflexivity|]. split; [assumption|]. intros _ [].
  - destruct o as [a|]; cbn [last_given] in *.
    + destruct H as (l1 & c1 & l2 & -> & G & N). exists l1, c1, (l2 ++ [c]).
      split; [now rewrite <- app_assoc|]. split; [assumption|]. intros c' I.
      apply in_app_or in I as [I|[<-|[]]]; auto.
    + intros c' I. apply in_app_or in I as [I|[<-|[]]]; auto.
Qed.
Lemma built_snoc l c : built (l ++ [c]) = calling (built l) c.
Proof. unfold built. now rewrite fold_left_app. Qed.
Lemma given_by {A} (g : call -> option A) (get : options -> option A) :
  get options_default = None ->
  (forall o c, get (calling o c) = match g c with Some a => Some a | None => get o end) ->
  forall l, last_given g l (get (built l)).
Proof.
  intros D S l. induction l as [|c l IH] using rev_ind.
  - unfold built. cbn [fold_left]. rewrite D. intros c [].
  - rewrite built_snoc, S. now apply last_given_snoc.
Qed.
Lemma tabulated_filter vars : tabulated vars (env_filter vars).
Proof. split; [apply env_filter_unique|]. intros n v. apply env_filter_get. Qed.
Lemma env_given l : exists v, last_given vars_given l v /\ given_variables v (o_env (built l)).
Proof.
  induction l as [|c l (v & L & G)] using rev_ind.
  - exists None. split; [intros c []|exact I].
  - exists (match vars_given c with Some a => Some a | None => v end).
    split; [now apply last_given_snoc|]. rewrite built_snoc. destruct c; try exact G. apply tabulated_filter.
Qed.

(** ** [cargo] *)
Lemma cargo_cx p o cwd env c : environment p o env -> cargo_of o env c -> cx_cargo (into_context p o cwd) = c.
Proof.
  intros E H. destruct (environment_cx p o cwd env E) as [_ G]. specialize (G (B "CARGO")).
  unfold into_context in *. cbn [cx_cargo cx_env] in *. rewrite <- G.
  destruct H as [c H|c H K|H K]; rewrite H; [reflexivity|now rewrite K..].
Qed.
Lemma cargo_exists o env : exists c, cargo_of o env c.
Proof.
  destruct (o_cargo o) as [c|] eqn:O; [exists c; now apply cargo_option|].
  destruct (env_get (B "CARGO") env) as [c|] eqn:E; [exists c; now apply cargo_variable|].
  exists (B "cargo"). now apply cargo_default.
Qed.
Lemma cargo_unique o env c c' : cargo_of o env c -> cargo_of o env c' -> c = c'.
Proof. intros [c1 H|c1 H K|H K] [c2 H'|c2 H' K'|H' K']; congruence. Qed.
Lemma environment_exists p o : (forall e, o_env o = Some e -> one_value_each e) -> exists env, environment p o env.
Proof.
  intros N. unfold environment. destruct (o_env o) as [e|] eqn:E.
  - exists e. split; [now apply N|reflexivity].
  - exists (env_filter (p_vars p)). intros n v. apply env_filter_get.
Qed.
Lemma home_exists p o cwd : exists h, home_of p o cwd h.
Proof. exists (cx_cargo_home p (into_context p o cwd) cwd). now apply home_cx. Qed.

(** ** Queries *)
Lemma var_ext env env' n : env_get n env = env_get n env' -> cx_env_var env n = cx_env_var env' n.
Proof. intros H. unfold cx_env_var. now rewrite H. Qed.
Section Query.
Variables (pr : profile) (w : world) (cx cx' : context).
Hypothesis G : forall n, env_get n (cx_env cx) = env_get n (cx_env cx').
Hypothesis C : cx_cargo cx = cx_cargo cx'.
Hypothesis D : cx_current_dir cx = cx_current_dir cx'.
Lemma eval_same b e t : eval_cfg pr w cx b e t = eval_cfg pr w cx' b e t.
Proof. unfold eval_cfg, target_cfg, cx_rustc, base_rustc. now rewrite C. Qed.
Lemma cfgs_same b t tables acc s : resolve_cfgs pr w cx b t tables acc s = resolve_cfgs pr w cx' b t tables acc s.
Proof.
  revert acc s. induction tables as [|[k v] tables IH]; intros acc s; [reflexivity|]. cbn [resolve_cfgs].
  destruct (negb _); [apply IH|]. rewrite eval_same. apply SecretProof.bindM_ext; [reflexivity|].
  intros m u. destruct acc as [[? ?] ?]. apply IH.
Qed.
Lemma resolve_same b tables t s : resolve_target pr w cx b tables t s = resolve_target pr w cx' b tables t s.
Proof.
  unfold resolve_target. destruct (starts_with _ _); [reflexivity|]. cbn zeta.
  rewrite !(fun n => var_ext _ _ n (G n)).
  do 5 (apply SecretProof.bindM_ext; [reflexivity|]; intros). apply SecretProof.bindM_ext; [intros; apply cfgs_same|]. reflexivity.
Qed.
Lemma host_same b : cx_host_triple pr w cx b = cx_host_triple pr w cx' b.
Proof. unfold cx_host_triple, cargo_host, rustc_host, rustc_for_version, base_rustc. now rewrite C. Qed.
Lemma query_same c c' q s : ec_cx c = cx -> ec_cx c' = cx' -> ec_build c = ec_build c' ->
  ec_de_target c = ec_de_target c' -> run_query pr w c q s = run_query pr w c' q s.
Proof.
  intros Ec Ec' Eb Et.
  assert (T : forall a t, q_target pr w c a t = q_target pr w c' a t).
  { intros a t. unfold q_target. apply SecretProof.bindM_ext; [reflexivity|]. intros tr u. unfold q_target_of.
    apply SecretProof.bindM_ext; [|reflexivity]. intros u'. unfold init_target_config. apply SecretProof.bindM_ext; [reflexivity|].
    intros st u2. destruct (bget _ _); [reflexivity|]. rewrite Eb, Et, Ec, Ec', D.
    apply SecretProof.bindM_ext; [intros; apply resolve_same|]. reflexivity. }
  destruct q; cbn [run_query]; unfold mapM, q_linker, q_runner, q_rustflags, q_rustdocflags;
    try (apply SecretProof.bindM_ext; [|reflexivity]; intros u; first [apply T | apply SecretProof.bindM_ext; [apply T|reflexivity]]).
  - apply SecretProof.bindM_ext; [|reflexivity]. intros u. unfold q_build_target_for_config.
    rewrite Eb, Ec, Ec', host_same. reflexivity.
  - unfold q_build_target_for_cli. now rewrite Eb.
  - unfold q_rustc, cx_rustc, base_rustc. now rewrite Eb, Ec, Ec', C.
  - unfold q_cargo. now rewrite Ec, Ec', C.
  - unfold q_host_triple. now rewrite Eb, Ec, Ec', host_same.
  - unfold q_rustc_version, cx_rustc_version. rewrite Eb, Ec, Ec', host_same.
    unfold rustc_for_version, base_rustc. now rewrite C.
  - unfold q_cargo_version, cx_cargo_version. now rewrite Eb, Ec, Ec', host_same, C.
Qed.
End Query.

(** ** The result of loading *)
Lemma loaded_context f p cwd o c : easy_load_with_options f p cwd o = Ok c -> ec_cx c = into_context p o cwd.
Proof.
  unfold easy_load_with_options. intros H. apply bind_okk in H as (d & _ & H). unfold from_unresolved in H.
  repeat (apply bind_okk in H as (? & _ & H)). now injection H as <-.
Qed.
Lemma from_alike c cx cx' : cfg_sorted c -> one_value_each (cx_env cx) -> one_value_each (cx_env cx') ->
  (forall n, env_get n (cx_env cx) = env_get n (cx_env cx')) -> cx_current_dir cx = cx_current_dir cx' ->
  alike (from_unresolved c cx) (from_unresolved c cx').
Proof.
  intros S N N' G D. unfold from_unresolved.
  assert (Q : same_outcome (apply_env (cx_env cx) c) (apply_env (cx_env cx') c)) by now apply same_env_same.
  unfold same_outcome in Q. destruct (apply_env (cx_env cx) c), (apply_env (cx_env cx') c); try contradiction; cbn [bind alike]; auto.
  subst a0. rewrite <- D.
  destruct (ebuild_of _ (c_build a)); cbn [bind alike]; auto.
  destruct (edoc_of _ (c_doc a)); cbn [bind alike]; auto.
  destruct (btraverse (eenv_of _) (c_env a)); cbn [bind alike]; auto.
Qed.
Lemma start_same f p p' cwd o o' : same_start p p' cwd o o' ->
  same_end (easy_load_with_options f p cwd o) (easy_load_with_options f p' cwd o').
Proof.
  intros ((env & cargo & E & E' & C & C') & (home & H & H') & R & T).
  apply home_cx in H, H'. destruct (environment_cx p o cwd env E) as [N G].
  destruct (environment_cx p' o' cwd env E') as [N' G'].
  apply (cargo_cx p o cwd env cargo E) in C. apply (cargo_cx p' o' cwd env cargo E') in C'.
  assert (K : alike (easy_load_with_options f p cwd o) (easy_load_with_options f p' cwd o')).
  { unfold easy_load_with_options. rewrite H, H'.
    change (cx_current_dir (into_context p o cwd)) with cwd. change (cx_current_dir (into_context p' o' cwd)) with cwd.
    destruct (load_with_options f cwd home) as [c| |] eqn:L; cbn [bind alike]; auto.
    apply from_alike; auto; [|intros n; now rewrite <- G, <- G'].
    destruct (visited_ex f cwd home) as (ps & V). rewrite (visited_load f cwd home ps V) in L.
    exact (load_files_sorted f ps c L). }
  destruct (easy_load_with_options f p cwd o) as [c| |] eqn:L, (easy_load_with_options f p' cwd o') as [c'| |] eqn:L';
    try exact K.
  cbn [alike same_end] in *. apply loaded_context in L. apply loaded_context in L'.
  split; [assumption|]. intros pr w qs q.
  assert (S0 : state_init (ec_cx c) = state_init (ec_cx c')).
  { rewrite L, L'. unfold state_init, into_context. cbn. now rewrite R, T. }
  assert (Q : forall q s, run_query pr w c q s = run_query pr w c' q s).
  { intros q1 s. apply (query_same pr w (into_context p o cwd) (into_context p' o' cwd)); auto.
    - intros n. now rewrite <- G, <- G'.
    - congruence.
    - now rewrite K.
    - now rewrite K. }
  rewrite S0. generalize (state_init (ec_cx c')) as s. induction qs as [|q0 qs IH]; intros s; cbn [run_queries].
  - apply Q.
  - rewrite (Q q0 s). apply IH.
Qed.
