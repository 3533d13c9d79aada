(** Loading and resolving: on Unix the general functions are those of the rest of the model. *)
From Verif.Model Require Import Base Str Path StdPath OsPaths BMap Error Value De CfgExpr Triple EasyTypes
  Context ApplyEnv Process Walk Load Resolve Easy OsLoad.
From Verif.Proof Require Import StdPathProof StdUnixProof OsUnixProof.

Lemma opt_traverse_ext {E A A'} (f g : A -> res E A') o : (forall x, f x = g x) -> opt_traverse f o = opt_traverse g o.
Proof. intros H. destruct o; [|reflexivity]. cbn. now rewrite H. Qed.
Lemma traverse_ext {E A A'} (f g : A -> res E A') l : (forall x, f x = g x) -> traverse f l = traverse g l.
Proof. intros H. induction l as [|x l IH]; [reflexivity|]. cbn. now rewrite H, IH. Qed.
Lemma btraverse_ext {E A A'} (f g : A -> res E A') l : (forall x, f x = g x) -> btraverse f l = btraverse g l.
Proof. intros H. induction l as [|[k x] l IH]; [reflexivity|]. cbn. now rewrite H, IH. Qed.
Lemma bindM_ext {A A'} (m n : M A) (f g : A -> M A') s :
  m s = n s -> (forall a s', f a s' = g a s') -> bindM m f s = bindM n g s.
Proof. intros H K. unfold bindM. rewrite H. destruct (n s) as [[a|e|p] s']; auto. Qed.
Lemma or_else_ext {A} (m m' n n' : M A) s :
  m s = n s -> (forall s', m' s' = n' s') -> or_else m m' s = or_else n n' s.
Proof. intros H K. unfold or_else. rewrite H. destruct (n s) as [[a|e|p] s']; auto. Qed.

Lemma unix_var name vars : os_var unix name vars = env_get name vars.
Proof. induction vars as [|[k v] rest IH]; [reflexivity|]. cbn. now rewrite IH. Qed.
Lemma unix_load f cwd home : os_load_with_options unix f cwd home = load_with_options f cwd home.
Proof. unfold os_load_with_options, load_with_options. now rewrite unix_walk. Qed.
Lemma unix_cx_home p cx cwd : os_cx_cargo_home unix p cx cwd = cx_cargo_home p cx cwd.
Proof. unfold os_cx_cargo_home, cx_cargo_home. now rewrite unix_var, unix_cargo_home. Qed.
Lemma unix_epa {E} cwd p : @os_epa_of unix E cwd p = epa_of cwd p.
Proof. unfold os_epa_of, epa_of, resolve_program. now rewrite unix_program_path. Qed.
Lemma unix_targets {E} cwd t : @os_targets_of unix E cwd t = targets_of cwd t.
Proof. unfold os_targets_of, targets_of. apply traverse_ext. intros v. apply unix_triple. Qed.
Lemma unix_ebuild cwd b : os_ebuild_of unix cwd b = ebuild_of cwd b.
Proof.
  unfold os_ebuild_of, ebuild_of. cbv zeta.
  assert (P : forall o, opt_traverse (fun v => @os_program_path unix error v cwd) o = opt_traverse (fun v => resolve_as_program_path v cwd) o)
    by (intros o; apply opt_traverse_ext; intros v; apply unix_program_path).
  assert (Q : forall o, opt_traverse (fun v => @os_path unix error v cwd) o = opt_traverse (fun v => resolve_as_path v cwd) o)
    by (intros o; apply opt_traverse_ext; intros v; apply unix_path).
  assert (T : opt_traverse (@os_targets_of unix error cwd) (b_target b) = opt_traverse (targets_of cwd) (b_target b))
    by (apply opt_traverse_ext; intros v; apply unix_targets).
  now rewrite !P, !Q, T.
Qed.
Lemma unix_etarget cwd t : os_etarget_of unix cwd t = etarget_of cwd t.
Proof.
  unfold os_etarget_of, etarget_of.
  rewrite (opt_traverse_ext _ (fun v => resolve_as_program_path v cwd)) by (intros v; apply unix_program_path).
  now rewrite (opt_traverse_ext _ (epa_of cwd)) by (intros v; apply unix_epa).
Qed.
Lemma unix_edoc cwd d : os_edoc_of unix cwd d = edoc_of cwd d.
Proof. unfold os_edoc_of, edoc_of. now rewrite (opt_traverse_ext _ (epa_of cwd)) by (intros v; apply unix_epa). Qed.
Lemma unix_eenv cwd e : os_eenv_of unix cwd e = eenv_of cwd e.
Proof. unfold os_eenv_of, eenv_of. destruct e; [reflexivity|]. now rewrite unix_env_resolve. Qed.
Lemma unix_from_unresolved c cx : os_from_unresolved unix c cx = from_unresolved c cx.
Proof.
  unfold os_from_unresolved, from_unresolved. destruct (apply_env (cx_env cx) c) as [de|e|p]; [|reflexivity..]. cbn [bind].
  rewrite unix_ebuild, unix_edoc. now rewrite (btraverse_ext _ (eenv_of (cx_current_dir cx))) by (intros e; apply unix_eenv).
Qed.
Lemma unix_easy_load f p cwd o : os_easy_load unix f p cwd o = easy_load_with_options f p cwd o.
Proof.
  unfold os_easy_load, easy_load_with_options. cbv zeta. rewrite unix_load, unix_cx_home.
  destruct (load_with_options f _ _) as [c|e|x]; [|reflexivity..]. cbn [bind]. apply unix_from_unresolved.
Qed.

(** ** Queries *)
Lemma unix_ask w cargo s : os_ask_rustc unix [] w cargo s = rustc_path w cargo s.
Proof. unfold os_ask_rustc, rustc_path. rewrite unix_pop, unix_join. now rewrite app_nil_r. Qed.
Lemma unix_base w cx b s : os_base_rustc unix [] w cx b s = base_rustc w cx b s.
Proof. unfold os_base_rustc, base_rustc. destruct (eb_rustc b); [reflexivity|apply unix_ask]. Qed.
Lemma unix_cx_rustc w cx b s : os_cx_rustc unix [] w cx b s = cx_rustc w cx b s.
Proof.
  unfold os_cx_rustc, cx_rustc. apply bindM_ext; [reflexivity|]. intros a s'. destruct (s_rustc a); [reflexivity|].
  apply bindM_ext; [apply unix_base|reflexivity].
Qed.
Lemma unix_for_version w cx b s : os_rustc_for_version unix [] w cx b s = rustc_for_version w cx b s.
Proof. apply bindM_ext; [apply unix_base|reflexivity]. Qed.
Lemma unix_rustc_host pr w cx b s : os_rustc_host unix [] pr w cx b s = rustc_host pr w cx b s.
Proof. apply bindM_ext; [apply unix_for_version|reflexivity]. Qed.
Lemma unix_host pr w cx b s : os_cx_host_triple unix [] pr w cx b s = cx_host_triple pr w cx b s.
Proof.
  unfold os_cx_host_triple, cx_host_triple. apply bindM_ext; [reflexivity|]. intros a s'. destruct (s_host a); [reflexivity|].
  apply bindM_ext; [|reflexivity]. apply or_else_ext; [reflexivity|]. intros s2. apply unix_rustc_host.
Qed.
Lemma unix_ignored pr w cx b s : ignore_err (os_cx_host_triple unix [] pr w cx b) s = ignore_err (cx_host_triple pr w cx b) s.
Proof. unfold ignore_err. now rewrite unix_host. Qed.
Lemma unix_rustc_version pr w cx b s : os_cx_rustc_version unix [] pr w cx b s = cx_rustc_version pr w cx b s.
Proof.
  unfold os_cx_rustc_version, cx_rustc_version. apply bindM_ext; [reflexivity|]. intros a s'. destruct (s_rustc_version a); [reflexivity|].
  apply bindM_ext; [apply unix_ignored|]. intros _ s2. apply bindM_ext; [reflexivity|]. intros a2 s3.
  destruct (s_rustc_version a2); [reflexivity|]. apply bindM_ext; [apply unix_for_version|reflexivity].
Qed.
Lemma unix_cargo_version pr w cx b s : os_cx_cargo_version unix [] pr w cx b s = cx_cargo_version pr w cx b s.
Proof.
  unfold os_cx_cargo_version, cx_cargo_version. apply bindM_ext; [reflexivity|]. intros a s'. destruct (s_cargo_version a); [reflexivity|].
  apply bindM_ext; [apply unix_ignored|]. reflexivity.
Qed.
Lemma unix_target_cfg w cx b t s : os_target_cfg unix [] w cx b t s = target_cfg w cx b t s.
Proof.
  unfold os_target_cfg, target_cfg. apply bindM_ext; [reflexivity|]. intros a s'. destruct (cfg_get _ _); [reflexivity|].
  apply bindM_ext; [apply unix_cx_rustc|reflexivity].
Qed.
Lemma unix_eval_cfg pr w cx b e t s : os_eval_cfg unix [] pr w cx b e t s = eval_cfg pr w cx b e t s.
Proof. apply bindM_ext; [reflexivity|]. intros a s'. apply bindM_ext; [apply unix_target_cfg|reflexivity]. Qed.
Lemma unix_cfgs pr w cx b t tables : forall acc s, os_resolve_cfgs unix [] pr w cx b t tables acc s = resolve_cfgs pr w cx b t tables acc s.
Proof.
  induction tables as [|[k v] rest IH]; intros acc s; [reflexivity|]. cbn [os_resolve_cfgs resolve_cfgs].
  destruct (negb _); [apply IH|]. apply bindM_ext; [apply unix_eval_cfg|]. intros m s'. destruct acc as [[linker runner] rustflags]. apply IH.
Qed.
Lemma unix_resolve_target pr w cx b tables t s : os_resolve_target unix [] pr w cx b tables t s = resolve_target pr w cx b tables t s.
Proof.
  unfold os_resolve_target, resolve_target. destruct (starts_with _ _); [reflexivity|].
  do 5 (apply bindM_ext; [reflexivity|]; intros ? ?). apply bindM_ext; [apply unix_cfgs|reflexivity].
Qed.
Lemma unix_q_target_of pr w c t s : os_q_target_of unix [] pr w c t s = q_target_of pr w c t s.
Proof.
  apply bindM_ext; [|reflexivity]. unfold os_init_target_config, init_target_config. apply bindM_ext; [reflexivity|].
  intros a s'. destruct (bget _ _); [reflexivity|]. apply bindM_ext; [apply unix_resolve_target|].
  intros de s2. apply bindM_ext; [|reflexivity]. unfold lift. now rewrite unix_etarget.
Qed.
Lemma unix_to_triple a : os_to_triple unix a = to_triple a.
Proof. destruct a; [apply unix_triple|reflexivity]. Qed.
Lemma unix_q_target pr w c a s : os_q_target unix [] pr w c a s = q_target pr w c a s.
Proof. apply bindM_ext; [unfold lift; now rewrite unix_to_triple|]. intros t s'. apply unix_q_target_of. Qed.
Lemma unix_for_config pr w c l s : os_q_build_target_for_config unix [] pr w c l s = q_build_target_for_config pr w c l s.
Proof.
  unfold os_q_build_target_for_config, q_build_target_for_config. apply bindM_ext.
  { unfold lift. now rewrite (traverse_ext _ to_triple) by (intros a; apply unix_to_triple). }
  intros [|t ts] s'; [|reflexivity].
  assert (H : forall s, (h <~ os_cx_host_triple unix [] pr w (ec_cx c) (ec_build c) ;; t <~ lift (os_triple unix h None None) ;; ret [t]) s
    = (h <~ cx_host_triple pr w (ec_cx c) (ec_build c) ;; t <~ lift (triple_from h) ;; ret [t]) s).
  { intros s2. apply bindM_ext; [apply unix_host|]. intros h s3. apply bindM_ext; [|reflexivity]. unfold lift, triple_from. now rewrite unix_triple. }
  destruct (eb_target (ec_build c)) as [[|t ts]|]; auto.
Qed.
Lemma unix_run_query pr w c q s : os_run_query unix [] pr w c q s = run_query pr w c q s.
Proof.
  destruct q; cbn [os_run_query run_query]; try reflexivity; unfold mapM, q_linker, q_runner, q_rustflags, q_rustdocflags, q_rustc,
    q_host_triple, q_rustc_version, q_cargo_version;
    apply bindM_ext; try reflexivity; try apply unix_q_target; try apply unix_for_config; try apply unix_cx_rustc; try apply unix_host;
    try apply unix_rustc_version; try apply unix_cargo_version; apply bindM_ext; try apply unix_q_target; reflexivity.
Qed.
