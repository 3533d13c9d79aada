(** Errors and program output. *)
From Verif.Model Require Import Base Str Path BMap Error Value De EasyTypes Triple Context ApplyEnv CfgExpr
  Merge SetPath Walk Serde Load Process Resolve Easy.
From Verif.Spec Require Import StrSpec Utf8Spec ErrorSpec.
From Verif.Proof Require Import StrFacts Utf8Proof CfgLexProof.

(** ** Output *)
Lemma newline_iff c : (Ascii.eqb c nl || Ascii.eqb c cr)%bool = true <-> newline c.
Proof.
  unfold newline. rewrite orb_true_iff, !Ascii.eqb_eq. split.
  - intros [->| ->]; cbn; auto.
  - intros [H|H]; apply byte_is in H; subst; auto.
Qed.
Lemma drop_newlines_spec s :
  exists h, s = h ++ drop_newlines s /\ Forall newline h
            /\ forall c r, drop_newlines s = c :: r -> ~ newline c.
Proof.
  induction s as [|c s (h & E & F & N)]; [exists []; repeat split; [constructor|discriminate]|].
  cbn [drop_newlines]. destruct (Ascii.eqb c nl || Ascii.eqb c cr)%bool eqn:X.
  - apply newline_iff in X. exists (c :: h). split; [cbn; now rewrite <- E|]. split; [now constructor|exact N].
  - exists []. split; [reflexivity|split; [constructor|]]. intros c' r [= <- <-] H.
    apply newline_iff in H. congruence.
Qed.
Lemma trim_newlines_spec s : without_newlines s (trim_newlines s).
Proof.
  unfold trim_newlines. destruct (drop_newlines_spec (rev s)) as (h & E & F & N). exists (rev h). split; [|split].
  - rewrite <- rev_app_distr, <- E. symmetry. apply rev_involutive.
  - apply Forall_rev. assumption.
  - intros r c Hc. apply (N c (rev r)).
    rewrite <- (rev_involutive (drop_newlines (rev s))), Hc, rev_app_distr. reflexivity.
Qed.
Lemma longer (s s' t t' : str) :
  length s' < length s -> s ++ t = s' ++ t' -> exists u, u <> [] /\ s = s' ++ u /\ t' = u ++ t.
Proof.
  revert s. induction s' as [|b s' IH]; intros s L E; cbn in L.
  - exists s. split; [|split; [reflexivity|now symmetry]]. now destruct s.
  - destruct s as [|a s]; cbn in L; [lia|]. injection E as <- E.
    destruct (IH s ltac:(lia) E) as (u & U & -> & ->). exists u. auto.
Qed.
Lemma without_newlines_unique out s s' : without_newlines out s -> without_newlines out s' -> s = s'.
Proof.
  intros (t & E & F & N) (t' & E' & F' & N').
  assert (K : forall s s' t t' : str, s ++ t = s' ++ t' -> Forall newline t' ->
                (forall r c, s = r ++ [c] -> ~ newline c) -> length s <= length s').
  { clear. intros s s' t t' E F N. destruct (Nat.le_gt_cases (length s) (length s')) as [|L]; [assumption|].
    exfalso. assert (X : exists u, u <> [] /\ s = s' ++ u /\ t' = u ++ t).
    { now apply longer. }
    destruct X as (u & U & -> & ->). destruct (exists_last U) as (u' & c & ->).
    apply (N (s' ++ u') c); [apply app_assoc|]. rewrite <- app_assoc in F. apply Forall_app in F.
    destruct F as (_ & F). cbn in F. now inversion F. }
  assert (Len : length s = length s').
  { apply Nat.le_antisymm; [apply (K s s' t t')|apply (K s' s t' t)]; congruence || assumption. }
  assert (H : s ++ t = s' ++ t') by congruence. clear - H Len. revert s' H Len.
  induction s as [|a s IH]; intros [|b s'] H Len; cbn in *; try discriminate; [reflexivity|].
  injection H as <- H. f_equal. apply IH; [assumption|lia].
Qed.

Lemma shown_iff c : display_command c = shown c.
Proof.
  unfold display_command, shown, bt. f_equal. f_equal. cbn [map].
  f_equal. generalize (lossy (cmd_program c)).
  induction (cmd_args c) as [|a l IH]; intros p; cbn [flat_map map]; [apply app_nil_r|].
  specialize (IH (lossy a)). cbn [intercalate] in *. rewrite <- IH. reflexivity.
Qed.

Lemma trim_start_empty s : is_empty (trim_start s) = true <-> blank s.
Proof.
  split.
  - destruct (trim_start_spec s) as (a & E & Bl & _). destruct (trim_start s); [|discriminate]. intros _.
    rewrite E, app_nil_r. assumption.
  - intros Bl. rewrite <- (app_nil_r s), (trim_start_at s []); [reflexivity|assumption|].
    intros c r H E. destruct c; [|discriminate]. clear E. cbn in H. intuition discriminate.
Qed.
Lemma section_shown h out : stream_shown h out (output_section h out).
Proof.
  unfold output_section, stream_shown. destruct (utf8_valid out) eqn:V.
  - apply utf8_valid_iff in V. destruct (is_empty (trim_start out)) eqn:T.
    + apply trim_start_empty in T. auto.
    + left. repeat split; [assumption|]. intros Bl. apply trim_start_empty in Bl. congruence.
  - right. split; [|reflexivity]. left. intros U. apply utf8_valid_iff in U. congruence.
Qed.
Lemma stream_shown_unique h out a b : stream_shown h out a -> stream_shown h out b -> a = b.
Proof. intros [(? & ? & ->)|([?|?] & ->)] [(? & ? & ->)|([?|?] & ->)]; tauto || reflexivity. Qed.

Lemma read_ok c o s :
  read_outcome c o = Ok s <->
  exists status out err, o = Exited true status out err /\ utf8 out /\ without_newlines out s.
Proof.
  split.
  - destruct o as [k|[] status out err]; cbn [read_outcome]; try discriminate. unfold to_str.
    destruct (utf8_valid out) eqn:V; [|discriminate]. intros [= <-]. apply utf8_valid_iff in V.
    exists status, out, err. repeat split; [assumption|apply trim_newlines_spec].
  - intros (status & out & err & -> & U & W). cbn [read_outcome]. unfold to_str.
    apply utf8_valid_iff in U. rewrite U. f_equal. eapply without_newlines_unique; [apply trim_newlines_spec|exact W].
Qed.
Lemma read_err c o e : read_outcome c o = Err e <-> failure c o e.
Proof.
  assert (inj : forall a b : error, @Err error str a = Err b -> a = b) by congruence.
  split.
  - destruct o as [k|[] status out err]; cbn [read_outcome].
    + intros H. apply inj in H. subst e. rewrite shown_iff. constructor.
    + unfold to_str. destruct (utf8_valid out) eqn:V; [discriminate|]. intros H. apply inj in H. subst e.
      rewrite shown_iff. constructor. intros U. apply utf8_valid_iff in U. congruence.
    + intros H. apply inj in H. subst e. unfold process_failure. rewrite shown_iff, <- app_assoc.
      constructor; apply section_shown.
  - intros [k|status out err N|status out err o' e' Ho He]; cbn [read_outcome].
    + now rewrite shown_iff.
    + unfold to_str. destruct (utf8_valid out) eqn:V; [apply utf8_valid_iff in V; contradiction|].
      now rewrite shown_iff.
    + unfold process_failure. rewrite shown_iff, <- app_assoc.
      rewrite (stream_shown_unique _ _ _ _ Ho (section_shown _ _)), (stream_shown_unique _ _ _ _ He (section_shown _ _)).
      reflexivity.
Qed.
Lemma read_panic c o p : read_outcome c o <> Panic p.
Proof. destruct o as [k|[] ? ? ?]; cbn; try discriminate. now destruct (to_str _). Qed.

(** ** Kinds *)
Fixpoint quiet (e : error) : bool :=
  match e with
  | EIo _ => false
  | EWithContext _ (Some (SIo _)) | EWithContext _ (Some SToml) => false
  | EWithContext _ (Some (SCrate e')) => quiet e'
  | _ => true
  end.
Definition tells (e : error) : bool :=
  match e with EWithContext _ (Some (SCrate e')) => quiet e' | _ => true end.

Lemma quiet_io e k : quiet e = true -> ~ io_beneath e k.
Proof. intros Q H. induction H; cbn in Q; try discriminate; auto. Qed.
Lemma quiet_toml e : quiet e = true -> ~ toml_beneath e.
Proof. intros Q H. induction H; cbn in Q; try discriminate; auto. Qed.
Lemma quiet_tells e : quiet e = true -> tells e = true.
Proof. destruct e as [| | |m [[]|]]; cbn; auto. Qed.

Lemma tells_iff e : tells e = true -> kind_tells e.
Proof.
  unfold kind_tells. destruct e as [k|p|m|m [[]|]]; cbn [tells io_error_of ie_kind]; intros T; split;
    try (intros k' H; inversion H; subst; try reflexivity; exfalso; eapply quiet_io; eassumption);
    split; try (intros H; inversion H; subst; try reflexivity; exfalso; eapply quiet_toml; eassumption);
    try reflexivity; intros N1 N2; exfalso;
    first [now apply (N1 k), io_itself|now apply (N1 k), io_cause|now apply N2, toml_cause].
Qed.
Definition errs {A} (P : error -> bool) (r : result A) : Prop := forall e, r = Err e -> P e = true.
Definition errsM {A} (P : error -> bool) (m : M A) : Prop := forall s e s', m s = (Err e, s') -> P e = true.

Lemma errs_ok {A} P (a : A) : errs P (Ok a).
Proof. discriminate. Qed.
Lemma errs_panic {A} P p : errs P (@Panic _ A p).
Proof. discriminate. Qed.
Lemma errs_err {A} (P : error -> bool) e : P e = true -> errs P (@Err _ A e).
Proof. now intros H e' [= <-]. Qed.
Lemma errs_bind {A A'} P (r : result A) (f : A -> result A') :
  errs P r -> (forall a, errs P (f a)) -> errs P (bind r f).
Proof. intros H K e. destruct r; cbn; [apply K|intros [= <-]; now apply H|discriminate]. Qed.
Lemma errs_weaken {A} (r : result A) : errs quiet r -> errs tells r.
Proof. intros H e E. apply quiet_tells. now apply H. Qed.
Lemma errs_context {A} m (r : result A) : errs quiet r -> errs quiet (with_context m r).
Proof. intros H e. destruct r; cbn; try discriminate. intros [= <-]. cbn. now apply H. Qed.
Lemma errs_opt {A A'} P (f : A -> result A') o : (forall a, errs P (f a)) -> errs P (opt_traverse f o).
Proof. intros H. destruct o; cbn; [|apply errs_ok]. apply errs_bind; [apply H|intros; apply errs_ok]. Qed.
Lemma errs_traverse {A A'} P (f : A -> result A') l : (forall a, errs P (f a)) -> errs P (traverse f l).
Proof.
  intros H. induction l; cbn; [apply errs_ok|]. apply errs_bind; [apply H|]. intros. apply errs_bind; [assumption|].
  intros. apply errs_ok.
Qed.
Lemma errs_btraverse {V W} P (f : V -> result W) m : (forall a, errs P (f a)) -> errs P (btraverse f m).
Proof.
  intros H. induction m as [|[k v] m IH]; cbn; [apply errs_ok|]. apply errs_bind; [apply H|]. intros.
  apply errs_bind; [assumption|]. intros. apply errs_ok.
Qed.

Create HintDb errs.
#[export] Hint Resolve errs_ok errs_panic : errs.
Ltac walk :=
  repeat first
    [ progress intros
    | solve [auto with errs]
    | apply errs_ok | apply errs_panic
    | apply errs_bind
    | apply errs_opt | apply errs_traverse | apply errs_btraverse
    | apply errs_context
    | apply errs_err; reflexivity
    | match goal with
      | |- errs _ (match ?x with _ => _ end) => destruct x
      | |- errs _ (let (_, _) := ?x in _) => destruct x
      end ].

(** Merging *)
Lemma q_merge_leaf {A} (a b : A) f : errs quiet (merge_leaf a b f).
Proof. unfold merge_leaf. walk. Qed.
Lemma q_merge_opt {A} m (a b : option A) f : (forall x y, errs quiet (m x y f)) -> errs quiet (merge_opt m a b f).
Proof. intros H. unfold merge_opt. walk. Qed.
#[export] Hint Resolve q_merge_leaf : errs.
Lemma q_merge_v {A} (a b : option (value A)) f : errs quiet (merge_v a b f).
Proof. apply q_merge_opt. auto with errs. Qed.
Lemma q_soa a b f : errs quiet (merge_soa a b f).
Proof. unfold merge_soa, expected_found, bail. walk. Qed.
Lemma q_pa a b f : errs quiet (merge_path_and_args a b f).
Proof. unfold merge_path_and_args, expected_found, bail. walk. Qed.
Lemma q_sl a b f : errs quiet (merge_string_list a b f).
Proof. unfold merge_string_list, expected_found, bail. walk. Qed.
Lemma q_flags a b f : errs quiet (merge_flags a b f).
Proof. unfold merge_flags, expected_found, bail. walk. Qed.
#[export] Hint Resolve q_merge_v q_soa q_pa q_sl q_flags q_merge_opt : errs.
Lemma q_env a b f : errs quiet (merge_env_config_value a b f).
Proof. unfold merge_env_config_value, expected_found, bail. walk. Qed.
Lemma q_registries a b f : errs quiet (merge_registries a b f).
Proof. unfold merge_registries. walk. Qed.
Lemma q_merge_target a b f : errs quiet (merge_target a b f).
Proof. unfold merge_target. walk. Qed.
Lemma q_map {V} m d lf (a b : bmap V) f : (forall x y, errs quiet (m x y f)) -> errs quiet (merge_map m d lf a b f).
Proof. intros H. revert a. induction b as [|[k v] b IH]; intros a; cbn [merge_map]; walk. Qed.
#[export] Hint Resolve q_env q_registries q_merge_target q_map : errs.
Lemma q_merge a b f : errs quiet (merge_config a b f).
Proof.
  unfold merge_config, merge_build, merge_doc, merge_future, merge_cargo_new, merge_http, merge_net, merge_registry,
    merge_term, merge_progress. walk.
Qed.

(** Loading *)
Lemma t_load_file f p : errs tells (load_file f p).
Proof. unfold load_file. walk. Qed.
Lemma t_context {A} m (r : result A) : errs quiet r -> errs tells (with_context m r).
Proof. intros H e. destruct r; cbn; try discriminate. intros [= <-]. cbn. now apply H. Qed.
Lemma t_load_rest f b c ps : errs tells (load_rest f b c ps).
Proof.
  revert c. induction ps as [|p ps IH]; intros c; cbn [load_rest]; [apply errs_ok|].
  apply errs_bind; [apply t_load_file|]. intros. apply errs_bind; [|intros; apply IH].
  apply t_context, q_merge.
Qed.
Lemma t_load f d h : errs tells (load_with_options f d h).
Proof.
  unfold load_with_options, load_files. destruct (walk_all _ _); [apply errs_ok|].
  apply errs_bind; [apply t_load_file|]. intros. apply t_load_rest.
Qed.

(** The environment *)
Lemma q_var env n : errs quiet (cx_env_var env n).
Proof. unfold cx_env_var. walk. Qed.
Lemma q_redacted env n : errs quiet (cx_env_redacted env n).
Proof. unfold cx_env_redacted. walk. Qed.
#[export] Hint Resolve q_var q_redacted : errs.
Definition mild (perr : str -> source) : Prop :=
  forall s, perr s = SParse \/ exists m, perr s = SCrate (EOther m).
Lemma q_parse {T} env (parse : str -> option T) perr n : mild perr -> errs quiet (cx_env_parse env parse perr n).
Proof.
  intros Hm. unfold cx_env_parse. apply errs_bind; [apply q_var|]. intros [v|]; [|apply errs_ok].
  destruct (value_parse parse v); [apply errs_ok|]. apply errs_err. cbn.
  destruct (Hm (val v)) as [-> |(m & ->)]; reflexivity.
Qed.
Lemma mild_std : mild std_perr. Proof. now left. Qed.
Lemma mild_enum w : mild (enum_perr w). Proof. right. eexists. reflexivity. Qed.
#[export] Hint Resolve q_parse mild_std mild_enum : errs.
Lemma q_apply_vars env st : errs quiet (apply_vars env st).
Proof.
  revert st. induction env as [|[k v] env IH]; intros st; cbn [apply_vars]; [apply errs_ok|].
  apply errs_bind; [|intros; apply IH]. unfold apply_var. walk.
Qed.
Lemma q_pa_of_var v : errs quiet (pa_of_var v).
Proof. unfold pa_of_var, context_opt. walk. Qed.
#[export] Hint Resolve q_apply_vars q_pa_of_var : errs.
Lemma q_apply_env env c : errs quiet (apply_env env c).
Proof.
  unfold apply_env, apply_build, apply_doc, apply_future, apply_http, apply_net, apply_registry, apply_term,
    apply_progress, env_first, env_flags, env_incremental, frequency_perr, when_perr, color_perr. walk.
Qed.

(** Resolution *)
Lemma q_parent p : errs quiet (parent_parent p).
Proof. unfold parent_parent. walk. Qed.
#[export] Hint Resolve q_parent : errs.
Lemma q_root d cwd : errs quiet (def_root d cwd).
Proof. unfold def_root. walk. Qed.
Lemma q_root_opt d cwd : errs quiet (def_root_opt d cwd).
Proof. unfold def_root_opt. walk. Qed.
#[export] Hint Resolve q_root q_root_opt : errs.
Lemma q_program v cwd : errs quiet (resolve_as_program_path v cwd).
Proof. unfold resolve_as_program_path. walk. Qed.
Lemma q_path v cwd : errs quiet (resolve_as_path v cwd).
Proof. unfold resolve_as_path. walk. Qed.
Lemma q_triple s d cwd : errs quiet (triple_new s d cwd).
Proof. unfold triple_new, resolve_spec_path. walk. Qed.
#[export] Hint Resolve q_program q_path q_triple : errs.
Lemma q_epa cwd p : errs quiet (epa_of cwd p).
Proof. unfold epa_of, resolve_program. walk. Qed.
#[export] Hint Resolve q_epa : errs.
Lemma q_unresolved c cx : errs quiet (from_unresolved c cx).
Proof.
  unfold from_unresolved. apply errs_bind; [apply q_apply_env|]. intros de.
  unfold ebuild_of, edoc_of, eenv_of, env_resolve, targets_of. walk.
Qed.
Lemma t_easy_load f p o : errs tells (easy_load f p o).
Proof.
  unfold easy_load. destruct o as [d|k]; [|apply errs_err; reflexivity].
  unfold easy_load_with_cwd, easy_load_with_options. apply errs_bind; [apply t_load|].
  intros c. apply errs_weaken, q_unresolved.
Qed.
Lemma t_easy_load_with f p d o : errs tells (easy_load_with_options f p d o).
Proof.
  unfold easy_load_with_options. apply errs_bind; [apply t_load|].
  intros c. apply errs_weaken, q_unresolved.
Qed.

(** Queries *)
Lemma m_ret {A} P (a : A) : errsM P (ret a).
Proof. discriminate. Qed.
Lemma m_get P : errsM P get.
Proof. discriminate. Qed.
Lemma m_lift {A} (r : result A) : errs quiet r -> errsM tells (lift r).
Proof. intros H s e s' [= -> <-]. apply quiet_tells. now apply H. Qed.
Lemma m_bind {A A'} P (m : M A) (f : A -> M A') : errsM P m -> (forall a, errsM P (f a)) -> errsM P (bindM m f).
Proof.
  intros H K s e s'. unfold bindM. destruct (m s) as [[a|e0|p] s0] eqn:E; [apply K| |discriminate].
  intros [= <- <-]. eapply H. exact E.
Qed.
Lemma m_run w c : errsM tells (run_read w c).
Proof.
  intros s e s' [= E <-]. destruct (w_run w (s_clock s) c) as [k|[] status out err]; cbn in E.
  - injection E as <-. reflexivity.
  - destruct (to_str out); [discriminate|]. injection E as <-. reflexivity.
  - injection E as <-. reflexivity.
Qed.
Lemma m_else {A} P (m m' : M A) : errsM P m' -> errsM P (or_else m m').
Proof.
  intros H s e s'. unfold or_else. destruct (m s) as [[a|e0|p] s0]; [discriminate|apply H|discriminate].
Qed.
Lemma m_ignore {A} P (m : M A) : errsM P (ignore_err m).
Proof. intros s e s'. unfold ignore_err. destruct (m s) as [[a|e0|p] s0]; discriminate. Qed.
Ltac setter := intros ? ? ?; discriminate.
Ltac walkM :=
  repeat first
    [ progress intros
    | solve [auto with errs]
    | apply m_ret | apply m_get | apply m_run | apply m_ignore | apply m_else
    | apply m_bind
    | apply m_lift; solve [walk]
    | setter
    | match goal with
      | |- errsM _ (match ?x with _ => _ end) => destruct x
      | |- errsM _ (let (_, _) := ?x in _) => destruct x
      end ].
Lemma t_rustc w cx b : errsM tells (cx_rustc w cx b).
Proof. unfold cx_rustc, base_rustc, rustc_path, set_rustc, ask_exists. walkM. Qed.
Lemma t_for_version w cx b : errsM tells (rustc_for_version w cx b).
Proof. unfold rustc_for_version, base_rustc, rustc_path, ask_exists. walkM. Qed.
#[export] Hint Resolve t_rustc t_for_version : errs.
Lemma t_host pr w cx b : errsM tells (cx_host_triple pr w cx b).
Proof.
  unfold cx_host_triple, rustc_host, verbose_version, rustc_version_of, host_of, unexpected_version, bail,
    store_rustc_version, set_host. walkM.
Qed.
Lemma t_rustc_version pr w cx b : errsM tells (cx_rustc_version pr w cx b).
Proof. unfold cx_rustc_version, verbose_version, rustc_version_of, unexpected_version, bail. walkM. Qed.
Lemma t_cargo_version pr w cx b : errsM tells (cx_cargo_version pr w cx b).
Proof. unfold cx_cargo_version, verbose_version, cargo_version_of, unexpected_version, bail. walkM. Qed.
#[export] Hint Resolve t_host t_rustc_version t_cargo_version : errs.
Lemma q_map_cfg {A} (r : res parse_error A) : errs quiet (map_err ECfgExprParse r).
Proof. intros e. destruct r; cbn; try discriminate. now intros [= <-]. Qed.
Lemma q_pop {T} op n (acc : T) st : errs quiet (pop_n op n acc st).
Proof. revert acc st. induction n; intros acc st; cbn [pop_n]; walk. Qed.
#[export] Hint Resolve q_map_cfg q_pop : errs.
Lemma q_eval {T} (L : logic T) ep x : errs quiet (eval_expr L ep x).
Proof.
  unfold eval_expr. walk. generalize (@nil T). induction (ex_expr x) as [|n l IH]; intros st; cbn [eval_nodes]; [walk|].
  apply errs_bind; [|intros; apply IH]. unfold eval_node, to_pred, or_slice. walk.
Qed.
#[export] Hint Resolve q_eval : errs.
Lemma t_eval pr w cx b x t : errsM tells (eval_cfg pr w cx b x t).
Proof.
  unfold eval_cfg, target_cfg. walkM.
Qed.
#[export] Hint Resolve t_eval : errs.
Lemma t_cfgs pr w cx b t l acc : errsM tells (resolve_cfgs pr w cx b t l acc).
Proof. revert acc. induction l as [|[k v] l IH]; intros acc; cbn [resolve_cfgs]; walkM. Qed.
#[export] Hint Resolve t_cfgs : errs.
Lemma t_target pr w cx b l t : errsM tells (resolve_target pr w cx b l t).
Proof. unfold resolve_target, bail. walkM. Qed.
#[export] Hint Resolve t_target : errs.
Lemma t_query pr w c q : errsM tells (run_query pr w c q).
Proof.
  destruct q; cbn [run_query]; unfold mapM, q_linker, q_runner, q_rustflags, q_rustdocflags, q_target, q_target_of,
    init_target_config, q_build_target_for_config, q_rustc, q_host_triple, q_rustc_version, q_cargo_version, to_triple,
    triple_from, etarget_of, add_target; walkM.
Qed.
