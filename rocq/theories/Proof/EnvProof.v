(** Lemmas about applying environment variables. *)
From Coq Require Import Permutation.
From Verif.Model Require Import Base Str Path BMap Error Value De Context ApplyEnv.
From Verif.Spec Require Import StrSpec ConfigSpec LoadSpec EnvSpec.
From Verif.Proof Require Import StrFacts BMapFacts MergeProof LoadProof.

(** ** The environment as a map *)
Lemma env_get_in k v env : env_get k env = Some v -> In (k, v) env.
Proof.
  induction env as [|[k' v'] env IH]; cbn; [easy|].
  destruct (str_eqb k k') eqn:E; [|auto]. apply str_eqb_eq in E. intros [= ->]. subst. auto.
Qed.
Lemma in_env_get k v env : one_value_each env -> In (k, v) env -> env_get k env = Some v.
Proof.
  unfold one_value_each. induction env as [|[k' v'] env IH]; cbn; [easy|].
  intros N. inversion N as [|? ? N1 N2]; subst. intros [[= -> ->]|H].
  - now rewrite str_eqb_refl.
  - destruct (str_eqb k k') eqn:E; [|auto]. apply str_eqb_eq in E. subst. exfalso. apply N1.
    apply in_map_iff. now exists (k', v).
Qed.
Lemma env_get_none k env : env_get k env = None <-> ~ In k (map fst env).
Proof.
  induction env as [|[k' v'] env IH]; cbn; [easy|]. destruct (str_eqb k k') eqn:E.
  - apply str_eqb_eq in E. split; [easy|]. intros H. exfalso. auto.
  - apply str_eqb_neq in E. rewrite IH. intuition congruence.
Qed.
Lemma env_get_perm k env env' :
  one_value_each env -> Permutation env env' -> env_get k env = env_get k env'.
Proof.
  intros N P. assert (N' : one_value_each env').
  { unfold one_value_each in *. eapply Permutation_NoDup; [|exact N]. now apply Permutation_map. }
  destruct (env_get k env) as [v|] eqn:E.
  - symmetry. apply in_env_get; [easy|]. apply env_get_in in E. eapply Permutation_in; eassumption.
  - symmetry. apply env_get_none. apply env_get_none in E. intros H. apply E.
    eapply Permutation_in; [|exact H]. apply Permutation_map. now apply Permutation_sym.
Qed.

(** ** Reading variables *)
Definition reads_as {A} (e : result (option (value A))) (vars : list (reader A)) (env : env_map) : Prop :=
  match consulted vars env with
  | None => e = Ok None
  | Some (n, Some a) => e = Ok (Some (of_variable n a))
  | Some (_, None) => exists x, e = Err x
  end.
Definition keep_or {A} (vars : list (reader A)) (env : env_map) (cur : option (value A)) :=
  match consulted vars env with
  | Some (n, Some a) => Some (of_variable n a)
  | _ => cur
  end.

Lemma reads_ok {A} e (vars : list (reader A)) env :
  reads_as e vars env -> (is_ok e = true <-> readable vars env).
Proof.
  unfold reads_as, readable. destruct (consulted vars env) as [[n [a|]]|] eqn:E.
  - intros ->. cbn. split; [congruence|easy].
  - intros [x ->]. cbn. split; [easy|]. intros H. exfalso. now apply (H n).
  - intros ->. cbn. split; [congruence|easy].
Qed.
Lemma reads_keep {A} e (vars : list (reader A)) env o cur :
  reads_as e vars env -> e = Ok o -> or_keep o cur = keep_or vars env cur.
Proof.
  unfold reads_as, keep_or. destruct (consulted vars env) as [[n [a|]]|].
  - intros -> [= <-]. easy.
  - intros [x ->] [=].
  - intros -> [= <-]. easy.
Qed.

Lemma env_parse_reads {A} env (p : str -> option A) pe n :
  reads_as (cx_env_parse env p pe n) [(n, p)] env.
Proof.
  unfold reads_as, consulted, cx_env_parse, cx_env_var. cbn [map first_defined fst snd].
  destruct (env_get n env) as [v|]; [|easy]. unfold to_str. destruct (utf8_valid v); cbn; [|eauto].
  unfold value_parse. cbn. destruct (p v); cbn; eauto.
Qed.
Lemma env_var_reads env n : reads_as (cx_env_var env n) [text n] env.
Proof.
  unfold reads_as, consulted, cx_env_var. cbn [map first_defined fst snd text].
  destruct (env_get n env) as [v|]; [|easy]. unfold to_str. destruct (utf8_valid v); cbn; eauto.
Qed.
Lemma env_redacted_reads env n : reads_as (cx_env_redacted env n) [text n] env.
Proof.
  unfold reads_as, consulted, cx_env_redacted. cbn [map first_defined fst snd text].
  destruct (env_get n env) as [v|]; [|easy]. unfold to_str. destruct (utf8_valid v); cbn; eauto.
Qed.
Lemma env_first_reads env a b : reads_as (env_first env a b) [text a; text b] env.
Proof.
  unfold reads_as, consulted, env_first, cx_env_var. cbn [map first_defined fst snd text].
  destruct (env_get a env) as [v|].
  - unfold to_str. destruct (utf8_valid v); cbn; eauto.
  - cbn. destruct (env_get b env) as [v|]; [|easy]. unfold to_str. destruct (utf8_valid v); cbn; eauto.
Qed.
Lemma env_incremental_reads env : reads_as (env_incremental env) (variables BuildIncremental) env.
Proof.
  unfold reads_as, consulted, env_incremental, cx_env_var. cbn [map first_defined fst snd variables].
  destruct (env_get (B "CARGO_INCREMENTAL") env) as [v|].
  - unfold to_str. destruct (utf8_valid v); cbn [bind]; [|eauto]. cbn [val def]. reflexivity.
  - cbn [bind]. unfold cx_env_parse, cx_env_var.
    destruct (env_get (B "CARGO_BUILD_INCREMENTAL") env) as [v|]; [|easy].
    unfold to_str. destruct (utf8_valid v); cbn [bind]; [|eauto].
    unfold value_parse. cbn [val def]. destruct (parse_bool v); eauto.
Qed.

(** Flags: like [reads_as], but with lists of words. *)
Definition words_reader (n : str) : reader (form * list str) :=
  (n, fun s => Some (AsString, split_space_separated s)).
Definition encoded_reader (n : str) : reader (form * list str) :=
  (n, fun s => Some (AsArray, split_encoded s)).
Lemma flags_words_from s n fm f :
  f = (match fm with AsArray => flags_from_encoded (of_variable n s)
       | AsString => flags_from_space_separated s (Some (DefEnv n)) end) ->
  flags_words f = (fm, map (of_variable n)
                         (match fm with AsArray => split_encoded s | AsString => split_space_separated s end)).
Proof. intros ->. destruct fm; reflexivity. Qed.

Lemma env_flags_reads env e p b cur :
  let vars := [encoded_reader e; words_reader p; words_reader b] in
  (is_ok (env_flags env e p b cur) = true <-> readable vars env)
  /\ (forall r, env_flags env e p b cur = Ok r ->
       flags_view (fst r) = words_after vars env (flags_view cur)
       /\ snd r = set env e || set env p)
  /\ is_panic (env_flags env e p b cur) = false.
Proof.
  assert (D : forall x : str, (forall n : str, Some (x, @None (form * list str)) <> Some (n, None)) -> False)
    by (intros x K; now apply (K x)).
  cbn zeta. unfold readable, words_after, consulted, env_flags, cx_env_var, set.
  cbn [map first_defined fst snd encoded_reader words_reader].
  Ltac flags_end D :=
    cbn [bind is_ok is_panic is_some orb fst snd];
    split; [split; intros; try easy; exfalso; eapply D; eassumption|];
    split; [|reflexivity]; intros r Hr; try discriminate Hr; injection Hr as <-; split; reflexivity.
  destruct (env_get e env) as [v|].
  { unfold to_str. destruct (utf8_valid v); flags_end D. }
  cbn [bind]. destruct (env_get p env) as [v|].
  { unfold to_str. destruct (utf8_valid v); flags_end D. }
  cbn [bind]. destruct (env_get b env) as [v|].
  { unfold to_str. destruct (utf8_valid v); flags_end D. }
  flags_end D.
Qed.

(** ** Sections *)
Ltac reads_of e :=
  match e with
  | cx_env_parse ?env ?p ?pe ?n => constr:(env_parse_reads env p pe n)
  | cx_env_var ?env ?n => constr:(env_var_reads env n)
  | cx_env_redacted ?env ?n => constr:(env_redacted_reads env n)
  | env_first ?env ?a ?b => constr:(env_first_reads env a b)
  | env_incremental ?env => constr:(env_incremental_reads env)
  end.


Ltac section_ok :=
  repeat match goal with
  | |- is_ok (bind ?e _) = true <-> _ =>
      let R := reads_of e in
      let H := fresh "R" in pose proof (reads_ok _ _ _ R) as H;
      destruct e; cbn [bind is_ok] in *
  end; cbn [variables is_ok]; intuition easy.
Ltac open_binds H :=
  repeat match type of H with
  | bind ?e _ = Ok _ => let E := fresh "E" in apply bind_ok in H; destruct H as (? & E & H)
  end.
Ltac keep_end :=
  match goal with
  | E : ?e = Ok ?o |- or_keep ?o _ = _ => let R := reads_of e in exact (reads_keep _ _ _ _ _ R E)
  end.

Lemma apply_future_ok env f :
  is_ok (apply_future env f) = true <-> readable (variables FutureFrequency) env.
Proof. unfold apply_future. section_ok. Qed.
Lemma apply_future_keys env f f' :
  apply_future env f = Ok f' ->
  f_frequency f' = keep_or (variables FutureFrequency) env (f_frequency f).
Proof. unfold apply_future. intros H. open_binds H. injection H as <-. cbn [f_frequency]. keep_end. Qed.

Lemma apply_http_ok env h :
  is_ok (apply_http env h) = true <->
  readable (variables HttpDebug) env /\ readable (variables HttpProxy) env
  /\ readable (variables HttpTimeout) env /\ readable (variables HttpCainfo) env
  /\ readable (variables HttpCheckRevoke) env /\ readable (variables HttpLowSpeedLimit) env
  /\ readable (variables HttpMultiplexing) env /\ readable (variables HttpUserAgent) env.
Proof. unfold apply_http. section_ok. Qed.
Lemma apply_http_keys env h h' :
  apply_http env h = Ok h' ->
  h_debug h' = keep_or (variables HttpDebug) env (h_debug h)
  /\ h_proxy h' = keep_or (variables HttpProxy) env (h_proxy h)
  /\ h_timeout h' = keep_or (variables HttpTimeout) env (h_timeout h)
  /\ h_cainfo h' = keep_or (variables HttpCainfo) env (h_cainfo h)
  /\ h_check_revoke h' = keep_or (variables HttpCheckRevoke) env (h_check_revoke h)
  /\ h_low_speed_limit h' = keep_or (variables HttpLowSpeedLimit) env (h_low_speed_limit h)
  /\ h_multiplexing h' = keep_or (variables HttpMultiplexing) env (h_multiplexing h)
  /\ h_user_agent h' = keep_or (variables HttpUserAgent) env (h_user_agent h).
Proof.
  unfold apply_http. intros H. open_binds H. injection H as <-.
  cbn [h_debug h_proxy h_timeout h_cainfo h_check_revoke h_low_speed_limit h_multiplexing h_user_agent].
  repeat match goal with |- _ /\ _ => split end; keep_end.
Qed.

Lemma apply_net_ok env n :
  is_ok (apply_net env n) = true <->
  readable (variables NetRetry) env /\ readable (variables NetGitFetchWithCli) env
  /\ readable (variables NetOffline) env.
Proof. unfold apply_net. section_ok. Qed.
Lemma apply_net_keys env n n' :
  apply_net env n = Ok n' ->
  n_retry n' = keep_or (variables NetRetry) env (n_retry n)
  /\ n_git_fetch_with_cli n' = keep_or (variables NetGitFetchWithCli) env (n_git_fetch_with_cli n)
  /\ n_offline n' = keep_or (variables NetOffline) env (n_offline n).
Proof.
  unfold apply_net. intros H. open_binds H. injection H as <-.
  cbn [n_retry n_git_fetch_with_cli n_offline].
  repeat match goal with |- _ /\ _ => split end; keep_end.
Qed.

Lemma apply_registry_ok env r :
  is_ok (apply_registry env r) = true <->
  readable (variables RegistryDefault) env /\ readable (variables RegistryToken) env.
Proof. unfold apply_registry. section_ok. Qed.
Lemma apply_registry_keys env r r' :
  apply_registry env r = Ok r' ->
  rg_default r' = keep_or (variables RegistryDefault) env (rg_default r)
  /\ rg_token r' = keep_or (variables RegistryToken) env (rg_token r).
Proof.
  unfold apply_registry. intros H. open_binds H. injection H as <-. cbn [rg_default rg_token].
  split; keep_end.
Qed.

Lemma apply_progress_ok env p :
  is_ok (apply_progress env p) = true <->
  readable (variables TermProgressWhen) env /\ readable (variables TermProgressWidth) env.
Proof. unfold apply_progress. section_ok. Qed.
Lemma apply_term_ok env t :
  is_ok (apply_term env t) = true <->
  readable (variables TermQuiet) env /\ readable (variables TermVerbose) env
  /\ readable (variables TermColor) env
  /\ readable (variables TermProgressWhen) env /\ readable (variables TermProgressWidth) env.
Proof.
  rewrite <- (apply_progress_ok env (tm_progress t)). unfold apply_term.
  repeat match goal with
  | |- is_ok (bind ?e _) = true <-> _ =>
      let R := reads_of e in
      let H := fresh "R" in pose proof (reads_ok _ _ _ R) as H;
      destruct e; cbn [bind is_ok] in *
  end; cbn [variables is_ok].
  1: destruct (apply_progress env (tm_progress t)); cbn [bind is_ok].
  all: intuition easy.
Qed.
Lemma apply_term_keys env t t' :
  apply_term env t = Ok t' ->
  tm_quiet t' = keep_or (variables TermQuiet) env (tm_quiet t)
  /\ tm_verbose t' = keep_or (variables TermVerbose) env (tm_verbose t)
  /\ tm_color t' = keep_or (variables TermColor) env (tm_color t)
  /\ p_when (tm_progress t') = keep_or (variables TermProgressWhen) env (p_when (tm_progress t))
  /\ p_width (tm_progress t') = keep_or (variables TermProgressWidth) env (p_width (tm_progress t)).
Proof.
  unfold apply_term. intros H. open_binds H. injection H as <-.
  match goal with K : apply_progress _ _ = Ok _ |- _ =>
    unfold apply_progress in K; open_binds K; injection K as <- end.
  cbn [tm_quiet tm_verbose tm_color tm_progress p_when p_width].
  repeat match goal with |- _ /\ _ => split end; keep_end.
Qed.

Lemma apply_doc_ok env d :
  is_ok (apply_doc env d) = true <-> (prog_view (d_browser d) = None -> readable [browser] env).
Proof.
  unfold apply_doc, readable, consulted, cx_env_var. cbn [map first_defined fst snd browser].
  destruct (d_browser d) as [b|]; cbn [prog_view option_map]; [split; easy|].
  destruct (env_get (B "BROWSER") env) as [v|]; [|split; easy].
  unfold to_str. destruct (utf8_valid v); cbn [bind is_ok].
  - unfold pa_of_var, pa_from_string. cbn [val def].
    destruct (split_space_separated v); cbn [context_opt bind is_ok]; split; try easy.
    intros H. exfalso. now apply (H eq_refl (B "BROWSER")).
  - split; [easy|]. intros H. exfalso. now apply (H eq_refl (B "BROWSER")).
Qed.
Lemma apply_doc_keys env d d' :
  apply_doc env d = Ok d' ->
  prog_view (d_browser d') =
    match prog_view (d_browser d) with None => words_after [browser] env None | b => b end.
Proof.
  unfold apply_doc, words_after, consulted, cx_env_var. cbn [map first_defined fst snd browser].
  destruct (d_browser d) as [b|] eqn:Eb; cbn [prog_view option_map].
  { intros [= <-]. now rewrite Eb. }
  destruct (env_get (B "BROWSER") env) as [v|]; cbn [bind].
  - unfold to_str. destruct (utf8_valid v); cbn [bind]; [|easy].
    unfold pa_of_var, pa_from_string. cbn [val def].
    destruct (split_space_separated v); cbn [context_opt bind]; [easy|]. now intros [= <-].
  - intros [= <-]. now rewrite Eb.
Qed.

Definition rustflags_vars := list_variables BuildRustflags.
Definition rustdocflags_vars := list_variables BuildRustdocflags.
Definition wrapper_after (vars : list (reader str)) (env : env_map) (cur : option (value str)) :=
  match consulted vars env with
  | Some (n, Some a) => if is_empty a then None else Some (of_variable n a)
  | _ => cur
  end.
Lemma wrapper_keep e vars env o cur :
  reads_as e vars env -> e = Ok o -> apply_wrapper o cur = wrapper_after vars env cur.
Proof.
  unfold reads_as, wrapper_after. destruct (consulted vars env) as [[n [a|]]|].
  - intros -> [= <-]. easy.
  - intros [x ->] [=].
  - intros -> [= <-]. easy.
Qed.
Lemma target_reads env :
  (is_ok (cx_env_var env (B "CARGO_BUILD_TARGET")) = true <-> readable (list_variables BuildTarget) env)
  /\ (forall o cur, cx_env_var env (B "CARGO_BUILD_TARGET") = Ok o ->
       soa_view (or_keep (option_map SoaString o) cur)
       = words_after (list_variables BuildTarget) env (soa_view cur)).
Proof.
  unfold readable, words_after, consulted, cx_env_var. cbn [map first_defined fst snd list_variables].
  destruct (env_get (B "CARGO_BUILD_TARGET") env) as [v|].
  - unfold to_str. destruct (utf8_valid v); cbn [is_ok]; split; try easy.
    + intros o cur [= <-]. reflexivity.
    + split; [easy|]. intros H. exfalso. now apply (H (B "CARGO_BUILD_TARGET")).
  - split; [easy|]. intros o cur [= <-]. reflexivity.
Qed.

Lemma apply_build_ok env b :
  is_ok (apply_build env b) = true <->
  readable (variables BuildJobs) env /\ readable (variables BuildRustc) env
  /\ readable (variables BuildRustcWrapper) env /\ readable (variables BuildRustcWorkspaceWrapper) env
  /\ readable (variables BuildRustdoc) env /\ readable (list_variables BuildTarget) env
  /\ readable (variables BuildTargetDir) env /\ readable rustflags_vars env
  /\ readable rustdocflags_vars env /\ readable (variables BuildIncremental) env
  /\ readable (variables BuildDepInfoBasedir) env.
Proof.
  rewrite <- (proj1 (target_reads env)).
  rewrite <- (proj1 (env_flags_reads env (B "CARGO_ENCODED_RUSTFLAGS") (B "RUSTFLAGS")
                       (B "CARGO_BUILD_RUSTFLAGS") (b_rustflags b)) : _ <-> readable rustflags_vars env).
  rewrite <- (proj1 (env_flags_reads env (B "CARGO_ENCODED_RUSTDOCFLAGS") (B "RUSTDOCFLAGS")
                       (B "CARGO_BUILD_RUSTDOCFLAGS") (b_rustdocflags b)) : _ <-> readable rustdocflags_vars env).
  unfold apply_build.
  repeat match goal with
  | |- is_ok (bind ?e _) = true <-> _ =>
      first [ let R := reads_of e in
              let H := fresh "R" in pose proof (reads_ok _ _ _ R) as H;
              destruct e; cbn [bind is_ok] in *
            | destruct e; cbn [bind is_ok] in * ]
  end; cbn [variables is_ok]; intuition easy.
Qed.
Lemma apply_build_keys env b b' :
  apply_build env b = Ok b' ->
  b_jobs b' = keep_or (variables BuildJobs) env (b_jobs b)
  /\ b_rustc b' = keep_or (variables BuildRustc) env (b_rustc b)
  /\ b_rustc_wrapper b' = wrapper_after (variables BuildRustcWrapper) env (b_rustc_wrapper b)
  /\ b_rustc_workspace_wrapper b'
     = wrapper_after (variables BuildRustcWorkspaceWrapper) env (b_rustc_workspace_wrapper b)
  /\ b_rustdoc b' = keep_or (variables BuildRustdoc) env (b_rustdoc b)
  /\ soa_view (b_target b') = words_after (list_variables BuildTarget) env (soa_view (b_target b))
  /\ b_target_dir b' = keep_or (variables BuildTargetDir) env (b_target_dir b)
  /\ flags_view (b_rustflags b') = words_after rustflags_vars env (flags_view (b_rustflags b))
  /\ flags_view (b_rustdocflags b') = words_after rustdocflags_vars env (flags_view (b_rustdocflags b))
  /\ b_incremental b' = keep_or (variables BuildIncremental) env (b_incremental b)
  /\ b_dep_info_basedir b' = keep_or (variables BuildDepInfoBasedir) env (b_dep_info_basedir b)
  /\ b_override_target_rustflags b'
     = (set env (B "CARGO_ENCODED_RUSTFLAGS") || set env (B "RUSTFLAGS"))%bool
  /\ b_override_target_rustdocflags b'
     = (set env (B "CARGO_ENCODED_RUSTDOCFLAGS") || set env (B "RUSTDOCFLAGS"))%bool.
Proof.
  unfold apply_build. intros H. open_binds H. injection H as <-.
  cbn [b_jobs b_rustc b_rustc_wrapper b_rustc_workspace_wrapper b_rustdoc b_target b_target_dir
       b_rustflags b_rustdocflags b_incremental b_dep_info_basedir b_override_target_rustflags
       b_override_target_rustdocflags].
  repeat match goal with |- _ /\ _ => split end; try keep_end;
    try match goal with
        | E : env_first ?env ?a ?b = Ok ?o |- apply_wrapper ?o _ = _ =>
            exact (wrapper_keep _ _ _ _ _ (env_first_reads env a b) E)
        | E : cx_env_var ?env _ = Ok ?o |- soa_view (or_keep (option_map SoaString ?o) _) = _ =>
            exact (proj2 (target_reads env) _ _ E)
        | E : env_flags ?env ?a ?b ?c ?cur = Ok ?o |- flags_view (fst ?o) = _ =>
            exact (proj1 (proj1 (proj2 (env_flags_reads env a b c cur)) _ E))
        | E : env_flags ?env ?a ?b ?c ?cur = Ok ?o |- snd ?o = _ =>
            exact (proj2 (proj1 (proj2 (env_flags_reads env a b c cur)) _ E))
        end.
Qed.
