(** C60: what the caller's options decide, and what the process still decides. *)
From Verif.Model Require Import Base Str Path BMap Error Value De EasyTypes Serde Load Context Process Resolve Easy.
From Verif.Spec Require Import ConfigSpec EnvSpec QuerySpec TargetSpec FinalSpec OptionsSpec.
From Verif.Proof Require Import StrFacts EnvTextProof EnvVarsProof FinalProof OptionsProof.
From Verif.Props Require Import Query.

(** The builder: each option is what its last call gave; the others are as if not called. *)
Theorem C60_builder l :
  last_given rustc_given l (o_rustc (built l)) /\ last_given cargo_given l (o_cargo (built l))
  /\ last_given home_given l (o_cargo_home (built l)) /\ last_given host_given l (o_host_triple (built l))
  /\ exists v, last_given vars_given l v /\ given_variables v (o_env (built l)).
Proof.
  split; [|split; [|split; [|split]]]; [apply given_by; [reflexivity|now intros o []]..|apply env_given].
Qed.
Print Assumptions C60_builder.
(** What counts as the last call is settled. *)
Theorem C60_last_unique A (g : call -> option A) l a b : last_given g l a -> last_given g l b -> a = b.
Proof.
  revert a b. induction l as [|c l IH] using rev_ind; intros a b.
  - destruct a as [a|]; [intros ([|] & ? & ? & E & _); discriminate E|].
    destruct b as [b|]; [intros _ ([|] & ? & ? & E & _); discriminate E|reflexivity].
  - assert (K : forall a, last_given g (l ++ [c]) a ->
              g c = a /\ a <> None \/ g c = None /\ last_given g l a).
    { intros [x|] H.
      - destruct H as (l1 & c1 & l2 & E & G & N). destruct l2 as [|d l2] using rev_ind.
        + apply app_inj_tail in E as [-> ->]. left. now split.
        + rewrite app_comm_cons, app_assoc in E. apply app_inj_tail in E as [-> ->]. right.
          split; [apply N; apply in_or_app; right; now left|]. exists l1, c1, l2.
          split; [reflexivity|]. split; [assumption|]. intros c' I. apply N. apply in_or_app. now left.
      - right. split; [apply H; apply in_or_app; right; now left|]. intros c' I. apply H. apply in_or_app. now left. }
    intros Ha Hb. apply K in Ha as [[Ha Na]|[Ha La]]; apply K in Hb as [[Hb Nb]|[Hb Lb]]; try congruence. now apply IH.
Qed.
Print Assumptions C60_last_unique.

(** Loading and everything afterwards depends on the process and the options only through the
    variables, CARGO_HOME, [cargo], and the given [rustc] and host triple. *)
Theorem C60_same_start f p p' cwd o o' : same_start p p' cwd o o' ->
  same_end (easy_load_with_options f p cwd o) (easy_load_with_options f p' cwd o').
Proof. exact (start_same f p p' cwd o o'). Qed.
Print Assumptions C60_same_start.

(** With the variables and CARGO_HOME given the process does not matter at all. *)
Theorem C60_isolated f p p' cwd o e h : o_env o = Some e -> o_cargo_home o = Some h ->
  easy_load_with_options f p cwd o = easy_load_with_options f p' cwd o.
Proof.
  intros E H. unfold easy_load_with_options, cx_cargo_home, into_context. now rewrite E, H.
Qed.
Print Assumptions C60_isolated.
(** The variables alone are not enough: CARGO_HOME is read from the process, even when it is among
    the variables given ... *)
Theorem C60_env_isolates_refuted : exists f p p' cwd o e c c',
  o_env o = Some e /\ env_get (B "CARGO_HOME") e = Some (B "/mine")
  /\ easy_load_with_options f p cwd o = Ok c /\ easy_load_with_options f p' cwd o = Ok c'
  /\ easy_look BuildJobs c = Some 1%Z /\ easy_look BuildJobs c' = Some 2%Z.
Proof.
  pose (f := mkFsys (fun p => existsb (str_eqb p) [B "/one/config.toml"; B "/two/config.toml"; B "/mine/config.toml"])
               (fun p => ReadTree (TomlTab [(B "build", TomlTab [(B "jobs", TomlInt
                           (if str_eqb p (B "/one/config.toml") then 1%Z
                            else if str_eqb p (B "/two/config.toml") then 2%Z else 3%Z))])]))).
  pose (o := opt_env options_default [(B "CARGO_HOME", B "/mine")]).
  pose (p := mkProcess [(B "CARGO_HOME", B "/one")] None).
  pose (p' := mkProcess [(B "CARGO_HOME", B "/two")] None).
  destruct (easy_load_with_options f p (B "/w") o) as [c|e|x] eqn:L; [|vm_compute in L; discriminate..].
  destruct (easy_load_with_options f p' (B "/w") o) as [c'|e|x] eqn:L'; [|vm_compute in L'; discriminate..].
  exists f, p, p', (B "/w"), o, [(B "CARGO_HOME", B "/mine")], c, c'.
  vm_compute in L. injection L as <-. vm_compute in L'. injection L' as <-. repeat split; vm_compute; reflexivity.
Qed.
Print Assumptions C60_env_isolates_refuted.

(** Giving explicitly what is the default changes nothing. *)
Theorem C60_default_env f p cwd o : o_env o = None ->
  easy_load_with_options f p cwd (opt_env o (p_vars p)) = easy_load_with_options f p cwd o.
Proof. intros E. unfold easy_load_with_options, cx_cargo_home, into_context, opt_env. cbn. now rewrite E. Qed.
Print Assumptions C60_default_env.
Theorem C60_default_home f p cwd o h : (forall e, o_env o = Some e -> one_value_each e) -> home_of p o cwd h ->
  same_end (easy_load_with_options f p cwd (opt_cargo_home o h)) (easy_load_with_options f p cwd o).
Proof.
  intros N H. apply C60_same_start. destruct (environment_exists p o N) as (env & E).
  destruct (cargo_exists o env) as (c & C). split; [|split; [|now split]].
  - exists env, c. repeat (split; [assumption|]). split; [|assumption].
    destruct C as [c' K|c' K K'|K K']; [now apply cargo_option|now apply cargo_variable|now apply cargo_default].
  - exists h. split; [now apply home_option|assumption].
Qed.
Print Assumptions C60_default_home.
Theorem C60_default_cargo f p cwd o env c : environment p o env -> cargo_of o env c ->
  same_end (easy_load_with_options f p cwd (opt_cargo o c)) (easy_load_with_options f p cwd o).
Proof.
  intros E C. apply C60_same_start. destruct (home_exists p o cwd) as (h & H). split; [|split; [|now split]].
  - exists env, c. repeat (split; [assumption|]). split; [now apply cargo_option|assumption].
  - exists h. split; [|assumption]. apply home_cx. apply home_cx in H. exact H.
Qed.
Print Assumptions C60_default_cargo.

(** Of the process only the variables that are kept, the first setting of CARGO_HOME and the home
    directory matter. *)
Theorem C60_relevant f p p' cwd o : (forall e, o_env o = Some e -> one_value_each e) -> same_relevant p p' ->
  same_end (easy_load_with_options f p cwd o) (easy_load_with_options f p' cwd o).
Proof.
  intros N (V & H & D). apply C60_same_start. destruct (environment_exists p o N) as (env & E).
  assert (E' : environment p' o env).
  { unfold environment in *. destruct (o_env o); [assumption|]. intros n v. rewrite E. split; intros [K L]; (split; [assumption|]); now apply (V n v K). }
  destruct (cargo_exists o env) as (c & C). destruct (home_exists p o cwd) as (h & Hh). split; [|split; [|now split]].
  - now exists env, c.
  - exists h. split; [assumption|]. apply home_cx. apply home_cx in Hh. rewrite <- Hh.
    unfold cx_cargo_home, into_context. cbn [cx_cargo_home0]. destruct (o_cargo_home o); [reflexivity|]. now rewrite H, D.
Qed.
Print Assumptions C60_relevant.

(** [cargo()] and [host_triple()]. *)
Theorem C60_cargo f p cwd o env c cargo pr w s :
  environment p o env -> cargo_of o env cargo -> easy_load_with_options f p cwd o = Ok c ->
  run_query pr w c QCargo s = (Ok (AStr cargo), s).
Proof.
  intros E C L. apply loaded_context in L. cbn [run_query]. unfold q_cargo. rewrite L, (cargo_cx p o cwd env cargo E C).
  reflexivity.
Qed.
Print Assumptions C60_cargo.
Theorem C60_host f p cwd o c h pr w s :
  o_host_triple o = Some h -> easy_load_with_options f p cwd o = Ok c -> reached pr w c s ->
  run_query pr w c QHostTriple s = (Ok (AStr h), s).
Proof.
  intros H L (qs & _ & ->). apply loaded_context in L.
  apply (C35_stable pr w c QHostTriple (state_init (ec_cx c)) (AStr h) (state_init (ec_cx c)) qs); [unfold tool_query; tauto|].
  rewrite L. cbn [run_query]. unfold mapM, q_host_triple, cx_host_triple, bindM, get. cbn. now rewrite H.
Qed.
Print Assumptions C60_host.
Theorem C60_rustc f p cwd o c r pr w s :
  o_rustc o = Some r -> easy_load_with_options f p cwd o = Ok c -> reached pr w c s ->
  run_query pr w c QRustc s = (Ok (AProgram r), s).
Proof.
  intros H L (qs & _ & ->). apply loaded_context in L.
  apply (C35_stable pr w c QRustc (state_init (ec_cx c)) (AProgram r) (state_init (ec_cx c)) qs); [unfold tool_query; tauto|].
  rewrite L. cbn [run_query]. unfold mapM, q_rustc, cx_rustc, bindM, get. cbn. now rewrite H.
Qed.
Print Assumptions C60_rustc.

(** ** Examples *)
Definition c60_calls : list call :=
  [CallHostTriple (B "h1"); CallEnv [(B "PATH", B "/bin"); (B "CARGO", B "/c1")]; CallCargoHome None;
   CallEnv [(B "CARGO_BUILD_JOBS", B "3"); (B "CARGO", B "/c2"); (B "HOME", B "/h"); (B "CARGO_BUILD_JOBS", B "4")];
   CallHostTriple (B "h2"); CallCargoHome (Some (B "/home/c"))].
Example C60_ex_builder :
  built c60_calls = mkOptions (Some [(B "CARGO_BUILD_JOBS", B "4"); (B "CARGO", B "/c2")]) None None
                      (Some (Some (B "/home/c"))) (Some (B "h2")).
Proof. vm_compute. reflexivity. Qed.
Definition c60_fs : fs :=
  mkFsys (fun p => str_eqb p (B "/home/c/config.toml"))
       (fun _ => ReadTree (TomlTab [(B "http", TomlTab [(B "timeout", TomlInt 9)])])).
Definition c60_world : world := mkWorld (fun _ _ => false) (fun _ _ => NotStarted KNotFound).
Example C60_ex :
  match easy_load_with_options c60_fs (mkProcess [(B "CARGO_BUILD_JOBS", B "7")] None) (B "/w") (built c60_calls) with
  | Ok c => easy_look BuildJobs c = Some 4%Z /\ easy_look HttpTimeout c = Some 9%N
            /\ fst (run_query release c60_world c QCargo (state_init (ec_cx c))) = Ok (AStr (B "/c2"))
            /\ run_query release c60_world c QHostTriple (state_init (ec_cx c)) = (Ok (AStr (B "h2")), state_init (ec_cx c))
  | _ => False
  end.
Proof. vm_compute. repeat split. Qed.
(** Two processes that differ in the order of their variables and in a variable that is not kept. *)
Example C60_ex_relevant : same_relevant
  (mkProcess [(B "CARGO_HOME", B "/home/c"); (B "PATH", B "/bin"); (B "RUSTC", B "rc")] None)
  (mkProcess [(B "RUSTC", B "rc"); (B "CARGO_HOME", B "/home/c"); (B "PATHS", B "/sbin")] None).
Proof.
  split; [|now split]. intros n v K. cbn [p_vars].
  assert (G : forall vars, env_get n (env_filter vars) = Some v <-> last_setting n vars v)
    by (intros vars; rewrite env_filter_get; tauto).
  rewrite <- !G.
  change (env_filter (_ :: (B "PATH", _) :: _)) with [(B "CARGO_HOME", B "/home/c"); (B "RUSTC", B "rc")].
  change (env_filter _) with [(B "RUSTC", B "rc"); (B "CARGO_HOME", B "/home/c")]. cbn [env_get].
  destruct (str_eqb n (B "CARGO_HOME")) eqn:X, (str_eqb n (B "RUSTC")) eqn:Y; try reflexivity.
  apply str_eqb_eq in X. subst n. discriminate Y.
Qed.
(** A process with variables, and one without them but with options instead. *)
Example C60_ex_start : same_start
  (mkProcess [(B "CARGO_HOME", B "/h"); (B "CARGO", B "/c"); (B "RUSTC", B "rc")] (Some (B "/root")))
  (mkProcess [(B "CARGO_HOME", B "/other")] None) (B "/w") options_default
  (built [CallEnv [(B "RUSTC", B "rc"); (B "CARGO", B "/c"); (B "CARGO_HOME", B "/other"); (B "CARGO_HOME", B "/h")];
          CallCargo (B "/c"); CallCargoHome (Some (B "/h"))]).
Proof.
  split; [|split; [|now split]].
  - exists [(B "CARGO_HOME", B "/h"); (B "CARGO", B "/c"); (B "RUSTC", B "rc")], (B "/c").
    split; [intros n v; apply (env_filter_get [(B "CARGO_HOME", B "/h"); (B "CARGO", B "/c"); (B "RUSTC", B "rc")])|].
    split; [split; [apply env_filter_unique|]|].
    + change (env_filter _) with [(B "RUSTC", B "rc"); (B "CARGO", B "/c"); (B "CARGO_HOME", B "/h")].
      intros n. cbn [env_get].
      destruct (str_eqb n (B "CARGO_HOME")) eqn:X, (str_eqb n (B "RUSTC")) eqn:Y, (str_eqb n (B "CARGO")) eqn:Z; try reflexivity;
        first [apply str_eqb_eq in Y; subst n; first [discriminate X|discriminate Z]
              |apply str_eqb_eq in X; subst n; discriminate Z].
    + split; [apply cargo_variable; reflexivity|apply cargo_option; reflexivity].
  - exists (Some (B "/h")). split; apply home_cx; reflexivity.
Qed.
