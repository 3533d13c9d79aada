(** C40: tokens do not show. *)
From Verif.Model Require Import Base Str Path BMap Error Value De Debug EasyTypes Triple Context ApplyEnv CfgExpr
  Serde Load Process Resolve Easy EasySerde.
From Verif.Spec Require Import StrSpec Utf8Spec ConfigSpec SecretSpec.
From Verif.Proof Require Import StrFacts BMapFacts Utf8Proof SecretProof.

(** Configurations that are the same once tokens are hidden give the same output. *)
Theorem C40_debug c c' : hide c = hide c' -> dbg_config c = dbg_config c'.
Proof. intros H. now rewrite <- (dbg_hide c), <- (dbg_hide c'), H. Qed.
Print Assumptions C40_debug.
Theorem C40_debug_registries r r' : hide_registries r = hide_registries r' -> dbg_registries r = dbg_registries r'.
Proof. intros H. now rewrite <- (dbg_hide_registries r), <- (dbg_hide_registries r'), H. Qed.
Print Assumptions C40_debug_registries.
Theorem C40_debug_registry r r' : hide_registry r = hide_registry r' -> dbg_registry r = dbg_registry r'.
Proof. intros H. now rewrite <- (dbg_hide_registry r), <- (dbg_hide_registry r'), H. Qed.
Print Assumptions C40_debug_registry.
(** The resolved parts. *)
Theorem C40_easy_debug_registries r r' :
  hide_easy_registries r = hide_easy_registries r' -> edbg_registries r = edbg_registries r'.
Proof. intros H. now rewrite <- (edbg_hide_registries r), <- (edbg_hide_registries r'), H. Qed.
Print Assumptions C40_easy_debug_registries.
Theorem C40_easy_debug_registry r r' :
  hide_easy_registry r = hide_easy_registry r' -> edbg_registry r = edbg_registry r'.
Proof. intros H. now rewrite <- (edbg_hide_registry r), <- (edbg_hide_registry r'), H. Qed.
Print Assumptions C40_easy_debug_registry.
(** The resolved configuration, if the captured variables are the same. *)
Theorem C40_easy_debug c c' s :
  hide_easy c (ec_cx c) = hide_easy c' (ec_cx c') -> edbg_config c s = edbg_config c' s.
Proof.
  intros H. assert (K : forall d, edbg_config (hide_easy d (ec_cx d)) s = edbg_config d s).
  { intros d. rewrite edbg_hide. now destruct d. }
  now rewrite <- (K c), <- (K c'), H.
Qed.
Print Assumptions C40_easy_debug.

(** Hiding leaves every key but the tokens as it is, and keeps where the tokens come from. *)
Definition not_token_key {A} (k : scalar_key A) : Prop :=
  match k with RegistriesToken _ | RegistryToken => False | _ => True end.
Lemma under_hide {A} c n (g : registries_value -> option A) :
  under (c_registries (hide c)) n g = match bget n (c_registries c) with Some r => g (hide_registries r) | None => None end.
Proof.
  unfold under. change (c_registries (hide c)) with (bmapv hide_registries (c_registries c)). rewrite bget_bmapv.
  now destruct (bget n (c_registries c)).
Qed.
Lemma look_hide {A} (k : scalar_key A) c : not_token_key k -> look k (hide c) = look k c.
Proof.
  destruct k; intros N; try contradiction; try reflexivity; cbn [look]; rewrite under_hide; unfold under;
    now destruct (bget _ _).
Qed.
Theorem C40_only_tokens c c' : hide c = hide c' ->
  (forall A (k : scalar_key A), not_token_key k -> look k c = look k c')
  /\ (forall k, look_list k c = look_list k c') /\ (forall k, look_program k c = look_program k c')
  /\ (forall k, has_entry k c = has_entry k c')
  /\ (forall n, option_map def (look (RegistriesToken n) c) = option_map def (look (RegistriesToken n) c'))
  /\ option_map def (look RegistryToken c) = option_map def (look RegistryToken c').
Proof.
  intros H. repeat split.
  - intros A k N. rewrite <- (look_hide k c N), <- (look_hide k c' N). now rewrite H.
  - intros k. change (look_list k (hide c) = look_list k (hide c')). now rewrite H.
  - intros k. change (look_program k (hide c) = look_program k (hide c')). now rewrite H.
  - assert (R : forall d n, is_some (bget n (c_registries (hide d))) = is_some (bget n (c_registries d))).
    { intros d n. change (c_registries (hide d)) with (bmapv hide_registries (c_registries d)).
      rewrite bget_bmapv. now destruct (bget n (c_registries d)). }
    intros k. assert (K : has_entry k (hide c) = has_entry k (hide c')) by now rewrite H.
    destruct k; cbn [has_entry] in *; rewrite ?R in K; exact K.
  - intros n. assert (T : forall d, option_map def (look (RegistriesToken n) (hide d))
                                   = option_map def (look (RegistriesToken n) d)).
    { intros d. cbn [look]. rewrite under_hide. unfold under. destruct (bget _ _) as [r|]; [|reflexivity].
      cbn. now destruct (r_token r). }
    rewrite <- (T c), <- (T c'). now rewrite H.
  - assert (T : forall d, option_map def (look RegistryToken (hide d)) = option_map def (look RegistryToken d)).
    { intros d. cbn. now destruct (rg_token (c_registry d)). }
    rewrite <- (T c), <- (T c'). now rewrite H.
Qed.
Print Assumptions C40_only_tokens.

(** Loading from files that differ only in tokens: the same failure, or configurations that
    differ only in tokens. *)
Theorem C40_loading f f' cwd home : same_files f f' ->
  same_result (fun c c' => hide c = hide c') (load_with_options f cwd home) (load_with_options f' cwd home).
Proof. exact (load_alike f f' cwd home). Qed.
Print Assumptions C40_loading.
(** Applying variables. *)
Theorem C40_environment env env' c c' : same_variables env env' -> hide c = hide c' ->
  same_result (fun c c' => hide c = hide c') (apply_env env c) (apply_env env' c').
Proof. exact (same_apply_env env env' c c'). Qed.
Print Assumptions C40_environment.
(** Two runs of the whole: files, variables and options differ only in tokens. *)
Theorem C40_two_runs f f' p p' cwd o o' : same_files f f' -> same_process p p' -> same_options o o' ->
  same_result same_easy (easy_load_with_options f p cwd o) (easy_load_with_options f' p' cwd o').
Proof. exact (same_load f f' p p' cwd o o'). Qed.
Print Assumptions C40_two_runs.
(** Any query of the two results: the same answer or failure, the same programs run and the
    same caches afterwards, in whatever state. *)
Theorem C40_queries pr w c c' q s : same_easy c c' -> run_query pr w c q s = run_query pr w c' q s.
Proof. exact (same_query pr w c c' q s). Qed.
Print Assumptions C40_queries.
Theorem C40_call_sequences pr w c c' qs q : same_easy c c' ->
  run_query pr w c q (run_queries pr w c qs (state_init (ec_cx c)))
  = run_query pr w c' q (run_queries pr w c' qs (state_init (ec_cx c'))).
Proof.
  intros S. assert (I0 : state_init (ec_cx c) = state_init (ec_cx c')).
  { destruct S as (_ & _ & _ & _ & R & _ & T). unfold state_init. now rewrite R, T. }
  rewrite I0. generalize (state_init (ec_cx c')) as s. induction qs as [|q0 qs IH]; intros s; cbn [run_queries].
  - now apply same_query.
  - rewrite (same_query pr w c c' q0 s S). apply IH.
Qed.
Print Assumptions C40_call_sequences.

(** The failure to decode a token variable does not show its value. *)
Theorem C40_not_text n v v' : ~ utf8 v -> ~ utf8 v' ->
  cx_env_redacted [(n, v)] n = cx_env_redacted [(n, v')] n
  /\ is_ok (cx_env_redacted [(n, v)] n) = false.
Proof.
  intros H H'. assert (F : forall x, ~ utf8 x -> to_str x = None).
  { intros x X. unfold to_str. destruct (utf8_valid x) eqn:E; [|reflexivity]. now apply utf8_valid_iff in E. }
  unfold cx_env_redacted. cbn [env_get]. rewrite str_eqb_refl, !F by assumption. now split.
Qed.
Print Assumptions C40_not_text.

(** ** Examples *)
Definition ex_secret_doc (a b : string) : toml :=
  TomlTab [(B "registries", TomlTab [(B "r", TomlTab [(B "index", TomlStr (B "i")); (B "token", TomlStr (B a))])]);
           (B "registry", TomlTab [(B "token", TomlStr (B b))]);
           (B "build", TomlTab [(B "target", TomlStr (B "t"))])].
Definition ex_secret_files (a b : string) : fs :=
  mkFsys (fun p => str_eqb p (B "/w/.cargo/config.toml")) (fun _ => ReadTree (ex_secret_doc a b)).
Definition ex_secret_process (a b : string) : process_env :=
  mkProcess [(B "HOME", B "/h"); (B "CARGO_REGISTRIES_q_TOKEN", B a); (B "CARGO_REGISTRY_TOKEN", B b);
             (B "CARGO_BUILD_JOBS", B "2")] (Some (B "/h")).
Definition ex_secret (a b c d : string) : result econfig :=
  easy_load_with_options (ex_secret_files a b) (ex_secret_process c d) (B "/w") options_default.
Definition token_of (n : str) (r : result econfig) : option str :=
  match r with Ok c => match bget n (ec_registries c) with Some e => er_token e | None => None end | _ => None end.
Example C40_ex :
  same_files (ex_secret_files "a" "b") (ex_secret_files "c" "d")
  /\ same_process (ex_secret_process "e" "f") (ex_secret_process "g" "h")
  /\ same_options options_default options_default
  /\ token_of (B "r") (ex_secret "a" "b" "e" "f") = Some (B "a")
  /\ token_of (B "q") (ex_secret "a" "b" "e" "f") = Some (B "e")
  /\ token_of (B "r") (ex_secret "c" "d" "g" "h") = Some (B "c")
  /\ same_result same_easy (ex_secret "a" "b" "e" "f") (ex_secret "c" "d" "g" "h").
Proof.
  assert (F : same_files (ex_secret_files "a" "b") (ex_secret_files "c" "d")) by (split; reflexivity).
  assert (U : forall x, utf8_valid x = true -> utf8 x) by (intros; now apply utf8_valid_iff).
  assert (P : same_process (ex_secret_process "e" "f") (ex_secret_process "g" "h")).
  { split; [|reflexivity].
    constructor; [split; [reflexivity | now left]|].
    constructor; [split; [reflexivity | right; split; [right; now exists (B "q") | split; intros _; now apply U]]|].
    constructor; [split; [reflexivity | right; split; [now left | split; intros _; now apply U]]|].
    constructor; [split; [reflexivity | now left] | constructor]. }
  assert (O : same_options options_default options_default) by (repeat split).
  split; [exact F|]. split; [exact P|]. split; [exact O|]. do 3 (split; [now vm_compute|]).
  exact (same_load _ _ _ _ (B "/w") _ _ F P O).
Qed.
Example C40_ex_not_text : ~ utf8 [ascii_of_nat 255] /\ ~ utf8 [ascii_of_nat 254].
Proof. split; rewrite <- utf8_valid_iff; now vm_compute. Qed.
Example C40_ex_debug :
  let c t := mkRegistries (Some (mkValue (B "i") None)) (Some (mkValue (B t) None)) None in
  hide_registries (c "x"%string) = hide_registries (c "y"%string) /\ c "x"%string <> c "y"%string.
Proof. split; [reflexivity | discriminate]. Qed.

(** The resolved configuration as a whole also prints the variables it captured, with their
    values: two runs that differ only in tokens can be told apart. *)
Theorem C40_easy_debug_refuted : exists f p p' cwd c c' s,
  same_process p p' /\ easy_load_with_options f p cwd options_default = Ok c
  /\ easy_load_with_options f p' cwd options_default = Ok c'
  /\ edbg_config c s <> edbg_config c' s.
Proof.
  exists (mkFsys (fun _ => false) (fun _ => ReadErr KNotFound)),
    (mkProcess [(B "CARGO_REGISTRY_TOKEN", B "a")] None), (mkProcess [(B "CARGO_REGISTRY_TOKEN", B "b")] None), (B "/w").
  eexists _, _, (state_init (mkContext [] [] [] None None None)). split; [|split; [vm_compute; reflexivity|split; [vm_compute; reflexivity|]]].
  - split; [|reflexivity]. constructor; [|constructor]. split; [reflexivity|]. right.
    split; [now left | split; intros _; now apply utf8_valid_iff].
  - vm_compute. discriminate.
Qed.
Print Assumptions C40_easy_debug_refuted.
