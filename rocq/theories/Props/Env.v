(** C15-C17, C19 and the parts of C18 and C20 about [apply_env]: environment variables. *)
From Coq Require Import Permutation.
From Verif.Model Require Import Base Str Path BMap Error Value De Context ApplyEnv.
From Verif.Spec Require Import StrSpec ConfigSpec LoadSpec EnvSpec.
From Verif.Proof Require Import MergeProof EnvProof EnvVarsProof EnvTextProof.

(** [tables_in_order] holds of every loaded configuration (C11), [one_value_each] of
    every hash map. *)

(** ** C15 *)
Theorem C15_order_irrelevant env env' c :
  one_value_each env -> tables_in_order c -> Permutation env env' ->
  same_outcome (apply_env env c) (apply_env env' c).
Proof. exact (fun N S P => apply_env_perm env env' c N P (proj1 (tables_in_order_sorted c) S)). Qed.
Print Assumptions C15_order_irrelevant.

Definition ex_env : env_map :=
  [(B "CARGO_REGISTRIES_crates-io_INDEX", B "i"); (B "CARGO_ALIAS_b", B "build  -v");
   (B "CARGO_REGISTRIES_CRATES_IO_PROTOCOL", B "sparse"); (B "CARGO_BUILD_JOBS", B "-4");
   (B "RUSTC_WRAPPER", B ""); (B "CARGO_BUILD_RUSTC_WRAPPER", B "sccache");
   (B "CARGO_INCREMENTAL", B "yes"); (B "BROWSER", B "firefox -P x")].
Definition ex_config : config :=
  mkConfig [(B "b", sl_from_string (B "bench") None)] (c_build config_default) (c_doc config_default)
    (c_env config_default) (c_future_incompat_report config_default) (c_cargo_new config_default)
    (c_http config_default) (c_net config_default)
    [(B "my-reg", registries_default)] (c_registry config_default) (c_target config_default)
    (c_term config_default).
Lemma ex_env_unique : one_value_each ex_env.
Proof.
  unfold one_value_each, ex_env. cbn [map fst].
  repeat (constructor; [cbn [In]; intros H; repeat (destruct H as [H|H]; [discriminate H|]); exact H|]).
  constructor.
Qed.
Lemma ex_config_in_order : tables_in_order ex_config.
Proof.
  repeat split; intros a x y b H; cbn in H;
    (destruct a as [|? [|? a]]; try discriminate H; destruct a; discriminate H).
Qed.
Example C15_example :
  one_value_each ex_env /\ tables_in_order ex_config /\ Permutation ex_env (rev ex_env)
  /\ exists c, apply_env ex_env ex_config = Ok c /\ apply_env (rev ex_env) ex_config = Ok c.
Proof.
  split; [exact ex_env_unique|]. split; [exact ex_config_in_order|]. split; [apply Permutation_rev|].
  eexists. split; vm_compute; reflexivity.
Qed.
(** Two failing variables: which one is reported does depend on the order. *)
Example C15_error_depends_on_order :
  let x := (B "CARGO_ALIAS_x", bytes [255]%N) in let y := (B "CARGO_ALIAS_y", bytes [255]%N) in
  apply_env [x; y] ex_config <> apply_env [y; x] ex_config.
Proof. vm_compute. discriminate. Qed.

(** ** C16 *)
(** A key with a variable that is set is the variable's value; any other key stays as it
    was.  [variables] and the definitions after it (Spec/EnvSpec.v) list the variables. *)
Theorem C16_scalars env c c' :
  one_value_each env -> apply_env env c = Ok c' ->
  forall A (k : scalar_key A), look k c' = scalar_after k env (look k c).
Proof. exact (apply_env_scalar env c c'). Qed.
Print Assumptions C16_scalars.
Theorem C16_lists env c c' :
  one_value_each env -> apply_env env c = Ok c' ->
  forall k, look_list k c' = words_after (list_variables k) env (look_list k c).
Proof. exact (apply_env_list env c c'). Qed.
Print Assumptions C16_lists.
Theorem C16_programs env c c' :
  apply_env env c = Ok c' -> forall k, look_program k c' = program_after k env (look_program k c).
Proof. exact (apply_env_program env c c'). Qed.
Print Assumptions C16_programs.
Theorem C16_entries env c c' :
  one_value_each env -> apply_env env c = Ok c' ->
  forall k, has_entry k c' = entry_after k env (has_entry k c).
Proof. exact (apply_env_entry env c c'). Qed.
Print Assumptions C16_entries.
Theorem C16_untouched env c c' :
  apply_env env c = Ok c' ->
  c_env c' = c_env c /\ c_cargo_new c' = c_cargo_new c /\ c_target c' = c_target c.
Proof. exact (apply_env_env env c c'). Qed.
Print Assumptions C16_untouched.
Theorem C16_tables_in_order env c c' :
  tables_in_order c -> apply_env env c = Ok c' -> tables_in_order c'.
Proof.
  exact (fun S H => proj2 (tables_in_order_sorted c')
                      (apply_env_sorted env c c' (proj1 (tables_in_order_sorted c) S) H)).
Qed.
Print Assumptions C16_tables_in_order.
(** The environment is rejected exactly if a variable that is consulted cannot be read. *)
Theorem C16_accepted_iff env c :
  one_value_each env -> (is_ok (apply_env env c) = true <-> all_readable env c).
Proof. exact (apply_env_ok env c). Qed.
Print Assumptions C16_accepted_iff.
Theorem C16_never_panics env c : is_panic (apply_env env c) = false.
Proof. exact (apply_env_panic env c). Qed.
Print Assumptions C16_never_panics.

(** How the texts are read. *)
Theorem C16_signed s z : parse_i32 s = Some z <-> signed s z /\ (- 2 ^ 31 <= z < 2 ^ 31)%Z.
Proof. exact (parse_i32_iff s z). Qed.
Print Assumptions C16_signed.
Theorem C16_unsigned s n : parse_u32 s = Some n <-> unsigned s n /\ (n < 2 ^ 32)%N.
Proof. exact (parse_u32_iff s n). Qed.
Print Assumptions C16_unsigned.
Theorem C16_words s :
  (forall b, parse_bool s = Some b <-> In (s, b) bools)
  /\ (forall b, color_from_str s = Some b <-> In (s, b) colors)
  /\ (forall b, when_from_str s = Some b <-> In (s, b) whens)
  /\ (forall b, frequency_from_str s = Some b <-> In (s, b) frequencies)
  /\ (forall b, protocol_from_str s = Some b <-> In (s, b) protocols)
  /\ (forall b, vcs_from_str s = Some b <-> In (s, b) vcss).
Proof.
  exact (conj (bool_words s) (conj (color_words s) (conj (when_words s)
        (conj (frequency_words s) (conj (protocol_words s) (vcs_words s)))))).
Qed.
Print Assumptions C16_words.

Example C16_example :
  exists c, apply_env ex_env ex_config = Ok c
  /\ look BuildJobs c = Some (of_variable (B "CARGO_BUILD_JOBS") (-4)%Z)
  /\ look_list (Alias (B "b")) c
     = Some (AsString, map (of_variable (B "CARGO_ALIAS_b")) [B "build"; B "-v"])
  /\ look (RegistriesProtocol (B "crates-io")) c
     = Some (of_variable (B "CARGO_REGISTRIES_CRATES_IO_PROTOCOL") ProtoSparse)
  /\ has_entry (RegistriesEntry (B "my-reg")) c = true.
Proof. eexists. vm_compute. repeat split. Qed.
Example C16_rejected_example :
  is_ok (apply_env [(B "CARGO_NET_RETRY", B "4294967296")] ex_config) = false
  /\ is_ok (apply_env [(B "CARGO_NET_RETRY", B "4294967295")] ex_config) = true
  /\ is_ok (apply_env [(B "CARGO_TERM_QUIET", B "True")] ex_config) = false
  (* a variable that is not consulted may be malformed *)
  /\ is_ok (apply_env [(B "CARGO_INCREMENTAL", B "1"); (B "CARGO_BUILD_INCREMENTAL", B "?")] ex_config) = true.
Proof. vm_compute. repeat split. Qed.

(** CARGO_CARGO_NEW_VCS is documented (src/env.rs:278-286 reads it) but never applied. *)
Theorem C16_vcs_refuted :
  exists env c c', one_value_each env /\ apply_env env c = Ok c'
  /\ env_get (B "CARGO_CARGO_NEW_VCS") env = Some (B "hg") /\ vcs_from_str (B "hg") = Some VcsMercurial
  /\ option_map val (look CargoNewVcs c) = None /\ look CargoNewVcs c' = None.
Proof.
  exists [(B "CARGO_CARGO_NEW_VCS", B "hg")], config_default. eexists.
  split; [repeat constructor; easy|]. vm_compute. repeat split.
Qed.
Print Assumptions C16_vcs_refuted.
(** Cargo spells the variable for registries.my-reg.index CARGO_REGISTRIES_MY_REG_INDEX;
    here it creates another registry. *)
Theorem C16_registry_name_refuted :
  exists env c c', one_value_each env /\ apply_env env c = Ok c'
  /\ env_get (B "CARGO_REGISTRIES_MY_REG_INDEX") env = Some (B "https://a")
  /\ has_entry (RegistriesEntry (B "my-reg")) c = true
  /\ look (RegistriesIndex (B "my-reg")) c' = None
  /\ has_entry (RegistriesEntry (B "MY_REG")) c' = true.
Proof.
  exists [(B "CARGO_REGISTRIES_MY_REG_INDEX", B "https://a")], ex_config. eexists.
  split; [repeat constructor; easy|]. vm_compute. repeat split.
Qed.
Print Assumptions C16_registry_name_refuted.

(** ** C17 *)
Theorem C17_two_variables k hi lo env c c' :
  In (k, hi, lo) two_variables -> one_value_each env -> apply_env env c = Ok c' ->
  look k c' = match env_get hi env, env_get lo env with
              | Some v, _ => from_variable k hi v
              | None, Some v => from_variable k lo v
              | None, None => look k c
              end.
Proof. exact (two_variables_key k hi lo env c c'). Qed.
Print Assumptions C17_two_variables.
Theorem C17_incremental env c c' :
  one_value_each env -> apply_env env c = Ok c' ->
  forall v, env_get (B "CARGO_INCREMENTAL") env = Some v ->
  look BuildIncremental c' = Some (of_variable (B "CARGO_INCREMENTAL") (str_eqb v (B "1"))).
Proof. exact (incremental_key env c c'). Qed.
Print Assumptions C17_incremental.
Example C17_example :
  exists c, apply_env ex_env ex_config = Ok c
  /\ look BuildRustcWrapper c = None
  /\ look BuildIncremental c = Some (of_variable (B "CARGO_INCREMENTAL") false)
  /\ exists c', apply_env [(B "CARGO_BUILD_RUSTC_WRAPPER", B "sccache"); (B "RUSTC", B "")] ex_config = Ok c'
  /\ look BuildRustcWrapper c' = Some (of_variable (B "CARGO_BUILD_RUSTC_WRAPPER") (B "sccache"))
  /\ look BuildRustc c' = Some (of_variable (B "RUSTC") []).
Proof. eexists. split; [vm_compute; reflexivity|]. repeat split. eexists. vm_compute. repeat split. Qed.

(** ** C18, part 1: the variables (part 2 is in Props/Target.v) *)
Theorem C18_rustflags_variables env c c' :
  one_value_each env -> apply_env env c = Ok c' ->
  look_list BuildRustflags c' =
    match env_get (B "CARGO_ENCODED_RUSTFLAGS") env, env_get (B "RUSTFLAGS") env,
          env_get (B "CARGO_BUILD_RUSTFLAGS") env with
    | Some v, _, _ => Some (AsArray, map (of_variable (B "CARGO_ENCODED_RUSTFLAGS")) (split_encoded v))
    | None, Some v, _ => Some (AsString, map (of_variable (B "RUSTFLAGS")) (split_space_separated v))
    | None, None, Some v => Some (AsString, map (of_variable (B "CARGO_BUILD_RUSTFLAGS")) (split_space_separated v))
    | None, None, None => look_list BuildRustflags c
    end
  /\ b_override_target_rustflags (c_build c')
     = (set env (B "CARGO_ENCODED_RUSTFLAGS") || set env (B "RUSTFLAGS"))%bool.
Proof.
  exact (fun N H => conj (flags_key BuildRustflags _ _ _ env c c'
                            (or_introl (conj eq_refl (conj eq_refl (conj eq_refl eq_refl)))) N H)
                         (f_equal fst (apply_env_overrides env c c' H))).
Qed.
Print Assumptions C18_rustflags_variables.
Theorem C18_rustdocflags_variables env c c' :
  one_value_each env -> apply_env env c = Ok c' ->
  look_list BuildRustdocflags c' =
    match env_get (B "CARGO_ENCODED_RUSTDOCFLAGS") env, env_get (B "RUSTDOCFLAGS") env,
          env_get (B "CARGO_BUILD_RUSTDOCFLAGS") env with
    | Some v, _, _ => Some (AsArray, map (of_variable (B "CARGO_ENCODED_RUSTDOCFLAGS")) (split_encoded v))
    | None, Some v, _ => Some (AsString, map (of_variable (B "RUSTDOCFLAGS")) (split_space_separated v))
    | None, None, Some v =>
        Some (AsString, map (of_variable (B "CARGO_BUILD_RUSTDOCFLAGS")) (split_space_separated v))
    | None, None, None => look_list BuildRustdocflags c
    end
  /\ b_override_target_rustdocflags (c_build c')
     = (set env (B "CARGO_ENCODED_RUSTDOCFLAGS") || set env (B "RUSTDOCFLAGS"))%bool.
Proof.
  exact (fun N H => conj (flags_key BuildRustdocflags _ _ _ env c c'
                            (or_intror (conj eq_refl (conj eq_refl (conj eq_refl eq_refl)))) N H)
                         (f_equal snd (apply_env_overrides env c c' H))).
Qed.
Print Assumptions C18_rustdocflags_variables.

(** ** C19 *)
Theorem C19_configured_browser_stays env c c' w :
  apply_env env c = Ok c' -> look_program DocBrowser c = Some w -> look_program DocBrowser c' = Some w.
Proof. exact (browser_kept env c c' w). Qed.
Print Assumptions C19_configured_browser_stays.
Theorem C19_browser_fallback env c c' v :
  apply_env env c = Ok c' -> look_program DocBrowser c = None -> env_get (B "BROWSER") env = Some v ->
  look_program DocBrowser c' = Some (AsString, map (of_variable (B "BROWSER")) (split_space_separated v))
  /\ split_space_separated v <> [].
Proof. exact (browser_fallback env c c' v). Qed.
Print Assumptions C19_browser_fallback.
(** With a configured browser, BROWSER is not even looked at. *)
Theorem C19_browser_ignored env v c w :
  one_value_each env -> one_value_each ((B "BROWSER", v) :: env) -> tables_in_order c ->
  look_program DocBrowser c = Some w ->
  same_outcome (apply_env ((B "BROWSER", v) :: env) c) (apply_env env c).
Proof.
  exact (fun N N' S H => browser_ignored env v c w N N' (proj1 (tables_in_order_sorted c) S) H).
Qed.
Print Assumptions C19_browser_ignored.
Definition ex_browser : config :=
  mkConfig (c_alias ex_config) (c_build ex_config)
    (mkDoc (Some (mkPathAndArgs (mkValue (B "w3m") None) [] ReprString)))
    (c_env ex_config) (c_future_incompat_report ex_config) (c_cargo_new ex_config)
    (c_http ex_config) (c_net ex_config) (c_registries ex_config) (c_registry ex_config)
    (c_target ex_config) (c_term ex_config).
Example C19_example :
  exists c c', apply_env ex_env ex_config = Ok c /\ apply_env ex_env ex_browser = Ok c'
  /\ look_program DocBrowser c
     = Some (AsString, map (of_variable (B "BROWSER")) [B "firefox"; B "-P"; B "x"])
  /\ look_program DocBrowser c' = Some (AsString, [mkValue (B "w3m") None])
  /\ tables_in_order ex_browser.
Proof.
  do 2 eexists. split; [vm_compute; reflexivity|]. split; [vm_compute; reflexivity|].
  repeat (split; [reflexivity|]). exact ex_config_in_order.
Qed.

(** ** C20, part 1 (part 2 is in Props/Target.v) *)
Theorem C20_filter_keeps vars n v :
  env_get n (env_filter vars) = Some v <-> kept n /\ last_setting n vars v.
Proof. exact (env_filter_get vars n v). Qed.
Print Assumptions C20_filter_keeps.
Theorem C20_filter_unique vars : one_value_each (env_filter vars).
Proof. exact (env_filter_unique vars). Qed.
Print Assumptions C20_filter_unique.
Theorem C20_filter_transparent vars c :
  one_value_each vars -> Forall (fun kv => utf8_valid (fst kv) = true) vars -> tables_in_order c ->
  same_outcome (apply_env (env_filter vars) c) (apply_env vars c).
Proof. exact (fun N U S => env_filter_transparent vars c N U (proj1 (tables_in_order_sorted c) S)). Qed.
Print Assumptions C20_filter_transparent.
Definition ex_process : list (str * str) :=
  (B "PATH", B "/bin") :: (B "RUSTUP", bytes [255]%N) :: (B "BROWSER2", B "x") :: ex_env.
Example C20_example :
  one_value_each ex_process /\ Forall (fun kv => utf8_valid (fst kv) = true) ex_process
  /\ length (env_filter ex_process) = 9.
Proof.
  split.
  - unfold one_value_each, ex_process, ex_env. cbn [map fst].
    repeat (constructor; [cbn [In]; intros H; repeat (destruct H as [H|H]; [discriminate H|]); exact H|]).
    constructor.
  - split; [repeat constructor | vm_compute; reflexivity].
Qed.
