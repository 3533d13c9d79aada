(** Writing the resolved configuration. *)
From Verif.Model Require Import Base Str Path BMap Error Value De Serde Triple EasyTypes Context Load ApplyEnv Resolve Process Easy EasySerde.
From Verif.Spec Require Import StrSpec Utf8Spec FlagsSpec ConfigSpec EnvSpec LoadSpec RootSpec SerdeSpec TargetSpec FinalSpec EasySerdeSpec.
From Verif.Proof Require Import StrFacts BMapFacts Utf8Proof LossyProof MergeProof LoadProof SerdeProof SerdeDocProof
  RoundTripProof RootProof EnvProof EnvVarsProof StateProof QueryProof TargetProof FinalProof.
From Verif.Spec Require Import FinalSpec.
From Coq Require Import Lia.

#[local] Arguments B : simpl never.
#[local] Arguments under : simpl never.
#[local] Arguments bmapv : simpl never.

(** ** As a configuration without definitions *)
Definition uo {A} := option_map (@unlabelled A).
Definition u_words (l : list str) : list word := map unlabelled l.
Definition u_flags (f : eflags) : flags := mkFlags (u_words (ef_flags f)) ReprArray.
Definition u_pa (p : epath_and_args) : path_and_args :=
  mkPathAndArgs (unlabelled (lossy (epa_path p))) (u_words (map lossy (epa_args p))) ReprArray.
Definition u_env (e : eenv) : env_config_value :=
  if (ee_force e || ee_relative e)%bool
  then EnvTable (unlabelled (lossy (ee_value e))) (flag (ee_force e)) (flag (ee_relative e))
  else EnvValue (unlabelled (lossy (ee_value e))).
Definition u_alias (s : estring_list) : string_list := mkStringList (u_words (esl_list s)) ReprArray.
Definition u_build (b : ebuild) : build_config :=
  mkBuild (uo (eb_jobs b)) (uo (eb_rustc b)) (uo (eb_rustc_wrapper b)) (uo (eb_rustc_workspace_wrapper b))
    (uo (eb_rustdoc b)) (option_map (fun l => SoaArray (u_words (map cli_target_string l))) (eb_target b))
    (uo (eb_target_dir b)) (option_map u_flags (eb_rustflags b)) (option_map u_flags (eb_rustdocflags b))
    (uo (eb_incremental b)) (uo (eb_dep_info_basedir b)) false false.
Definition u_target (t : etarget) : target_config :=
  mkTarget (uo (et_linker t)) (option_map u_pa (et_runner t)) (option_map u_flags (et_rustflags t))
    (option_map u_flags (et_rustdocflags t)).
Definition u_doc (d : edoc) : doc_config := mkDoc (option_map u_pa (ed_browser d)).
Definition u_future (f : efuture) : future_incompat := mkFuture (uo (efr_frequency f)).
Definition u_cargo_new (c : ecargo_new) : cargo_new := mkCargoNew (uo (ecn_vcs c)).
Definition u_http (h : ehttp) : http_config :=
  mkHttp (uo (eh_debug h)) (uo (eh_proxy h)) (uo (eh_timeout h)) (uo (eh_cainfo h)) (uo (eh_check_revoke h))
    (uo (eh_low_speed_limit h)) (uo (eh_multiplexing h)) (uo (eh_user_agent h)).
Definition u_net (n : enet) : net_config :=
  mkNet (uo (en_retry n)) (uo (en_git_fetch_with_cli n)) (uo (en_offline n)).
Definition u_registries (r : eregistries) : registries_value :=
  mkRegistries (uo (er_index r)) (uo (er_token r)) (uo (er_protocol r)).
Definition u_registry (r : eregistry) : registry_config := mkRegistry (uo (erg_default r)) (uo (erg_token r)).
Definition u_progress (p : eprogress) : term_progress := mkProgress (uo (epr_when p)) (uo (epr_width p)).
Definition u_term (t : eterm) : term_config :=
  mkTerm (uo (etm_quiet t)) (uo (etm_verbose t)) (uo (etm_color t)) (u_progress (etm_progress t)).
Definition u_targets (m : bmap etarget) : bmap target_config :=
  map (fun kv => (lossy (fst kv), u_target (snd kv))) m.
Definition u_config (c : econfig) (m : bmap etarget) : config :=
  mkConfig (bmapv u_alias (ec_alias c)) (u_build (ec_build c)) (u_doc (ec_doc c)) (bmapv u_env (ec_env c))
    (u_future (ec_future_incompat_report c)) (u_cargo_new (ec_cargo_new c)) (u_http (ec_http c)) (u_net (ec_net c))
    (bmapv u_registries (ec_registries c)) (u_registry (ec_registry c)) (u_targets m) (u_term (ec_term c)).

(** ** Writing *)
Definition textual (o : option path) : bool := match o with Some p => utf8_valid p | None => true end.
Definition when_ok {A} (b : bool) (a : A) : option A := if b then Some a else None.

Lemma w_path k o : esopt k ser_path o = when_ok (textual o) (sopt k ser_vstr (uo o)).
Proof. destruct o as [p|]; [|reflexivity]. cbn. unfold ser_path, to_str. destruct (utf8_valid p); reflexivity. Qed.
Lemma w_ok {A X} k (f : A -> toml) (g : X -> toml) (h : A -> X) o :
  (forall a, f a = g (h a)) -> esopt k (ok1 f) o = Some (sopt k g (option_map h o)).
Proof. intros E. destruct o as [a|]; [|reflexivity]. cbn. now rewrite E. Qed.
Lemma w_skip {A X} k s (s' : X -> bool) (f : A -> option toml) (g : X -> toml) (h : A -> X) b a :
  s a = s' (h a) -> (s a = true -> b = true) -> f a = when_ok b (g (h a)) ->
  esskip k s f a = when_ok b (sskip k s' g (h a)).
Proof.
  intros E N F. unfold esskip, sskip. rewrite <- E. destruct (s a); [now rewrite N|].
  rewrite F. destruct b; reflexivity.
Qed.
Lemma w_nil (a : epairs) : eapp a (Some []) = a.
Proof. destruct a; cbn; [now rewrite app_nil_r|reflexivity]. Qed.
Lemma w_app b b' (x y : list (str * toml)) : eapp (when_ok b x) (when_ok b' y) = when_ok (b && b') (x ++ y).
Proof. destruct b, b'; reflexivity. Qed.
Lemma w_app1 b (x y : list (str * toml)) : eapp (Some x) (when_ok b y) = when_ok b (x ++ y).
Proof. destruct b; reflexivity. Qed.
Lemma w_app2 b (x y : list (str * toml)) : eapp (when_ok b x) (Some y) = when_ok b (x ++ y).
Proof. destruct b; reflexivity. Qed.
Lemma w_app3 (x y : list (str * toml)) : eapp (Some x) (Some y) = Some (x ++ y).
Proof. reflexivity. Qed.
Lemma w_tab b x : tab (when_ok b x) = when_ok b (TomlTab x).
Proof. destruct b; reflexivity. Qed.
Ltac weave := repeat first [rewrite w_nil | rewrite w_app | rewrite w_app1 | rewrite w_app2 | rewrite w_app3].

Lemma w_strs l : ser_strs l = TomlArr (map ser_vstr (u_words l)).
Proof. unfold ser_strs, u_words. rewrite map_map. reflexivity. Qed.
Lemma w_flags f : eser_flags f = ser_flags (u_flags f).
Proof. apply w_strs. Qed.
Lemma w_pa p : eser_pa p = ser_path_and_args (u_pa p).
Proof. unfold eser_pa. rewrite w_strs. reflexivity. Qed.
Lemma w_env e : eser_env e = ser_env_config_value (u_env e).
Proof. unfold eser_env, u_env. destruct (ee_force e), (ee_relative e); reflexivity. Qed.
Lemma w_triples l : TomlArr (map eser_triple l) = ser_soa (SoaArray (u_words (map cli_target_string l))).
Proof. cbn. unfold u_words. now rewrite !map_map. Qed.

Definition build_ok (b : ebuild) : bool :=
  (textual (eb_rustc b) && (textual (eb_rustc_wrapper b) && (textual (eb_rustc_workspace_wrapper b)
   && (textual (eb_rustdoc b) && (textual (eb_target_dir b) && textual (eb_dep_info_basedir b))))))%bool.
Lemma w_build b : eser_build b = when_ok (build_ok b) (ser_build (u_build b)).
Proof.
  unfold eser_build, build_ok. cbn [econcat]. rewrite !w_path.
  rewrite (w_ok (B "jobs") TomlInt (ser_value TomlInt) unlabelled) by reflexivity.
  rewrite (w_ok (B "target") _ ser_soa _ _ w_triples).
  rewrite (w_ok (B "rustflags") _ ser_flags _ _ w_flags), (w_ok (B "rustdocflags") _ ser_flags _ _ w_flags).
  rewrite (w_ok (B "incremental") TomlBool ser_vbool unlabelled) by reflexivity.
  weave. rewrite w_tab. reflexivity.
Qed.
Lemma w_target t : eser_target t = when_ok (textual (et_linker t)) (ser_target (u_target t)).
Proof.
  unfold eser_target. cbn [econcat]. rewrite w_path.
  rewrite (w_ok (B "runner") _ ser_path_and_args _ _ w_pa).
  rewrite (w_ok (B "rustflags") _ ser_flags _ _ w_flags), (w_ok (B "rustdocflags") _ ser_flags _ _ w_flags).
  weave. rewrite w_tab. reflexivity.
Qed.
Lemma w_doc d : eser_doc d = Some (ser_doc (u_doc d)).
Proof. unfold eser_doc. rewrite (w_ok (B "browser") _ ser_path_and_args _ _ w_pa). reflexivity. Qed.
Ltac plainly := cbn [econcat]; repeat
  match goal with
  | |- context [esopt ?k (ok1 TomlBool) _] => rewrite (w_ok k TomlBool ser_vbool unlabelled) by reflexivity
  | |- context [esopt ?k (ok1 TomlStr) _] => rewrite (w_ok k TomlStr ser_vstr unlabelled) by reflexivity
  | |- context [esopt ?k (ok1 ser_n) _] => rewrite (w_ok k ser_n ser_vu32 unlabelled) by reflexivity
  | |- context [esopt ?k (ok1 ?f) _] => rewrite (w_ok k f (ser_value f) unlabelled) by reflexivity
  end; weave; try reflexivity.
Lemma w_future f : eser_future f = Some (ser_future (u_future f)).
Proof. unfold eser_future. plainly. Qed.
Lemma w_cargo_new f : eser_cargo_new f = Some (ser_cargo_new (u_cargo_new f)).
Proof. unfold eser_cargo_new. plainly. Qed.
Lemma w_http f : eser_http f = Some (ser_http (u_http f)).
Proof. unfold eser_http. plainly. Qed.
Lemma w_net f : eser_net f = Some (ser_net (u_net f)).
Proof. unfold eser_net. plainly. Qed.
Lemma w_registries f : eser_registries f = Some (ser_registries (u_registries f)).
Proof. unfold eser_registries. plainly. Qed.
Lemma w_registry f : eser_registry f = Some (ser_registry (u_registry f)).
Proof. unfold eser_registry. plainly. Qed.
Lemma w_progress f : eser_progress f = Some (ser_progress (u_progress f)).
Proof. unfold eser_progress. plainly. Qed.
Lemma uo_none {A} (o : option A) : is_none (uo o) = is_none o.
Proof. destruct o; reflexivity. Qed.
Lemma progress_unset p : eprogress_is_none p = progress_is_none (u_progress p).
Proof. unfold eprogress_is_none, progress_is_none. cbn. now rewrite !uo_none. Qed.
Lemma w_term f : eser_term f = Some (ser_term (u_term f)).
Proof.
  unfold eser_term. cbn [econcat].
  rewrite (w_skip (B "progress") _ progress_is_none _ ser_progress u_progress true);
    [|apply progress_unset|reflexivity|apply w_progress]. cbn [when_ok]. plainly.
Qed.

Lemma w_map {V X} (f : V -> option toml) (g : X -> toml) (h : V -> X) (q : V -> bool) m :
  (forall v, f v = when_ok (q v) (g (h v))) ->
  eser_map f m = when_ok (forallb (fun kv => q (snd kv)) m) (ser_map g (bmapv h m)).
Proof.
  intros E. unfold eser_map, ser_map.
  assert (K : ser_entries f m = when_ok (forallb (fun kv => q (snd kv)) m)
                (map (fun kv => (fst kv, g (snd kv))) (bmapv h m))).
  { induction m as [|[k v] m IH]; [reflexivity|]. cbn [ser_entries forallb snd fst bmapv map].
    rewrite IH, E. destruct (q v), (forallb _ m); reflexivity. }
  rewrite K. apply w_tab.
Qed.
Lemma forallb_true {A} (l : list A) : forallb (fun _ => true) l = true.
Proof. now induction l. Qed.
Lemma w_map1 {V X} (f : V -> option toml) (g : X -> toml) (h : V -> X) m :
  (forall v, f v = Some (g (h v))) -> eser_map f m = Some (ser_map g (bmapv h m)).
Proof.
  intros E. rewrite (w_map f g h (fun _ => true) m E). now rewrite forallb_true.
Qed.
Definition targets_ok (m : bmap etarget) : bool := forallb (fun kv => textual (et_linker (snd kv))) m.
Lemma w_targets m : eser_targets m = when_ok (targets_ok m) (ser_map ser_target (u_targets m)).
Proof.
  unfold eser_targets.
  pose proof (w_map eser_target ser_target u_target (fun t => textual (et_linker t))
                (map (fun kv => (lossy (fst kv), snd kv)) m) w_target) as K.
  unfold eser_map in K. rewrite K. unfold targets_ok, u_targets, bmapv. rewrite map_map. f_equal.
  clear. induction m as [|x m IH]; [reflexivity|]. cbn. now rewrite IH.
Qed.

Definition writes (c : econfig) (m : bmap etarget) : bool := (build_ok (ec_build c) && targets_ok m)%bool.
Lemma build_unset b : ebuild_is_none b = build_is_none (u_build b).
Proof.
  unfold ebuild_is_none, build_is_none. cbn. rewrite !uo_none. unfold uo. now rewrite !om_none.
Qed.
Lemma build_unset_ok b : ebuild_is_none b = true -> build_ok b = true.
Proof.
  unfold ebuild_is_none, build_ok. rewrite !andb_true_iff, !none_iff. intuition.
  all: repeat match goal with H : _ = None |- _ => rewrite H; clear H end; reflexivity.
Qed.
Lemma w_config c m : eser_config c m = when_ok (writes c m) (ser_config (u_config c m)).
Proof.
  unfold eser_config. cbn [econcat].
  rewrite (w_skip (B "alias") _ bis_empty _ (ser_map ser_string_list) (bmapv u_alias) true);
    [|symmetry; apply bmapv_empty|reflexivity|apply w_map1; intros v; unfold ok1; f_equal; apply w_strs].
  rewrite (w_skip (B "build") _ build_is_none _ ser_build u_build (build_ok (ec_build c)));
    [|apply build_unset|apply build_unset_ok|apply w_build].
  rewrite (w_skip (B "doc") _ doc_is_none _ ser_doc u_doc true);
    [|unfold doc_is_none; cbn; now rewrite om_none|reflexivity|apply w_doc].
  rewrite (w_skip (B "env") _ bis_empty _ (ser_map ser_env_config_value) (bmapv u_env) true);
    [|symmetry; apply bmapv_empty|reflexivity|apply w_map1; intros v; unfold ok1; f_equal; apply w_env].
  rewrite (w_skip (B "future-incompat-report") _ future_is_none _ ser_future u_future true);
    [|unfold future_is_none; cbn; now rewrite uo_none|reflexivity|apply w_future].
  rewrite (w_skip (B "cargo-new") _ cargo_new_is_none _ ser_cargo_new u_cargo_new true);
    [|unfold cargo_new_is_none; cbn; now rewrite uo_none|reflexivity|apply w_cargo_new].
  rewrite (w_skip (B "http") _ http_is_none _ ser_http u_http true);
    [|unfold http_is_none; cbn; now rewrite !uo_none|reflexivity|apply w_http].
  rewrite (w_skip (B "net") _ net_is_none _ ser_net u_net true);
    [|unfold net_is_none; cbn; now rewrite !uo_none|reflexivity|apply w_net].
  rewrite (w_skip (B "registries") _ bis_empty _ (ser_map ser_registries) (bmapv u_registries) true);
    [|symmetry; apply bmapv_empty|reflexivity|apply w_map1; exact w_registries].
  rewrite (w_skip (B "registry") _ registry_is_none _ ser_registry u_registry true);
    [|unfold registry_is_none; cbn; now rewrite !uo_none|reflexivity|apply w_registry].
  rewrite (w_skip (B "target") _ bis_empty _ (ser_map ser_target) u_targets (targets_ok m));
    [|now destruct m|now destruct m|apply w_targets].
  rewrite (w_skip (B "term") _ term_is_none _ ser_term u_term true);
    [|unfold term_is_none; cbn [tm_quiet u_term tm_verbose tm_color tm_progress]; now rewrite !uo_none, <- progress_unset|reflexivity|apply w_term].
  cbn [when_ok]. weave. rewrite w_tab. reflexivity.
Qed.

(** ** When it can be written *)
Lemma textual_iff o : textual o = true <-> forall p, o = Some p -> utf8 p.
Proof.
  destruct o as [p|]; cbn; [|split; [discriminate|reflexivity]]. rewrite utf8_valid_iff. split.
  - intros H q [= <-]. exact H.
  - intros H. now apply H.
Qed.
Lemma writes_iff c m : writes c m = true <-> paths_are_text c m.
Proof.
  unfold writes, build_ok, targets_ok, paths_are_text.
  rewrite !andb_true_iff, forallb_forall, !textual_iff. split.
  - intros ((H1 & H2 & H3 & H4 & H5 & H6) & H). split.
    + intros A k a. destruct k; cbn; auto.
    + intros t e p Hin. specialize (H _ Hin). rewrite textual_iff in H. apply H.
  - intros (H & H'). split.
    + repeat match goal with |- _ /\ _ => split end; intros p Hp.
      * exact (H _ BuildRustc p Hp).
      * exact (H _ BuildRustcWrapper p Hp).
      * exact (H _ BuildRustcWorkspaceWrapper p Hp).
      * exact (H _ BuildRustdoc p Hp).
      * exact (H _ BuildTargetDir p Hp).
      * exact (H _ BuildDepInfoBasedir p Hp).
    + intros [t e] Hin. rewrite textual_iff. intros p. exact (H' t e p Hin).
Qed.

(** ** Reading it back *)
Definition back (c : econfig) (m : bmap etarget) : config :=
  let x := a_config (u_config c m) in
  mkConfig (c_alias x) (c_build x) (c_doc x) (c_env x) (c_future_incompat_report x) (c_cargo_new x)
    (c_http x) (c_net x) (c_registries x) (c_registry x) (bfrom_list (bmapv a_target (u_targets m))) (c_term x).

Lemma any_map {V W} (f : toml -> option W) (s : V -> toml) (g : V -> W) m :
  (forall k v, In (k, v) m -> f (s v) = Some (g v)) ->
  de_map f (ser_map s m) = Some (bfrom_list (bmapv g m)).
Proof.
  intros G. unfold ser_map, de_map.
  assert (X : de_entries f (map (fun kv => (fst kv, s (snd kv))) m) = Some (bmapv g m)).
  { induction m as [|[k v] m IH]; [reflexivity|]. cbn [map de_entries fst snd].
    rewrite (G k v (or_introl eq_refl)), IH; [reflexivity|]. intros k' v' Hin. apply (G k' v'). now right. }
  rewrite X. reflexivity.
Qed.
Lemma fits_u32 (o : option N) : (forall n, o = Some n -> (n < 2 ^ 32)%N) -> u32_bounded (uo o).
Proof. intros H v. destruct o as [n|]; [|discriminate]. intros [= <-]. now apply H. Qed.
Lemma array_clean (o : option epath_and_args) : program_clean (option_map u_pa o).
Proof. intros p. destruct o; [|discriminate]. intros [= <-]. discriminate. Qed.
Lemma read_back c m :
  well_formed c -> fits c -> de_config (ser_config (u_config c m)) = Some (back c m).
Proof.
  intros (S1 & S2 & S3 & _) Bd. apply in_order_sorted in S1, S2, S3.
  unfold de_config, ser_config. cbn [as_fields].
  stepd ltac:(apply anon_map; [exact (bmapv_sorted _ _ S1)|]; intros k v Hv; apply anon_string_list;
              cbn [u_config c_alias] in Hv; rewrite bget_bmapv in Hv;
              destruct (bget k (ec_alias c)); [|discriminate]; injection Hv as <-; discriminate)
        ltac:(apply map_none).
  stepd ltac:(apply anon_build) ltac:(apply build_none).
  2:{ intros v. cbn. destruct (eb_jobs (ec_build c)) as [z|] eqn:E; [|discriminate]. intros [= <-].
      exact (Bd _ BuildJobs z E). }
  stepd ltac:(apply anon_doc; apply array_clean) ltac:(apply doc_none).
  stepd ltac:(apply anon_map; [exact (bmapv_sorted _ _ S2)|]; intros ? ? ?; apply anon_env) ltac:(apply map_none).
  stepd ltac:(apply anon_future) ltac:(apply future_none).
  stepd ltac:(apply anon_cargo_new) ltac:(apply cargo_new_none).
  stepd ltac:(apply anon_http; apply fits_u32; [exact (Bd _ HttpTimeout)|exact (Bd _ HttpLowSpeedLimit)]) ltac:(apply http_none).
  stepd ltac:(apply anon_net; apply fits_u32; exact (Bd _ NetRetry)) ltac:(apply net_none).
  stepd ltac:(apply anon_map; [exact (bmapv_sorted _ _ S3)|]; intros ? ? ?; apply anon_registries) ltac:(apply map_none).
  stepd ltac:(apply anon_registry) ltac:(apply registry_none).
  erewrite (fdef_back _ _ (B "target") _ (de_map de_target) (ser_map ser_target) bis_empty (u_targets m)
              (fun m => bfrom_list (bmapv a_target m))); [|find_it|apply any_map|].
  2:{ intros k v Hin. apply in_map_iff in Hin. destruct Hin as (x & [= <- <-] & _). apply anon_target, array_clean. }
  2:{ destruct (u_targets m); [reflexivity|discriminate]. }
  stepd ltac:(apply anon_term; apply fits_u32; exact (Bd _ TermProgressWidth)) ltac:(apply term_none).
  reflexivity.
Qed.

(** What it says. *)
Lemma anon_u {A} (o : option A) : oa (uo o) = option_map unlabelled o.
Proof. destruct o; reflexivity. Qed.
Lemma anon_words_u l : map anonymous (u_words l) = map unlabelled l.
Proof. unfold u_words. rewrite map_map. reflexivity. Qed.
Lemma array_eq l : array_of eq l (AsArray, map anonymous (u_words l)).
Proof. exists l. rewrite anon_words_u. split; [|reflexivity]. induction l; constructor; auto. Qed.
Lemma array_lossy l : array_of repaired l (AsArray, map anonymous (u_words (map lossy l))).
Proof.
  exists (map lossy l). rewrite anon_words_u. split; [|reflexivity].
  induction l; constructor; auto. apply lossy_repaired.
Qed.
Lemma says_pa (o : option epath_and_args) :
  both (fun p => array_of repaired (command_words p)) o
    (option_map program_words (option_map a_program (option_map u_pa o))).
Proof. destruct o as [p|]; [|exact I]. exact (array_lossy (command_words p)). Qed.
Lemma says_flags (o : option eflags) :
  both (fun f => array_of eq (ef_flags f)) o
    (option_map flags_words (option_map a_flags (option_map u_flags o))).
Proof. destruct o as [p|]; [|exact I]. exact (array_eq (ef_flags p)). Qed.

Lemma back_settings c m : says_settings c (back c m).
Proof.
  unfold says_settings. repeat match goal with |- _ /\ _ => split end.
  - intros A k F. destruct k; try discriminate F; cbn [look back easy_look]; try apply anon_u;
      cbn; rewrite under_bmapv, under_bmapv; apply under_map; intros v; apply anon_u.
  - intros k F. destruct k; try discriminate F; cbn [look_list back easy_words].
    + cbn. rewrite under_bmapv, under_bmapv. unfold under. destruct (bget name (ec_alias c)); [apply array_eq|exact I].
    + cbn. destruct (eb_target (ec_build c)) as [l|]; [|exact I]. cbn.
      pose proof (array_lossy (map cli_target l)) as K. rewrite map_map in K. exact K.
    + cbn. destruct (eb_rustflags (ec_build c)) as [l|]; [|exact I]. apply array_eq.
    + cbn. destruct (eb_rustdocflags (ec_build c)) as [l|]; [|exact I]. apply array_eq.
  - exact (says_pa (ed_browser (ec_doc c))).
  - intros n. cbn. rewrite under_bmapv, under_bmapv. unfold under. destruct (bget n (ec_env c)) as [e|]; [|exact I].
    cbn. exists (lossy (ee_value e)). split; [apply lossy_repaired|]. unfold u_env.
    destruct (ee_force e || ee_relative e)%bool; reflexivity.
  - intros n. cbn. rewrite !under_bmapv. unfold under. destruct (bget n (ec_env c)) as [e|]; [|now split].
    unfold u_env. destruct (ee_force e), (ee_relative e); split; reflexivity.
  - intros n. cbn. rewrite !bget_bmapv. unfold is_some.
    destruct (bget n (ec_alias c)), (bget n (ec_env c)), (bget n (ec_registries c)); repeat split.
Qed.

Lemma names_distinct (m : bmap etarget) : told_apart m -> NoDup (map fst (bmapv a_target (u_targets m))).
Proof.
  intros T. unfold bmapv, u_targets. rewrite !map_map. cbn [fst].
  induction m as [|[t e] m IH]; cbn; constructor.
  - intros Hin. apply in_map_iff in Hin. destruct Hin as ([u e'] & E & Hin). cbn in E.
    apply in_split in Hin. destruct Hin as (x & y & ->).
    apply (T [] t e x u e' y (lossy t)); [reflexivity|apply lossy_repaired|]. rewrite <- E. apply lossy_repaired.
  - apply IH. intros a u e1 b v e2 d n ->. exact (T ((t, e) :: a) u e1 b v e2 d n eq_refl).
Qed.
Lemma back_targets c m : told_apart m -> says_targets m (back c m).
Proof.
  intros T. pose proof (names_distinct m T) as N. split.
  - intros t e n Hin R. apply lossy_iff in R. subst n.
    assert (G : bget (lossy t) (c_target (back c m)) = Some (a_target (u_target e))).
    { apply bget_from_list; [exact N|]. unfold bmapv. apply in_map_iff. exists (lossy t, u_target e).
      split; [reflexivity|]. apply in_map_iff. exists (t, e). now split. }
    unfold says_target. cbn [has_entry look look_program look_list]. unfold under. rewrite G.
    repeat match goal with |- _ /\ _ => split end.
    + reflexivity.
    + apply anon_u.
    + apply (says_pa (et_runner e)).
    + apply (says_flags (et_rustflags e)).
    + apply (says_flags (et_rustdocflags e)).
  - intros n H. cbn [has_entry] in H. destruct (bget n (c_target (back c m))) as [v|] eqn:G; [|discriminate].
    apply bget_in in G. apply from_list_in in G. unfold bmapv, u_targets in G. rewrite map_map in G.
    apply in_map_iff in G. destruct G as ([t e] & [= <- _] & Hin). exists t, e.
    split; [exact Hin|apply lossy_repaired].
Qed.

(** ** Nothing to write *)
Lemma uo_none_iff {A} (o : option A) : uo o = None <-> o = None.
Proof. destruct o; cbn; split; congruence. Qed.
Lemma om_none_iff {A X} (f : A -> X) o : option_map f o = None <-> o = None.
Proof. destruct o; cbn; split; congruence. Qed.
Lemma u_look c m A (k : scalar_key A) : field k = true -> look k (u_config c m) = uo (easy_look k c).
Proof.
  intros F. destruct k; try discriminate F; try reflexivity;
    cbn; rewrite under_bmapv; apply under_map; reflexivity.
Qed.
Lemma nothing_blank c m : nothing_set (u_config c m) <-> blank_settings c /\ m = [].
Proof.
  split.
  - intros (H1 & H2 & H3 & H4). split; [split; [|split; [|split]]|].
    + intros A k. destruct (field k) eqn:F; [|destruct k; try discriminate F; reflexivity].
      specialize (H1 A k). rewrite u_look in H1 by assumption. exact (proj1 (uo_none_iff _) H1).
    + intros k. specialize (H2 k). destruct k; cbn in *; try reflexivity.
      * rewrite under_bmapv in H2. unfold under in H2. destruct (bget name (ec_alias c)); [discriminate|reflexivity].
      * destruct (eb_target (ec_build c)); [discriminate|reflexivity].
      * destruct (eb_rustflags (ec_build c)); [discriminate|reflexivity].
      * destruct (eb_rustdocflags (ec_build c)); [discriminate|reflexivity].
    + specialize (H3 DocBrowser). cbn in H3. destruct (ed_browser (ec_doc c)); [discriminate|reflexivity].
    + intros n. assert (Ha := H4 (AliasEntry n)). assert (He := H4 (EnvEntry n)). assert (Hr := H4 (RegistriesEntry n)).
      cbn in *. rewrite bget_bmapv in Ha. rewrite bget_bmapv in He. rewrite bget_bmapv in Hr.
      destruct (bget n (ec_alias c)), (bget n (ec_env c)), (bget n (ec_registries c)); try discriminate. repeat split.
    + destruct m as [|[t e] m]; [reflexivity|]. specialize (H4 (TargetEntry (lossy t))). cbn in H4.
      now rewrite str_eqb_refl in H4.
  - intros ((H1 & H2 & H3 & H4) & ->).
    assert (En : forall n, bget n (ec_env c) = None).
    { intros n. destruct (H4 n) as (_ & H & _). cbn in H. now destruct (bget n (ec_env c)). }
    assert (Rn : forall n, bget n (ec_registries c) = None).
    { intros n. destruct (H4 n) as (_ & _ & H). cbn in H. now destruct (bget n (ec_registries c)). }
    assert (An : forall n, bget n (ec_alias c) = None).
    { intros n. destruct (H4 n) as (H & _ & _). cbn in H. now destruct (bget n (ec_alias c)). }
    split; [|split; [|split]].
    + intros A k. destruct (field k) eqn:F; [rewrite u_look by assumption; now rewrite H1|].
      destruct k; try discriminate F; cbn; try reflexivity; rewrite under_bmapv; unfold under; now rewrite En.
    + intros k. specialize (H2 k). destruct k; cbn in *; try reflexivity.
      * rewrite under_bmapv. unfold under. now rewrite An.
      * now destruct (eb_target (ec_build c)).
      * now destruct (eb_rustflags (ec_build c)).
      * now destruct (eb_rustdocflags (ec_build c)).
    + intros k. destruct k; cbn; [|reflexivity]. now rewrite H3.
    + intros k. destruct k; cbn; rewrite ?bget_bmapv, ?En, ?Rn, ?An; reflexivity.
Qed.
Lemma empty_written c m : eser_config c m = Some (TomlTab []) <-> blank_settings c /\ m = [].
Proof.
  rewrite w_config, <- nothing_blank. unfold when_ok. split.
  - destruct (writes c m); [|discriminate]. intros E. apply empty_iff. congruence.
  - intros N. assert (W : writes c m = true).
    { apply writes_iff. apply nothing_blank in N. destruct N as ((N & _) & ->). split; [|intros ? ? ? []].
      intros A k a E. rewrite N in E. discriminate. }
    rewrite W. f_equal. now apply empty_iff.
Qed.

(** ** What does not matter *)
Definition hidden_of (a b : econfig) : econfig :=
  let x := ec_build a in let y := ec_build b in
  mkEconfig (ec_alias b)
    (mkEbuild (eb_jobs y) (eb_rustc y) (eb_rustc_wrapper y) (eb_rustc_workspace_wrapper y) (eb_rustdoc y)
       (eb_target y) (eb_target_dir y) (eb_rustflags y) (eb_rustdocflags y) (eb_incremental y)
       (eb_dep_info_basedir y) (eb_override_target_rustflags x) (eb_de_rustflags x)
       (eb_override_target_rustdocflags x) (eb_de_rustdocflags x))
    (ec_doc b) (ec_env b) (ec_future_incompat_report b) (ec_cargo_new b)
    (ec_http b) (ec_net b) (ec_registries b) (ec_registry b) (ec_de_target a) (ec_term b) (ec_cx a).
Lemma shown_same a b m : well_formed a -> well_formed b -> same_shown a b -> eser_config a m = eser_config b m.
Proof.
  intros Wa Wb (H1 & H2 & H3 & H4 & H5).
  change (eser_config b m) with (eser_config (hidden_of a b) m). f_equal.
  apply settings_complete; [exact Wa|exact Wb| |repeat split].
  split; [|split; [|split; [|split]]].
  - intros A k. rewrite H1. destruct k; reflexivity.
  - intros k. rewrite H2. destruct k; reflexivity.
  - exact H3.
  - exact H4.
  - intros k. destruct k; [|cbn; now rewrite H4|exact (H5 name)|reflexivity].
    specialize (H2 (Alias name)). cbn in *. destruct (bget name (ec_alias a)), (bget name (ec_alias b)); try discriminate; reflexivity.
Qed.

(** ** What is loaded *)
Lemma load_fits f p cwd o ec :
  (forall e, o_env o = Some e -> one_value_each e) -> easy_load_with_options f p cwd o = Ok ec -> fits ec.
Proof.
  intros N H. apply bind_okk in H as (c & Hc & H). unfold load_with_options in Hc.
  pose proof (load_storable _ _ _ Hc) as St.
  destruct (from_unresolved_ok c _ ec H) as (de & Ha & _).
  assert (N' : one_value_each (cx_env (into_context p o cwd))).
  { apply (environment_cx p o cwd _ (environment_ex p o cwd N)). }
  destruct (apply_env_storable _ _ _ N' St Ha) as (_ & Bd & _).
  destruct (from_unresolved_fields c _ de ec H Ha) as (K & _).
  intros A k a E. destruct (field k) eqn:F; [|destruct k; try discriminate F; exact I].
  specialize (K A k F). rewrite E in K. specialize (Bd A k).
  destruct (look k de) as [v|]; [|destruct K]. specialize (Bd v eq_refl).
  destruct k; try exact I; cbn in K; subst a; exact Bd.
Qed.

(** ** The targets that were asked about *)
Definition orderly (s s' : state) : Prop := sorted (s_target s) -> sorted (s_target s').
Lemma queries_orderly pr w c qs s : orderly s (run_queries pr w c qs s).
Proof.
  apply (queries_move orderly) with (P := fun _ => True); unfold orderly.
  - auto.
  - auto.
  - auto.
  - auto.
  - auto.
  - auto.
  - auto.
  - auto.
  - auto.
  - intros s0 t r s1 e _ _ _ _ K S. cbn. apply binsert_sorted. auto.
  - apply Forall_forall. intros q _. destruct q; cbn; auto; intros t _; exact I.
Qed.
Lemma reached_in_order pr w c s : reached pr w c s -> in_order (s_target s).
Proof.
  intros (qs & _ & ->). apply in_order_sorted, queries_orderly. constructor.
Qed.
Lemma asked_shown pr w c q a t s x s' :
  target_query q a -> to_triple a = Ok t -> run_query pr w c q s = (Ok x, s') ->
  exists e, bget (cli_target t) (s_target s') = Some e /\ x = part_of q e.
Proof.
  intros Q Ht H. rewrite (target_query_run _ _ _ _ _ _ Q), bindM_eq in H. unfold q_target in H.
  rewrite bind_lift, Ht in H. unfold q_target_of in H. rewrite bindM_eq in H.
  destruct (init_target_config pr w c t s) as [[[]|e|p] s1]; [|discriminate|discriminate].
  rewrite bindM_eq in H. cbn [get] in H. destruct (bget (cli_target t) (s_target s1)) as [e|] eqn:E; [|discriminate].
  exists e. cbn in H. injection H as <- <-. split; [exact E|].
  destruct Q as [-> | [-> | [-> | [-> | -> ]]]]; reflexivity.
Qed.
