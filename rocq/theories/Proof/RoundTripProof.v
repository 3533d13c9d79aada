(** Writing a configuration and reading it back. *)
From Verif.Model Require Import Base Str Path BMap Error Value De Merge SetPath Serde Load Context ApplyEnv.
From Verif.Spec Require Import StrSpec FlagsSpec ConfigSpec EnvSpec LoadSpec SerdeSpec.
From Verif.Proof Require Import StrFacts BMapFacts MergeProof LoadProof FlagsProof EnvTextProof EnvProof
  EnvVarsProof SerdeProof SerdeDocProof.
From Coq Require Import Lia.

#[local] Arguments B : simpl never.

(** ** Looking up written keys *)
Lemma tget_opt_eq {A} k (f : A -> toml) o r :
  tget k r = None -> tget k (sopt k f o ++ r) = option_map f o.
Proof. intros E. destruct o; cbn; [now rewrite str_eqb_refl|exact E]. Qed.
Lemma tget_opt_neq {A} k k' (f : A -> toml) o r :
  str_eqb k k' = false -> tget k (sopt k' f o ++ r) = tget k r.
Proof. intros E. destruct o; cbn; [now rewrite E|reflexivity]. Qed.
Lemma tget_skip_eq {A} k s (f : A -> toml) a r :
  tget k r = None -> tget k (sskip k s f a ++ r) = if s a then None else Some (f a).
Proof. intros E. unfold sskip. destruct (s a); cbn; [exact E|now rewrite str_eqb_refl]. Qed.
Lemma tget_skip_neq {A} k k' s (f : A -> toml) a r :
  str_eqb k k' = false -> tget k (sskip k' s f a ++ r) = tget k r.
Proof. intros E. unfold sskip. destruct (s a); cbn; [reflexivity|now rewrite E]. Qed.

Lemma fopt_back {A X} l i k (f : toml -> option X) (s : A -> toml) (g : A -> X) o :
  tget k l = option_map s o -> (forall a, o = Some a -> f (s a) = Some (g a)) ->
  fopt (FMap l) i k f = Some (option_map g o).
Proof.
  intros E H. unfold fopt. rewrite E. destruct o as [a|]; cbn; [|reflexivity].
  now rewrite (H a eq_refl).
Qed.
Lemma fdef_back {A} l i k d (f : toml -> option A) (s : A -> toml) (skip : A -> bool) a g :
  tget k l = (if skip a then None else Some (s a)) ->
  f (s a) = Some (g a) -> (skip a = true -> g a = d) ->
  fdef (FMap l) i k d f = Some (g a).
Proof.
  intros E H N. unfold fdef. rewrite E. destruct (skip a); [now rewrite N|exact H].
Qed.

Ltac look_on :=
  repeat first [rewrite tget_opt_neq by reflexivity | rewrite tget_skip_neq by reflexivity].
Ltac find_it :=
  match goal with
  | |- tget ?k ?l = _ => rewrite <- (app_nil_r l); rewrite <- ?app_assoc
  end;
  look_on; first [apply tget_opt_eq | apply tget_skip_eq]; look_on; reflexivity.

(** ** Leaves *)
Lemma anon_str v : de_vstr (ser_vstr v) = Some (anonymous v).
Proof. reflexivity. Qed.
Lemma anon_bool v : de_vbool (ser_vbool v) = Some (anonymous v).
Proof. reflexivity. Qed.
Lemma anon_i32 v : (- 2 ^ 31 <= val v < 2 ^ 31)%Z -> de_value de_i32 (ser_value TomlInt v) = Some (anonymous v).
Proof. intros H. apply de_vi32_iff. exists (val v). now split. Qed.
Lemma anon_u32 v : (val v < 2 ^ 32)%N -> de_vu32 (ser_vu32 v) = Some (anonymous v).
Proof. intros H. apply de_vu32_iff. exists (val v). now split. Qed.
Lemma anon_vcs v :
  de_value (de_enum (variant_named vcs_variants)) (ser_value (fun x => ser_variant (vcs_variant x)) v)
  = Some (anonymous v).
Proof. destruct v as [[] d]; reflexivity. Qed.
Lemma anon_protocol v :
  de_value (de_enum (variant_named protocol_variants)) (ser_value (fun x => ser_variant (protocol_variant x)) v)
  = Some (anonymous v).
Proof. destruct v as [[] d]; reflexivity. Qed.
Lemma anon_color v :
  de_value (de_enum (variant_named color_variants)) (ser_value (fun x => ser_variant (color_variant x)) v)
  = Some (anonymous v).
Proof. destruct v as [[] d]; reflexivity. Qed.
Lemma anon_when v :
  de_value (de_enum (variant_named when_variants)) (ser_value (fun x => ser_variant (when_variant x)) v)
  = Some (anonymous v).
Proof. destruct v as [[] d]; reflexivity. Qed.
Lemma anon_frequency v :
  de_value (de_enum (variant_named frequency_variants)) (ser_value (fun x => ser_variant (frequency_variant x)) v)
  = Some (anonymous v).
Proof. destruct v as [[] d]; reflexivity. Qed.

Lemma de_list_back l : de_list de_vstr (map ser_vstr l) = Some (map anonymous l).
Proof. induction l as [|v l IH]; [reflexivity|]. cbn [map de_list]. rewrite anon_str, IH. reflexivity. Qed.

Definition a_flags (f : flags) : flags := mkFlags (map anonymous (fl_flags f)) ReprArray.
Lemma anon_flags f : de_flags (ser_flags f) = Some (a_flags f).
Proof. unfold de_flags, ser_flags, de_soa. rewrite de_list_back. reflexivity. Qed.
Definition a_soa (s : string_or_array) : string_or_array :=
  match s with SoaString v => SoaString (anonymous v) | SoaArray l => SoaArray (map anonymous l) end.
Lemma anon_soa s : de_soa (ser_soa s) = Some (a_soa s).
Proof. destruct s; [reflexivity|]. cbn [ser_soa de_soa]. rewrite de_list_back. reflexivity. Qed.

Lemma split_clean l : Forall clean_word l -> split_space_separated (intercalate space (map val l)) = map val l.
Proof.
  intros H. symmetry. apply space_words_iff. destruct l as [|w l].
  - exists [[]]. split; [discriminate|]. split; [constructor; [easy|constructor]|]. split; [reflexivity|].
    apply words_skip; [|constructor]. exists [], []. repeat split; try constructor.
    + intros c r Hc E. destruct c; [|discriminate]. revert Hc. vm_compute. intuition discriminate.
    + intros c r Hc E. symmetry in E. apply app_eq_nil in E. destruct E as [_ ->].
      revert Hc. vm_compute. intuition discriminate.
  - exists (map val (w :: l)). split; [discriminate|]. split; [|split; [reflexivity|]].
    + rewrite Forall_map. eapply Forall_impl; [|exact H]. now intros a (_ & F & _).
    + apply words_id_iff. rewrite Forall_map. eapply Forall_impl; [|exact H]. intros a (N & _ & T). now split.
Qed.
Lemma anon_vals (l : list word) : map (fun s => mkValue s None) (map val l) = map anonymous l.
Proof. rewrite map_map. reflexivity. Qed.

Lemma inter_glue sep p w r : intercalate sep ((p ++ sep :: w) :: r) = intercalate sep (p :: w :: r).
Proof. destruct r as [|x r]; cbn [intercalate]; [reflexivity|]. now rewrite <- app_assoc. Qed.
Lemma join_program l p :
  fold_left (fun s a => s ++ sp :: val a) l p = intercalate space (p :: map val l).
Proof.
  revert p. induction l as [|w l IH]; intros p; [reflexivity|]. cbn [fold_left map]. rewrite IH.
  apply inter_glue.
Qed.
Lemma join_string_list_from l s :
  s <> [] ->
  fold_left (fun s a => (if is_empty s then s else s ++ [sp]) ++ val a) l s = intercalate space (s :: map val l).
Proof.
  revert s. induction l as [|w l IH]; intros s N; [reflexivity|]. cbn [fold_left map].
  destruct (is_empty s) eqn:E; [apply is_empty_true in E; contradiction|].
  rewrite IH by (destruct s; [easy|discriminate]). rewrite <- app_assoc. apply inter_glue.
Qed.
Lemma join_string_list l :
  Forall clean_word l ->
  fold_left (fun s a => (if is_empty s then s else s ++ [sp]) ++ val a) l [] = intercalate space (map val l).
Proof.
  destruct l as [|w l]; [reflexivity|]. intros H. inversion H as [|x y [N _] _]; subst. cbn [fold_left map is_empty].
  apply join_string_list_from. exact N.
Qed.

Definition a_program (p : path_and_args) : path_and_args :=
  mkPathAndArgs (anonymous (pa_path p)) (map anonymous (pa_args p)) (pa_repr p).
Lemma anon_program p :
  (pa_repr p = ReprString -> Forall clean_word (pa_path p :: pa_args p)) ->
  de_path_and_args (ser_path_and_args p) = Some (a_program p).
Proof.
  intros H. unfold ser_path_and_args, a_program. destruct p as [p a []]; cbn [pa_repr pa_path pa_args] in *.
  - cbn [de_path_and_args]. rewrite join_program. specialize (H eq_refl). apply split_clean in H.
    unfold pa_from_string. change (val p :: map val a) with (map val (p :: a)). rewrite H.
    cbn [map]. rewrite <- anon_vals. reflexivity.
  - cbn [de_path_and_args]. change (TomlStr (val p) :: map ser_vstr a) with (map ser_vstr (p :: a)).
    rewrite de_list_back. reflexivity.
Qed.
Definition a_string_list (s : string_list) : string_list := mkStringList (map anonymous (sl_list s)) (sl_repr s).
Lemma anon_string_list s :
  (sl_repr s = ReprString -> Forall clean_word (sl_list s)) ->
  de_string_list (ser_string_list s) = Some (a_string_list s).
Proof.
  intros H. unfold ser_string_list, a_string_list, de_string_list. destruct s as [l []]; cbn [sl_repr sl_list] in *.
  - rewrite (join_string_list l (H eq_refl)). cbn [de_soa]. unfold sl_from_string. cbn [val def].
    rewrite (split_clean l (H eq_refl)), <- anon_vals. reflexivity.
  - cbn [de_soa]. rewrite de_list_back. reflexivity.
Qed.
Definition a_env (e : env_config_value) : env_config_value :=
  match e with
  | EnvValue v => EnvValue (anonymous v)
  | EnvTable v f r => EnvTable (anonymous v) (option_map anonymous f) (option_map anonymous r)
  end.
Lemma anon_env e : de_env_config_value (ser_env_config_value e) = Some (a_env e).
Proof. destruct e as [v|v [f|] [r|]]; reflexivity. Qed.

(** ** Sections *)
Ltac back := eapply fopt_back; [find_it|].
Ltac step lem :=
  match goal with
  | |- match fopt (FMap ?l) ?i ?k ?f with Some _ => _ | None => None end = _ =>
      erewrite (fopt_back l i k f); [|find_it|intros ? ?; lem]
  end.

Definition oa {A} := option_map (@anonymous A).
Definition a_target (t : target_config) : target_config :=
  mkTarget (oa (t_linker t)) (option_map a_program (t_runner t)) (option_map a_flags (t_rustflags t))
    (option_map a_flags (t_rustdocflags t)).
Definition program_clean (o : option path_and_args) : Prop :=
  forall p, o = Some p -> pa_repr p = ReprString -> Forall clean_word (pa_path p :: pa_args p).
Lemma anon_target t : program_clean (t_runner t) -> de_target (ser_target t) = Some (a_target t).
Proof.
  intros P. unfold de_target, ser_target. cbn [as_fields].
  step ltac:(apply anon_str). step ltac:(apply anon_program; now apply P).
  step ltac:(apply anon_flags). step ltac:(apply anon_flags). reflexivity.
Qed.
Definition u32_bounded (o : option (value N)) : Prop := forall v, o = Some v -> (val v < 2 ^ 32)%N.
Definition i32_bounded (o : option (value Z)) : Prop :=
  forall v, o = Some v -> (- 2 ^ 31 <= val v < 2 ^ 31)%Z.
Ltac text := step ltac:(apply anon_str).
Ltac yesno := step ltac:(apply anon_bool).
Ltac num P := step ltac:(apply anon_u32; now apply P).

Definition a_build (b : build_config) : build_config :=
  mkBuild (oa (b_jobs b)) (oa (b_rustc b)) (oa (b_rustc_wrapper b)) (oa (b_rustc_workspace_wrapper b))
    (oa (b_rustdoc b)) (option_map a_soa (b_target b)) (oa (b_target_dir b))
    (option_map a_flags (b_rustflags b)) (option_map a_flags (b_rustdocflags b))
    (oa (b_incremental b)) (oa (b_dep_info_basedir b)) false false.
Lemma anon_build b : i32_bounded (b_jobs b) -> de_build (ser_build b) = Some (a_build b).
Proof.
  intros J. unfold de_build, ser_build. cbn [as_fields].
  step ltac:(apply anon_i32; now apply J). text. text. text. text. step ltac:(apply anon_soa). text.
  step ltac:(apply anon_flags). step ltac:(apply anon_flags). yesno. text. reflexivity.
Qed.
Definition a_doc (d : doc_config) : doc_config := mkDoc (option_map a_program (d_browser d)).
Lemma anon_doc d : program_clean (d_browser d) -> de_doc (ser_doc d) = Some (a_doc d).
Proof.
  intros P. unfold de_doc, ser_doc. cbn [as_fields]. step ltac:(apply anon_program; now apply P). reflexivity.
Qed.
Definition a_future (f : future_incompat) : future_incompat := mkFuture (oa (f_frequency f)).
Lemma anon_future f : de_future (ser_future f) = Some (a_future f).
Proof. unfold de_future, ser_future. cbn [as_fields]. step ltac:(apply anon_frequency). reflexivity. Qed.
Definition a_cargo_new (c : cargo_new) : cargo_new := mkCargoNew (oa (cn_vcs c)).
Lemma anon_cargo_new f : de_cargo_new (ser_cargo_new f) = Some (a_cargo_new f).
Proof. unfold de_cargo_new, ser_cargo_new. cbn [as_fields]. step ltac:(apply anon_vcs). reflexivity. Qed.
Definition a_http (h : http_config) : http_config :=
  mkHttp (oa (h_debug h)) (oa (h_proxy h)) (oa (h_timeout h)) (oa (h_cainfo h)) (oa (h_check_revoke h))
    (oa (h_low_speed_limit h)) (oa (h_multiplexing h)) (oa (h_user_agent h)).
Lemma anon_http h :
  u32_bounded (h_timeout h) -> u32_bounded (h_low_speed_limit h) -> de_http (ser_http h) = Some (a_http h).
Proof.
  intros P1 P2. unfold de_http, ser_http. cbn [as_fields].
  yesno. text. num P1. text. yesno. num P2. yesno. text. reflexivity.
Qed.
Definition a_net (n : net_config) : net_config :=
  mkNet (oa (n_retry n)) (oa (n_git_fetch_with_cli n)) (oa (n_offline n)).
Lemma anon_net n : u32_bounded (n_retry n) -> de_net (ser_net n) = Some (a_net n).
Proof. intros P. unfold de_net, ser_net. cbn [as_fields]. num P. yesno. yesno. reflexivity. Qed.
Definition a_registries (r : registries_value) : registries_value :=
  mkRegistries (oa (r_index r)) (oa (r_token r)) (oa (r_protocol r)).
Lemma anon_registries r : de_registries (ser_registries r) = Some (a_registries r).
Proof.
  unfold de_registries, ser_registries. cbn [as_fields]. text. text. step ltac:(apply anon_protocol). reflexivity.
Qed.
Definition a_registry (r : registry_config) : registry_config := mkRegistry (oa (rg_default r)) (oa (rg_token r)).
Lemma anon_registry r : de_registry (ser_registry r) = Some (a_registry r).
Proof. unfold de_registry, ser_registry. cbn [as_fields]. text. text. reflexivity. Qed.
Definition a_progress (p : term_progress) : term_progress := mkProgress (oa (p_when p)) (oa (p_width p)).
Lemma anon_progress p : u32_bounded (p_width p) -> de_progress (ser_progress p) = Some (a_progress p).
Proof.
  intros P. unfold de_progress, ser_progress. cbn [as_fields]. step ltac:(apply anon_when). num P. reflexivity.
Qed.
Definition a_term (t : term_config) : term_config :=
  mkTerm (oa (tm_quiet t)) (oa (tm_verbose t)) (oa (tm_color t)) (a_progress (tm_progress t)).

Ltac none_of H :=
  repeat match type of H with
         | (_ && _)%bool = true => let H' := fresh in apply andb_prop in H; destruct H as [H H']; none_of H'
         end;
  try match type of H with
      | is_none ?o = true => destruct o; [discriminate H|]
      end.
Ltac stepd lem d :=
  match goal with
  | |- match fdef (FMap ?l) ?i ?k ?dd ?f with Some _ => _ | None => None end = _ =>
      erewrite (fdef_back l i k dd f); [|find_it|lem|d]
  end.
Lemma progress_none p : progress_is_none p = true -> a_progress p = progress_default.
Proof. unfold progress_is_none, a_progress. intros H. none_of H. reflexivity. Qed.
Lemma build_none b : build_is_none b = true -> a_build b = build_default.
Proof. unfold build_is_none, a_build. intros H. none_of H. reflexivity. Qed.
Lemma doc_none d : doc_is_none d = true -> a_doc d = doc_default.
Proof. unfold doc_is_none, a_doc. intros H. none_of H. reflexivity. Qed.
Lemma future_none d : future_is_none d = true -> a_future d = future_default.
Proof. unfold future_is_none, a_future. intros H. none_of H. reflexivity. Qed.
Lemma cargo_new_none d : cargo_new_is_none d = true -> a_cargo_new d = cargo_new_default.
Proof. unfold cargo_new_is_none, a_cargo_new. intros H. none_of H. reflexivity. Qed.
Lemma http_none h : http_is_none h = true -> a_http h = http_default.
Proof. unfold http_is_none, a_http. intros H. none_of H. reflexivity. Qed.
Lemma net_none h : net_is_none h = true -> a_net h = net_default.
Proof. unfold net_is_none, a_net. intros H. none_of H. reflexivity. Qed.
Lemma registry_none h : registry_is_none h = true -> a_registry h = registry_default.
Proof. unfold registry_is_none, a_registry. intros H. none_of H. reflexivity. Qed.
Lemma term_none h : term_is_none h = true -> a_term h = term_default.
Proof.
  unfold term_is_none, a_term. intros H. apply andb_prop in H. destruct H as [H P].
  rewrite (progress_none _ P). none_of H. reflexivity.
Qed.
Lemma anon_term t : u32_bounded (p_width (tm_progress t)) -> de_term (ser_term t) = Some (a_term t).
Proof.
  intros P. unfold de_term, ser_term. cbn [as_fields]. yesno. yesno. step ltac:(apply anon_color).
  stepd ltac:(now apply anon_progress) ltac:(apply progress_none). reflexivity.
Qed.

(** ** Tables of entries *)
Lemma sorted_from_list {V} (m : bmap V) : sorted m -> bfrom_list m = m.
Proof.
  intros S. apply sorted_ext; [apply bfrom_list_sorted|exact S|]. intros k.
  assert (N : NoDup (map fst m)).
  { clear k. induction S as [|x m S IH F]; cbn; constructor; [|exact IH].
    intros H. apply in_map_iff in H. destruct H as (y & E & H).
    rewrite Forall_forall in F. specialize (F _ H). unfold lt_key in F. rewrite E, str_cmp_refl in F. discriminate. }
  destruct (bget k (bfrom_list m)) as [v|] eqn:E.
  - apply (bget_from_list _ _ _ N) in E. symmetry. now apply sorted_in_bget.
  - destruct (bget k m) as [v|] eqn:E'; [|reflexivity]. apply bget_in, (bget_from_list _ _ _ N) in E'. congruence.
Qed.
Lemma anon_map {V} (f : toml -> option V) (s : V -> toml) (g : V -> V) m :
  sorted m -> (forall k v, bget k m = Some v -> f (s v) = Some (g v)) ->
  de_map f (ser_map s m) = Some (bmapv g m).
Proof.
  intros S H. assert (G : forall k v, In (k, v) m -> f (s v) = Some (g v))
    by (intros k v Hin; apply (H k v); now apply sorted_in_bget).
  unfold ser_map, de_map.
  assert (X : de_entries f (map (fun kv => (fst kv, s (snd kv))) m) = Some (bmapv g m)).
  { clear S H. induction m as [|[k v] m IH]; [reflexivity|]. cbn [map de_entries fst snd].
    rewrite (G k v (or_introl eq_refl)), IH; [reflexivity|]. intros k' v' Hin. apply (G k' v'). now right. }
  rewrite X. cbn. f_equal. apply sorted_from_list. now apply bmapv_sorted.
Qed.
Lemma map_none {V} (g : V -> V) m : bis_empty m = true -> bmapv g m = [].
Proof. now destruct m. Qed.

Definition a_config (c : config) : config :=
  mkConfig (bmapv a_string_list (c_alias c)) (a_build (c_build c)) (a_doc (c_doc c))
    (bmapv a_env (c_env c)) (a_future (c_future_incompat_report c)) (a_cargo_new (c_cargo_new c))
    (a_http (c_http c)) (a_net (c_net c)) (bmapv a_registries (c_registries c))
    (a_registry (c_registry c)) (bmapv a_target (c_target c)) (a_term (c_term c)).

Lemma clean_alias c n s :
  storable c -> bget n (c_alias c) = Some s -> sl_repr s = ReprString -> Forall clean_word (sl_list s).
Proof.
  intros (_ & _ & H & _) E R. apply (H n). cbn [look_list]. unfold under. rewrite E, R. reflexivity.
Qed.
Lemma clean_program c k (o : option path_and_args) :
  storable c -> look_program k c = option_map program_words o -> program_clean o.
Proof.
  intros (_ & _ & _ & H) E p -> R. apply (H k). rewrite E. cbn [option_map]. unfold program_words. now rewrite R.
Qed.

Lemma anon_config c : storable c -> de_config (ser_config c) = Some (a_config c).
Proof.
  intros St. pose proof St as (T & Bd & _). apply tables_in_order_sorted in T. destruct T as (S1 & S2 & S3 & S4).
  unfold de_config, ser_config. cbn [as_fields].
  stepd ltac:(apply anon_map; [exact S1|]; intros ? ? ?; apply anon_string_list; eapply clean_alias; eassumption)
        ltac:(apply map_none).
  stepd ltac:(apply anon_build; exact (Bd _ BuildJobs)) ltac:(apply build_none).
  stepd ltac:(apply anon_doc; now apply (clean_program c DocBrowser)) ltac:(apply doc_none).
  stepd ltac:(apply anon_map; [exact S2|]; intros ? ? ?; apply anon_env) ltac:(apply map_none).
  stepd ltac:(apply anon_future) ltac:(apply future_none).
  stepd ltac:(apply anon_cargo_new) ltac:(apply cargo_new_none).
  stepd ltac:(apply anon_http; [exact (Bd _ HttpTimeout)|exact (Bd _ HttpLowSpeedLimit)]) ltac:(apply http_none).
  stepd ltac:(apply anon_net; exact (Bd _ NetRetry)) ltac:(apply net_none).
  stepd ltac:(apply anon_map; [exact S3|]; intros ? ? ?; apply anon_registries) ltac:(apply map_none).
  stepd ltac:(apply anon_registry) ltac:(apply registry_none).
  stepd ltac:(apply anon_map; [exact S4|]; intros n t E; apply anon_target;
              apply (clean_program c (TargetRunner n)); [exact St|cbn [look_program]; unfold under; now rewrite E])
        ltac:(apply map_none).
  stepd ltac:(apply anon_term; exact (Bd _ TermProgressWidth)) ltac:(apply term_none).
  reflexivity.
Qed.

(** ** What is read back *)
Lemma under_bmapv {V W A} (g : V -> W) m n (h : W -> option A) :
  under (bmapv g m) n h = under m n (fun v => h (g v)).
Proof. unfold under. rewrite bget_bmapv. destruct (bget n m); reflexivity. Qed.
Lemma under_map {V A A'} m n (f : V -> option A) (g : A -> A') (h : V -> option A') :
  (forall v, h v = option_map g (f v)) -> under m n h = option_map g (under m n f).
Proof. intros H. unfold under. destruct (bget n m); [apply H|reflexivity]. Qed.
Lemma a_look c A (k : scalar_key A) : look k (a_config c) = option_map anonymous (look k c).
Proof.
  destruct k; cbn [look a_config c_alias c_build c_doc c_env c_future_incompat_report c_cargo_new c_http c_net
                     c_registries c_registry c_target c_term];
    try reflexivity; rewrite under_bmapv; apply under_map; intros v; try reflexivity; destruct v; reflexivity.
Qed.
Lemma a_look_list c k :
  look_list k (a_config c) = option_map (fun w => anonymous_words (stored_form k w)) (look_list k c).
Proof.
  destruct k; cbn [look_list a_config c_alias c_build c_target b_target b_rustflags b_rustdocflags a_build].
  - rewrite under_bmapv. apply under_map. reflexivity.
  - destruct (b_target (c_build c)) as [[]|]; reflexivity.
  - destruct (b_rustflags (c_build c)); reflexivity.
  - destruct (b_rustdocflags (c_build c)); reflexivity.
  - rewrite under_bmapv. apply under_map. intros v. cbn. destruct (t_rustflags v); reflexivity.
  - rewrite under_bmapv. apply under_map. intros v. cbn. destruct (t_rustdocflags v); reflexivity.
Qed.
Lemma a_look_program c k : look_program k (a_config c) = option_map anonymous_words (look_program k c).
Proof.
  destruct k; cbn [look_program a_config c_doc c_target a_doc d_browser].
  - destruct (d_browser (c_doc c)); reflexivity.
  - rewrite under_bmapv. apply under_map. intros v. cbn. destruct (t_runner v); reflexivity.
Qed.
Lemma a_entry c k : has_entry k (a_config c) = has_entry k c.
Proof. destruct k; cbn; rewrite bget_bmapv; now destruct (bget name _). Qed.
Lemma a_env_shape c n : shape_at (ShapeEnv n) (a_config c) = shape_at (ShapeEnv n) c.
Proof.
  cbn [shape_at a_config c_env]. rewrite under_bmapv. unfold under. destruct (bget n (c_env c)) as [[]|]; reflexivity.
Qed.
Lemma a_plain c : plain (a_config c).
Proof. split; reflexivity. Qed.
Lemma a_in_order c : tables_in_order c -> tables_in_order (a_config c).
Proof.
  rewrite !tables_in_order_sorted. intros (S1 & S2 & S3 & S4). repeat split; apply bmapv_sorted; assumption.
Qed.

(** Writing it again. *)
Lemma ser_anon_list l : map ser_vstr (map anonymous l) = map ser_vstr l.
Proof. rewrite map_map. reflexivity. Qed.
Lemma oa_ser {A} (f : A -> toml) k o :
  sopt k (ser_value f) (oa o) = sopt k (ser_value f) o.
Proof. destruct o; reflexivity. Qed.
Lemma oa_none {A} (o : option (value A)) : is_none (oa o) = is_none o.
Proof. destruct o; reflexivity. Qed.
Lemma om_none {A A'} (g : A -> A') (o : option A) : is_none (option_map g o) = is_none o.
Proof. destruct o; reflexivity. Qed.
Lemma om_ser {A} (f : A -> toml) (g : A -> A) k o :
  (forall a, f (g a) = f a) -> sopt k f (option_map g o) = sopt k f o.
Proof. intros H. destruct o; cbn; [now rewrite H|reflexivity]. Qed.
Lemma flags_again f : ser_flags (a_flags f) = ser_flags f.
Proof. unfold ser_flags, a_flags. cbn [fl_flags]. now rewrite ser_anon_list. Qed.
Lemma soa_again f : ser_soa (a_soa f) = ser_soa f.
Proof. destruct f; [reflexivity|]. cbn. now rewrite ser_anon_list. Qed.
Lemma fold_anon {X} (g : X -> str -> X) l x :
  fold_left (fun s a => g s (val a)) (map anonymous l) x = fold_left (fun s a => g s (val a)) l x.
Proof. revert x. induction l as [|v l IH]; intros x; [reflexivity|]. cbn. apply IH. Qed.
Lemma program_again p : ser_path_and_args (a_program p) = ser_path_and_args p.
Proof.
  unfold ser_path_and_args, a_program. cbn [pa_repr pa_path pa_args]. destruct (pa_repr p).
  - f_equal. exact (fold_anon (fun s v => s ++ sp :: v) (pa_args p) _).
  - now rewrite ser_anon_list.
Qed.
Lemma string_list_again p : ser_string_list (a_string_list p) = ser_string_list p.
Proof.
  unfold ser_string_list, a_string_list. cbn [sl_repr sl_list]. destruct (sl_repr p).
  - f_equal. exact (fold_anon (fun s v => (if is_empty s then s else s ++ [sp]) ++ v) (sl_list p) _).
  - now rewrite ser_anon_list.
Qed.
Lemma env_again e : ser_env_config_value (a_env e) = ser_env_config_value e.
Proof. destruct e as [v|v [] []]; reflexivity. Qed.
Lemma map_again {V} (s : V -> toml) (g : V -> V) m : (forall v, s (g v) = s v) -> ser_map s (bmapv g m) = ser_map s m.
Proof.
  intros H. unfold ser_map, bmapv. rewrite map_map. f_equal. apply map_ext. intros [k v]. cbn. now rewrite H.
Qed.
Lemma bmapv_empty {V W} (g : V -> W) m : bis_empty (bmapv g m) = bis_empty m.
Proof. destruct m; reflexivity. Qed.
Lemma skip_again {A} k (s : A -> bool) (f : A -> toml) (g : A -> A) a :
  s (g a) = s a -> f (g a) = f a -> sskip k s f (g a) = sskip k s f a.
Proof. unfold sskip. now intros -> ->. Qed.

Ltac again :=
  unfold ser_vstr, ser_vbool, ser_vu32; rewrite ?oa_ser;
  rewrite ?(om_ser ser_flags a_flags) by exact flags_again;
  rewrite ?(om_ser ser_soa a_soa) by exact soa_again;
  rewrite ?(om_ser ser_path_and_args a_program) by exact program_again;
  rewrite ?oa_none, ?om_none; try reflexivity.
Lemma target_again t : ser_target (a_target t) = ser_target t.
Proof. unfold ser_target, a_target. cbn [t_linker t_runner t_rustflags t_rustdocflags]. again. Qed.
Lemma registries_again r : ser_registries (a_registries r) = ser_registries r.
Proof. unfold ser_registries, a_registries. cbn [r_index r_token r_protocol]. again. Qed.
Lemma progress_again p : ser_progress (a_progress p) = ser_progress p.
Proof. unfold ser_progress, a_progress. cbn [p_when p_width]. again. Qed.
Lemma progress_skip p : progress_is_none (a_progress p) = progress_is_none p.
Proof. unfold progress_is_none, a_progress. cbn [p_when p_width]. again. Qed.

Lemma ser_again c : ser_config (a_config c) = ser_config c.
Proof.
  unfold ser_config, a_config. cbn [c_alias c_build c_doc c_env c_future_incompat_report c_cargo_new c_http c_net
                     c_registries c_registry c_target c_term].
  f_equal. repeat (f_equal; []).
  repeat match goal with |- _ ++ _ = _ ++ _ => f_equal end; apply skip_again;
    rewrite ?bmapv_empty; try reflexivity.
  - apply map_again, string_list_again.
  - unfold build_is_none, a_build. cbn [b_jobs b_rustc b_rustc_wrapper b_rustc_workspace_wrapper b_rustdoc
    b_target b_target_dir b_rustflags b_rustdocflags b_incremental b_dep_info_basedir]. again.
  - unfold ser_build, a_build. cbn [b_jobs b_rustc b_rustc_wrapper b_rustc_workspace_wrapper b_rustdoc
    b_target b_target_dir b_rustflags b_rustdocflags b_incremental b_dep_info_basedir]. again.
  - unfold doc_is_none, a_doc. cbn [d_browser]. again.
  - unfold ser_doc, a_doc. cbn [d_browser]. again.
  - apply map_again, env_again.
  - unfold future_is_none, a_future. cbn [f_frequency]. again.
  - unfold ser_future, a_future. cbn [f_frequency]. again.
  - unfold cargo_new_is_none, a_cargo_new. cbn [cn_vcs]. again.
  - unfold ser_cargo_new, a_cargo_new. cbn [cn_vcs]. again.
  - unfold http_is_none, a_http. cbn [h_debug h_proxy h_timeout h_cainfo h_check_revoke h_low_speed_limit
    h_multiplexing h_user_agent]. again.
  - unfold ser_http, a_http. cbn [h_debug h_proxy h_timeout h_cainfo h_check_revoke h_low_speed_limit
    h_multiplexing h_user_agent]. again.
  - unfold net_is_none, a_net. cbn [n_retry n_git_fetch_with_cli n_offline]. again.
  - unfold ser_net, a_net. cbn [n_retry n_git_fetch_with_cli n_offline]. again.
  - apply map_again, registries_again.
  - unfold registry_is_none, a_registry. cbn [rg_default rg_token]. again.
  - unfold ser_registry, a_registry. cbn [rg_default rg_token]. again.
  - apply map_again, target_again.
  - unfold term_is_none, a_term. cbn [tm_quiet tm_verbose tm_color tm_progress]. again. now rewrite progress_skip.
  - unfold ser_term, a_term. cbn [tm_quiet tm_verbose tm_color tm_progress]. again.
    rewrite (skip_again _ _ _ a_progress) by (apply progress_skip || apply progress_again). reflexivity.
Qed.

(** ** Loaded configurations can be stored *)
Lemma fopt_from {A} s i k (f : toml -> option A) a :
  fopt s i k f = Some (Some a) -> exists t, f t = Some a.
Proof.
  destruct s; cbn [fopt].
  - destruct (tget k l) as [t|]; [|discriminate]. destruct (f t) eqn:E; [|discriminate]. intros [= <-]. eauto.
  - destruct (nth_error l i) as [t|]; [|discriminate]. destruct (f t) eqn:E; [|discriminate]. intros [= <-]. eauto.
Qed.
Lemma fdef_from {A} s i k d (f : toml -> option A) a :
  fdef s i k d f = Some a -> a = d \/ exists t, f t = Some a.
Proof.
  destruct s; cbn [fdef].
  - destruct (tget k l) as [t|]; [eauto|]. intros [= <-]. auto.
  - destruct (nth_error l i) as [t|]; [eauto|]. intros [= <-]. auto.
Qed.
Lemma de_entries_from {V} (f : toml -> option V) l r k v :
  de_entries f l = Some r -> In (k, v) r -> exists t, f t = Some v.
Proof. intros H Hin. apply de_entries_in in H. destruct H as (_ & _ & H & _). destruct (H _ _ Hin) as (u & _ & E). eauto. Qed.
Lemma from_list_in {V} (l : list (str * V)) x : In x (bfrom_list l) -> In x l.
Proof.
  unfold bfrom_list.
  assert (G : forall l m, In x (fold_left (fun m kv => binsert (fst kv) (snd kv) m) l m) -> In x m \/ In x l).
  { clear l. induction l as [|[k v] l IH]; intros m H; cbn in *; [now left|].
    destruct (IH _ H) as [H'|H']; [|tauto]. apply binsert_in in H'. destruct H' as [->|H']; auto. }
  intros H. now destruct (G _ _ H).
Qed.
Lemma de_map_from {V} (f : toml -> option V) t m k v :
  de_map f t = Some m -> bget k m = Some v -> exists t, f t = Some v.
Proof.
  intros H E. apply bget_in in E. destruct t; try discriminate; cbn [de_map] in H;
    match type of H with option_map _ ?x = _ => destruct x eqn:F; [|discriminate H] end;
    injection H as <-; apply from_list_in in E; eapply de_entries_from; eassumption.
Qed.

Ltac from_field E :=
  match goal with
  | F : fopt _ _ _ _ = Some (Some _) |- _ => rewrite E in *
  end.

Lemma u32_from s i k v : fopt s i k de_vu32 = Some (Some v) -> (val v < 2 ^ 32)%N.
Proof. intros F. apply fopt_from in F. destruct F as (t & F). apply de_vu32_iff in F. now destruct F as (a & (_ & B) & ->). Qed.
Lemma program_from s i k p :
  fopt s i k de_path_and_args = Some (Some p) -> pa_repr p = ReprString -> Forall clean_word (pa_path p :: pa_args p).
Proof.
  intros F R. apply fopt_from in F. destruct F as (t & F). apply de_program_iff in F.
  destruct F as (w & (V & _) & E). unfold program_words in E. rewrite R in E.
  inversion V; subst; [|discriminate]. cbn in E. injection E as ->.
  apply space_words_iff in H. subst ws. rewrite Forall_map, Forall_forall. intros x Hx.
  exact (from_space_words s0 x Hx).
Qed.
Lemma string_list_from t p :
  de_string_list t = Some p -> sl_repr p = ReprString -> Forall clean_word (sl_list p).
Proof.
  intros F R. apply de_string_list_iff in F.
  destruct F as (w & V & E). rewrite R in E.
  inversion V; subst; [|discriminate]. cbn in E. injection E as ->.
  apply space_words_iff in H. subst ws. rewrite Forall_map, Forall_forall. intros x Hx.
  exact (from_space_words s x Hx).
Qed.

Lemma de_config_storable t c : de_config t = Some c -> storable c.
Proof.
  intros D. split; [apply tables_in_order_sorted; eapply de_config_sorted; eassumption|].
  unfold de_config in D. split_let D. injection D as <-. split; [|split].
  - intros A k v. destruct k; cbn [look in_bounds c_build c_http c_net c_term]; try (intros; exact I); intros E.
    + apply fdef_from in F1. destruct F1 as [->|(u & F1)]; [discriminate|].
      unfold de_build in F1. split_let F1. injection F1 as <-. cbn [b_jobs] in E. subst o.
      match goal with H : fopt _ _ _ (de_value de_i32) = _ |- _ => apply fopt_from in H; destruct H as (w & H);
        apply de_vi32_iff in H; destruct H as (a & (_ & Hb) & ->) end. exact Hb.
    + apply fdef_from in F6. destruct F6 as [->|(u & F6)]; [discriminate|].
      unfold de_http in F6. split_let F6. injection F6 as <-. cbn [h_timeout] in E. rewrite E in *. eapply u32_from; eassumption.
    + apply fdef_from in F6. destruct F6 as [->|(u & F6)]; [discriminate|].
      unfold de_http in F6. split_let F6. injection F6 as <-. cbn [h_low_speed_limit] in E. rewrite E in *. eapply u32_from; eassumption.
    + apply fdef_from in F7. destruct F7 as [->|(u & F7)]; [discriminate|].
      unfold de_net in F7. split_let F7. injection F7 as <-. cbn [n_retry] in E. rewrite E in *. eapply u32_from; eassumption.
    + apply fdef_from in F11. destruct F11 as [->|(u & F11)]; [discriminate|].
      unfold de_term in F11. split_let F11. injection F11 as <-. cbn [tm_progress] in E.
      match goal with H : fdef _ _ _ _ de_progress = _ |- _ => apply fdef_from in H; destruct H as [->|(w & H)];
        [discriminate E|unfold de_progress in H; split_let H; injection H as <-] end.
      cbn [p_width] in E. rewrite E in *. eapply u32_from; eassumption.
  - intros nm ws. cbn [look_list c_alias]. unfold under. destruct (bget nm _) as [s|] eqn:E; [|discriminate].
    intros [= R <-]. apply fdef_from in F0. destruct F0 as [->|(u & F0)]; [discriminate|].
    destruct (de_map_from _ _ _ _ _ F0 E) as (w & Fw). eapply string_list_from; [exact Fw|].
    now destruct (sl_repr _).
  - intros k ws. destruct k; cbn [look_program c_doc c_target].
    + destruct (d_browser d) as [p|] eqn:E; [|discriminate]. cbn. intros [= R <-].
      apply fdef_from in F2. destruct F2 as [->|(u & F2)]; [discriminate|].
      unfold de_doc in F2. split_let F2. injection F2 as <-. cbn [d_browser] in E. rewrite E in *.
      eapply program_from; [eassumption|]. now destruct (pa_repr p).
    + unfold under. destruct (bget _ _) as [tt|] eqn:E; [|discriminate].
      destruct (t_runner tt) as [p|] eqn:Er; [|discriminate]. cbn. intros [= R <-].
      apply fdef_from in F10. destruct F10 as [->|(u & F10)]; [discriminate|].
      destruct (de_map_from _ _ _ _ _ F10 E) as (w & Fw). unfold de_target in Fw. split_let Fw. injection Fw as <-.
      cbn [t_runner] in Er. rewrite Er in *.
      eapply program_from; [eassumption|]. now destruct (pa_repr p).
Qed.

Lemma clean_val (v w : word) : val v = val w -> clean_word w -> clean_word v.
Proof. unfold clean_word. now intros ->. Qed.

Lemma load_storable f ps c : load_files f ps = Ok c -> storable c.
Proof.
  intros H. split; [apply tables_in_order_sorted; eapply load_files_sorted; eassumption|].
  split; [|split].
  - intros A k v E. destruct (origin_scalar _ _ _ _ _ _ H E) as (p & c0 & v0 & _ & (t & _ & D) & E0 & _ & ->).
    apply de_config_storable in D. destruct D as (_ & D & _). eauto.
  - intros n ws E. assert (K : is_ok (load_files f ps) = true) by now rewrite H.
    apply load_files_ok in K. destruct K as (l & Hl & _). rewrite (load_list f ps c l H Hl) in E.
    destruct (defined (map (list_in (Alias n)) l)) as [|[[|] v] r] eqn:Ed; try discriminate.
    cbn in E. injection E as <-.
    assert (Hin : In (AsString, v) (defined (map (list_in (Alias n)) l))) by (rewrite Ed; now left).
    apply in_defined, in_map_iff in Hin. destruct Hin as ([p c0] & E & Hi). unfold list_in in E. cbn [fst snd] in E.
    destruct (look_list (Alias n) c0) as [[fm ws]|] eqn:E0; [|discriminate]. cbn in E. injection E as -> <-.
    destruct (reads_in _ _ _ _ _ Hl Hi) as (_ & (t & _ & D)). apply de_config_storable in D.
    destruct D as (_ & _ & D & _). apply D in E0. rewrite Forall_map. eapply Forall_impl; [|exact E0].
    intros a. now apply clean_val.
  - intros k ws E. assert (K : is_ok (load_files f ps) = true) by now rewrite H.
    apply load_files_ok in K. destruct K as (l & Hl & _). rewrite (load_program f ps c l H Hl) in E.
    destruct (defined (map (program_in k) l)) as [|[[|] v] r] eqn:Ed; try discriminate.
    cbn in E. injection E as <-.
    assert (Hin : In (AsString, v) (defined (map (program_in k) l))) by (rewrite Ed; now left).
    apply in_defined, in_map_iff in Hin. destruct Hin as ([p c0] & E & Hi). unfold program_in in E. cbn [fst snd] in E.
    destruct (look_program k c0) as [[fm ws]|] eqn:E0; [|discriminate]. cbn in E. injection E as -> <-.
    destruct (reads_in _ _ _ _ _ Hl Hi) as (_ & (t & _ & D)). apply de_config_storable in D.
    destruct D as (_ & _ & _ & D). apply D in E0. rewrite Forall_map. eapply Forall_impl; [|exact E0].
    intros a. now apply clean_val.
Qed.

Lemma consulted_in {A} (vars : list (reader A)) env name a :
  consulted vars env = Some (name, Some a) -> exists r s, In r vars /\ snd r s = Some a.
Proof.
  unfold consulted. intros H. apply first_defined_in, in_map_iff in H. destruct H as (r & H & Hin).
  destruct (env_get (fst r) env) as [s|]; [|discriminate]. injection H as _ H.
  destruct (utf8_valid s); [|discriminate]. eauto.
Qed.
Lemma scalar_after_bounds {A} (k : scalar_key A) env o v :
  (forall v, o = Some v -> in_bounds k (val v)) -> scalar_after k env o = Some v -> in_bounds k (val v).
Proof.
  unfold scalar_after. intros H. destruct (consulted (variables k) env) as [[n [a|]]|] eqn:E; [|exact (H v)|exact (H v)].
  apply consulted_in in E. destruct E as (r & s & Hin & E).
  destruct (switches_off k a); [discriminate|]. intros [= <-]. unfold of_variable. cbn [val].
  clear H. destruct k; cbn [in_bounds]; try exact I; cbn in Hin; destruct Hin as [<-|[]]; cbn [snd] in E;
    first [apply parse_i32_iff in E | apply parse_u32_iff in E]; apply E.
Qed.
Lemma words_clean s name : Forall clean_word (map (of_variable name) (split_space_separated s)).
Proof. rewrite Forall_map, Forall_forall. intros x Hx. exact (from_space_words s x Hx). Qed.

Lemma apply_env_storable env c c' :
  one_value_each env -> storable c -> apply_env env c = Ok c' -> storable c'.
Proof.
  intros N (T & Bd & Al & Pr) H. split; [|split; [|split]].
  - apply tables_in_order_sorted. apply tables_in_order_sorted in T. eapply apply_env_sorted; eassumption.
  - intros A k v. rewrite (apply_env_scalar env c c' N H). apply scalar_after_bounds. apply Bd.
  - intros n ws. rewrite (apply_env_list env c c' N H). unfold words_after. cbn [list_variables].
    destruct (consulted _ env) as [[name [[fm l]|]]|] eqn:E; [|apply Al|apply Al].
    intros [= -> <-]. apply consulted_in in E. destruct E as (r & s & [<-|[]] & E). cbn [snd] in E.
    injection E as <-. apply words_clean.
  - intros k ws. rewrite (apply_env_program env c c' H). unfold program_after.
    destruct k; [|apply Pr]. destruct (look_program DocBrowser c) as [w|] eqn:Ew.
    + rewrite <- Ew. apply Pr.
    + unfold words_after. destruct (consulted _ env) as [[name [[fm l]|]]|] eqn:E; [|discriminate|discriminate].
      intros [= -> <-]. apply consulted_in in E. destruct E as (r & s & [<-|[]] & E).
      unfold browser in E. cbn [snd] in E. destruct (split_space_separated s) eqn:Es; [discriminate|].
      injection E as <-. rewrite <- Es. apply words_clean.
Qed.

(** ** Nothing to write *)
Lemma sskip_nil {A} k s (f : A -> toml) a : sskip k s f a = [] <-> s a = true.
Proof. unfold sskip. destruct (s a); split; easy. Qed.
Lemma app_nil {A} (l r : list A) : l ++ r = [] <-> l = [] /\ r = [].
Proof. split; [apply app_eq_nil|]. now intros [-> ->]. Qed.
Lemma none_iff {A} (o : option A) : is_none o = true <-> o = None.
Proof. destruct o; split; easy. Qed.
Lemma empty_map_iff {V} (m : bmap V) : bis_empty m = true <-> forall k, bget k m = None.
Proof.
  split; [destruct m; [reflexivity|discriminate]|]. destruct m as [|[k v] m]; [reflexivity|].
  intros H. specialize (H k). cbn in H. rewrite str_eqb_refl in H. discriminate.
Qed.

Lemma empty_iff c : ser_config c = TomlTab [] <-> nothing_set c.
Proof.
  assert (Q : ser_config c = TomlTab [] <->
    (bis_empty (c_alias c) = true /\ build_is_none (c_build c) = true /\ doc_is_none (c_doc c) = true
     /\ bis_empty (c_env c) = true /\ future_is_none (c_future_incompat_report c) = true
     /\ cargo_new_is_none (c_cargo_new c) = true /\ http_is_none (c_http c) = true
     /\ net_is_none (c_net c) = true /\ bis_empty (c_registries c) = true
     /\ registry_is_none (c_registry c) = true /\ bis_empty (c_target c) = true
     /\ term_is_none (c_term c) = true)).
  { unfold ser_config. split.
    - intros [= H]. rewrite !app_nil, !sskip_nil in H. exact H.
    - intros H. f_equal. rewrite !app_nil, !sskip_nil. exact H. }
  rewrite Q. clear Q. unfold build_is_none, doc_is_none, future_is_none, cargo_new_is_none, http_is_none,
    net_is_none, registry_is_none, term_is_none, progress_is_none.
  rewrite !Bool.andb_true_iff, !none_iff, !empty_map_iff. split.
  - intros H. decompose [and] H. clear H. split; [|split; [|split]].
    + intros A k. destruct k; cbn [look]; try assumption; unfold under;
        match goal with H : forall k, bget k ?m = None |- context [bget _ ?m] => now rewrite H end.
    + intros k. destruct k; cbn [look_list]; unfold under;
        try match goal with H : forall k, bget k ?m = None |- context [bget _ ?m] => now rewrite H end;
        match goal with H : ?x = None |- context [?x] => now rewrite H end.
    + intros k. destruct k; cbn [look_program]; unfold under;
        try match goal with H : forall k, bget k ?m = None |- context [bget _ ?m] => now rewrite H end;
        match goal with H : ?x = None |- context [?x] => now rewrite H end.
    + intros k. destruct k; cbn [has_entry];
        match goal with H : forall k, bget k ?m = None |- context [bget _ ?m] => now rewrite H end.
  - intros (HS & HL & HP & HE).
    assert (X : forall V (o : option V), is_some o = false -> o = None) by (now intros V []).
    assert (Y : forall V W (f : V -> W) o, option_map f o = None -> o = None) by (now intros V W f []).
    repeat split.
    + intros k. apply X. exact (HE (AliasEntry k)).
    + exact (HS _ BuildJobs).
    + exact (HS _ BuildRustc).
    + exact (HS _ BuildRustcWrapper).
    + exact (HS _ BuildRustcWorkspaceWrapper).
    + exact (HS _ BuildRustdoc).
    + pose proof (HL BuildTarget) as E. rewrite look_target in E. now apply Y in E.
    + exact (HS _ BuildTargetDir).
    + exact (Y _ _ _ _ (HL BuildRustflags)).
    + exact (Y _ _ _ _ (HL BuildRustdocflags)).
    + exact (HS _ BuildIncremental).
    + exact (HS _ BuildDepInfoBasedir).
    + exact (Y _ _ _ _ (HP DocBrowser)).
    + intros k. apply X. exact (HE (EnvEntry k)).
    + exact (HS _ FutureFrequency).
    + exact (HS _ CargoNewVcs).
    + exact (HS _ HttpDebug).
    + exact (HS _ HttpProxy).
    + exact (HS _ HttpTimeout).
    + exact (HS _ HttpCainfo).
    + exact (HS _ HttpCheckRevoke).
    + exact (HS _ HttpLowSpeedLimit).
    + exact (HS _ HttpMultiplexing).
    + exact (HS _ HttpUserAgent).
    + exact (HS _ NetRetry).
    + exact (HS _ NetGitFetchWithCli).
    + exact (HS _ NetOffline).
    + intros k. apply X. exact (HE (RegistriesEntry k)).
    + exact (HS _ RegistryDefault).
    + exact (HS _ RegistryToken).
    + intros k. apply X. exact (HE (TargetEntry k)).
    + exact (HS _ TermQuiet).
    + exact (HS _ TermVerbose).
    + exact (HS _ TermColor).
    + exact (HS _ TermProgressWhen).
    + exact (HS _ TermProgressWidth).
Qed.
