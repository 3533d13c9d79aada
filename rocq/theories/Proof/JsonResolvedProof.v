(** Lemmas for C74: the texts of a resolved configuration. *)
From Verif.Model Require Import Base Str Path BMap Error Value De Serde Walk Load Triple EasyTypes Context Resolve Easy EasySerde JsonText.
From Verif.Spec Require Import StrSpec Utf8Spec ConfigSpec SerdeSpec LoadSpec EnvSpec RootSpec TargetSpec FinalSpec JsonSpec.
From Verif.Proof Require Import StrFacts BMapFacts MergeProof Utf8Proof LossyProof CfgEvalProof TripleProof LoadProof EnvProof SerdeProof SerdeDocProof JsonUseProof JsonLoadProof TargetProof TargetEnvProof EasySerdeProof FinalProof ReloadProof.
From Verif.Spec Require Import FinalSpec.
From Verif.Props Require Import Serde Final.

Definition etexts (o : epairs) : Prop := forall l, o = Some l -> Forall (fun x => utf8 (fst x) /\ texts (snd x)) l.
Definition otexts (o : option toml) : Prop := forall t, o = Some t -> texts t.
Lemma etexts_app a b : etexts a -> etexts b -> etexts (eapp a b).
Proof.
  intros A B0 l. destruct a as [x|]; [|discriminate]. destruct b as [y|]; [|discriminate]. cbn. intros [= <-].
  apply Forall_app. split; [now apply A|now apply B0].
Qed.
Lemma etexts_concat l : Forall etexts l -> etexts (econcat l).
Proof. induction 1; cbn [econcat]; [intros l [= <-]; constructor|now apply etexts_app]. Qed.
Lemma etexts_opt {A} k (f : A -> option toml) o : utf8 k -> (forall a, o = Some a -> otexts (f a)) -> etexts (esopt k f o).
Proof.
  intros K H l. destruct o as [a|]; cbn; [|intros [= <-]; constructor]. specialize (H a eq_refl). destruct (f a) as [t|]; [|discriminate].
  intros [= <-]. constructor; [|constructor]. split; [exact K|exact (H t eq_refl)].
Qed.
Lemma etexts_skip {A} k skip (f : A -> option toml) a : utf8 k -> otexts (f a) -> etexts (esskip k skip f a).
Proof.
  intros K H l. unfold esskip. destruct (skip a); [intros [= <-]; constructor|]. destruct (f a) as [t|]; [|discriminate].
  intros [= <-]. constructor; [|constructor]. split; [exact K|exact (H t eq_refl)].
Qed.
Lemma otexts_tab p : etexts p -> otexts (tab p).
Proof. intros H t. destruct p as [l|]; [|discriminate]. intros [= <-]. apply texts_tab. exact (H l eq_refl). Qed.
Lemma otexts_ok {A} (f : A -> toml) a : texts (f a) -> otexts (ok1 f a).
Proof. intros H t [= <-]. exact H. Qed.
Lemma otexts_path p : otexts (ser_path p).
Proof.
  intros t. unfold ser_path, to_str. destruct (utf8_valid p) eqn:U; [|discriminate]. intros [= <-]. now apply utf8_valid_iff.
Qed.
Lemma etexts_entries {V} (f : V -> option toml) m : (forall k v, In (k, v) m -> utf8 k /\ otexts (f v)) -> etexts (ser_entries f m).
Proof.
  induction m as [|[k v] m IH]; intros H; [intros l [= <-]; constructor|]. cbn [ser_entries].
  apply etexts_app; [|apply IH; intros k' v' I; apply H; now right].
  intros l. destruct (H k v (or_introl eq_refl)) as [K T]. destruct (f v) as [x|]; [|discriminate]. intros [= <-].
  constructor; [|constructor]. split; [exact K|exact (T x eq_refl)].
Qed.
Lemma texts_strs l : Forall utf8 l -> texts (ser_strs l).
Proof. intros F. apply texts_arr. now rewrite Forall_map. Qed.
Lemma repaired_utf8 s t : repaired s t -> utf8 t.
Proof.
  induction 1 as [|n c s t E _ IH|p s t R _ IH]; [constructor|econstructor; eassumption|].
  apply utf8_app; [|exact IH]. apply utf8_valid_iff. vm_compute. reflexivity.
Qed.
Lemma lossy_utf8 s : utf8 (lossy s).
Proof. exact (repaired_utf8 s _ (lossy_repaired s)). Qed.
Lemma texts_epa p : texts (eser_pa p).
Proof. apply texts_strs. constructor; [apply lossy_utf8|]. rewrite Forall_map. apply Forall_forall. intros x _. apply lossy_utf8. Qed.
Lemma texts_eenv e : texts (eser_env e).
Proof.
  unfold eser_env. destruct (ee_force e), (ee_relative e); cbn; repeat split; try exact I; try apply lossy_utf8; name.
Qed.
Lemma texts_triples l : texts (TomlArr (map eser_triple l)).
Proof. apply texts_arr. rewrite Forall_map. apply Forall_forall. intros t _. apply lossy_utf8. Qed.

(** The texts that are neither paths nor repaired. *)
Definition kept_as_is {A} (k : scalar_key A) : A -> Prop :=
  match k in scalar_key A return A -> Prop with
  | HttpProxy | HttpCainfo | HttpUserAgent | RegistriesIndex _ | RegistriesToken _ | RegistryDefault | RegistryToken => utf8
  | _ => fun _ => True
  end.
Definition text_resolved (c : econfig) : Prop :=
  (forall A (k : scalar_key A) a, easy_look k c = Some a -> kept_as_is k a)
  /\ (forall k ws, k <> BuildTarget -> easy_words k c = Some ws -> Forall utf8 ws)
  /\ (forall n, easy_entry (AliasEntry n) c = true \/ easy_entry (EnvEntry n) c = true \/ easy_entry (RegistriesEntry n) c = true -> utf8 n).
Definition text_flags (e : etarget) : Prop :=
  (forall fl, et_rustflags e = Some fl -> Forall utf8 (ef_flags fl)) /\ (forall fl, et_rustdocflags e = Some fl -> Forall utf8 (ef_flags fl)).

Section Written.
Context (c : econfig) (T : text_resolved c) (S1 : sorted (ec_alias c)) (S2 : sorted (ec_env c)) (S3 : sorted (ec_registries c)).
Context (targets : bmap etarget) (G : forall n e, In (n, e) targets -> text_flags e).
Ltac step :=
  repeat first
    [ apply otexts_tab | apply etexts_concat | apply Forall_cons | apply Forall_nil
    | apply etexts_skip; [name|] | apply etexts_opt; [name|]; intros ? ? | apply otexts_path | apply otexts_ok
    | exact I | apply texts_epa | apply texts_eenv | apply texts_triples | apply texts_variants ].
Lemma resolved_texts : otexts (eser_config c targets).
Proof.
  destruct T as (Ts & Tl & Tn).
  unfold eser_config, eser_build, eser_doc, eser_future, eser_cargo_new, eser_http, eser_net, eser_registry, eser_term, eser_progress.
  step.
  - apply etexts_entries. intros n v I. apply (sorted_in_bget n v) in I; [|exact S1].
    split; [apply Tn; left; cbn; now rewrite I|]. apply otexts_ok, texts_strs. apply (Tl (Alias n)); [discriminate|]. cbn. now rewrite I.
  - apply texts_strs. match goal with E : eb_rustflags _ = Some _ |- _ => apply (Tl BuildRustflags); [discriminate|]; cbn; now rewrite E end.
  - apply texts_strs. match goal with E : eb_rustdocflags _ = Some _ |- _ => apply (Tl BuildRustdocflags); [discriminate|]; cbn; now rewrite E end.
  - apply etexts_entries. intros n v I. apply (sorted_in_bget n v) in I; [|exact S2].
    split; [apply Tn; right; left; cbn; now rewrite I|]. apply otexts_ok, texts_eenv.
  - now apply (Ts _ HttpProxy).
  - now apply (Ts _ HttpCainfo).
  - now apply (Ts _ HttpUserAgent).
  - apply etexts_entries. intros n v I. apply (sorted_in_bget n v) in I; [|exact S3].
    split; [apply Tn; right; right; cbn; now rewrite I|]. unfold eser_registries. step.
    + apply (Ts _ (RegistriesIndex n)). cbn. unfold under. now rewrite I.
    + apply (Ts _ (RegistriesToken n)). cbn. unfold under. now rewrite I.
  - now apply (Ts _ RegistryDefault).
  - now apply (Ts _ RegistryToken).
  - unfold eser_targets. apply etexts_entries. intros n v I. apply in_map_iff in I as ([k e] & [= <- <-] & I).
    split; [apply lossy_utf8|]. destruct (G k e I) as [G1 G2]. unfold eser_target. step; apply texts_strs; auto.
Qed.
End Written.

(** ** Loaded and resolved *)
Lemma some_defined {A} (l : list (option A)) a : In a (defined l) -> In (Some a) l.
Proof. induction l as [|[x|] l IH]; cbn; [easy| |right; now apply IH]. intros [->|I]; [now left|right; now apply IH]. Qed.
Lemma join_words l ws v : join_lists l = Some ws -> In v (snd ws) -> exists w, In w l /\ In v (snd w).
Proof.
  destruct l as [|[[] w] r]; [discriminate| |]; intros [= <-] I.
  - exists (AsString, w). split; [now left|exact I].
  - cbn [snd] in I. apply in_concat in I as (x & I1 & I2). apply in_app_or in I1 as [I1|[<-|[]]]; [|exists (AsArray, w); split; [now left|exact I2]].
    rewrite <- in_rev in I1. apply in_map_iff in I1 as (y & <- & I1). exists y. split; [now right|exact I2].
Qed.
Lemma consulted_some {A} (vars : list (reader A)) env n a : consulted vars env = Some (n, Some a) ->
  exists r t, In (n, r) vars /\ env_get n env = Some t /\ utf8 t /\ r t = Some a.
Proof.
  intros C. apply first_defined_in in C. apply in_map_iff in C as ([m r] & E & I). cbn in E.
  destruct (env_get m env) as [t|] eqn:G; [|discriminate E]. destruct (utf8_valid t) eqn:U; [|now injection E].
  injection E as -> E. exists r, t. repeat split; try assumption. now apply utf8_valid_iff.
Qed.
Lemma name_between p n s : forallb (fun a => N.ltb (nb a) 128) p = true -> (exists a r, s = a :: r /\ (nb a < 128)%N) \/ s = [] ->
  utf8 (p ++ n ++ s) -> utf8 n.
Proof.
  intros P Q U. apply utf8_valid_iff in U. apply utf8_valid_iff. rewrite valid_ascii_app in U.
  - destruct Q as [(a & r & -> & L)| -> ]; [now apply valid_app_ascii in U|now rewrite app_nil_r in U].
  - apply Forall_forall. intros a I. rewrite forallb_forall in P. now apply N.ltb_lt, P.
Qed.

Section Sources.
Context (env : env_map) (l : files) (F : Forall (fun x => text_config (snd x)) l).
Context (N : forall n v, env_get n env = Some v -> utf8 n).
Definition as_is_value {A} (k : scalar_key A) (o : option (value A)) : Prop := forall v, o = Some v -> kept_as_is k (val v).
Lemma kept_valid A (k : scalar_key A) a : valid_at k a -> kept_as_is k a.
Proof. destruct k; cbn; trivial. Qed.
Lemma scalar_text A (k : scalar_key A) : as_is_value k (scalar_of env l k).
Proof.
  intros v. unfold scalar_of, scalar_after.
  assert (W : first_defined (map (scalar_in k) l) = Some v -> kept_as_is k (val v)).
  { intros E. apply first_defined_in, in_map_iff in E as (x & E & I). unfold scalar_in in E.
    destruct (look k (snd x)) as [w|] eqn:L; [|discriminate E]. injection E as <-. cbn. apply kept_valid.
    rewrite Forall_forall in F. exact (proj1 (F x I) A k w L). }
  destruct (consulted (variables k) env) as [[n [a|]]|] eqn:C; try exact W. clear W.
  destruct (switches_off k a); [discriminate|]. intros [= <-]. cbn.
  apply consulted_some in C as (r & t & I & _ & U & R).
  destruct k; cbn [kept_as_is]; try exact Logic.I; cbn [variables] in I; destruct I as [[= <- <-]|[]]; injection R as <-; exact U.
Qed.
Lemma variable_words k n r t fm ws x : In (n, r) (list_variables k) -> utf8 t -> r t = Some (fm, ws) -> In x ws -> utf8 x.
Proof.
  assert (Sp : In x (split_space_separated t) -> utf8 t -> utf8 x).
  { intros I U. apply (valid_words t (split_space_separated t)); [now apply space_words_iff|exact U|exact I]. }
  assert (En : In x (split_encoded t) -> utf8 t -> utf8 x).
  { intros I U. apply utf8_valid_iff. apply utf8_valid_iff in U. exact (valid_pieces us t x ltac:(reflexivity) U I). }
  intros I U R Ix. destruct k; cbn [list_variables In] in I; repeat destruct I as [I|I]; try contradiction;
    injection I as <- <-; injection R as <- <-; auto. destruct Ix as [<-|[]]. exact U.
Qed.
Lemma file_words k ws v : join_lists (defined (map (list_in k) l)) = Some ws -> In v (snd ws) -> utf8 (val v).
Proof.
  intros E I. destruct (join_words _ _ _ E I) as (w & Iw & Iv). apply some_defined, in_map_iff in Iw as (x & E' & Ix).
  unfold list_in in E'. destruct (look_list k (snd x)) as [w0|] eqn:L; [|discriminate E']. injection E' as <-.
  apply in_map_iff in Iv as (v0 & <- & Iv). rewrite Forall_forall in F. destruct (F x Ix) as (_ & K & _). exact (K k w0 v0 L Iv).
Qed.
Lemma words_text k ws v : words_of env l k = Some ws -> In v (snd ws) -> utf8 (val v).
Proof.
  unfold words_of, words_after.
  destruct (consulted (list_variables k) env) as [[n [[fm u]|]]|] eqn:C; try apply file_words.
  intros [= <-] I. cbn [snd] in I. apply in_map_iff in I as (x & <- & I). cbn.
  apply consulted_some in C as (r & t & Ir & _ & U & R). exact (variable_words k n r t fm u x Ir U R I).
Qed.
Lemma entry_text k n : In k [AliasEntry n; EnvEntry n; RegistriesEntry n] -> entry_of env l k = true -> utf8 n.
Proof.
  assert (W : existsb (fun x => has_entry k (snd x)) l = true -> Forall utf8 (entry_place k)).
  { intros E. apply existsb_exists in E as (x & I & E). rewrite Forall_forall in F. destruct (F x I) as (_ & _ & _ & K). exact (K k E). }
  assert (Sn : forall m, set env m = true -> utf8 m).
  { intros m E. unfold set in E. destruct (env_get m env) as [v|] eqn:G; [exact (N m v G)|discriminate E]. }
  assert (Two : forall a b : str, Forall utf8 [a; b] -> utf8 b) by (intros a b H; inversion H as [|? ? _ H']; now inversion H').
  intros I. unfold entry_of, entry_after. destruct I as [<-|[<-|[<-|[]]]]; cbn [entry_place] in W.
  - intros E. apply orb_prop in E as [E|E]; [now apply W in E; apply Two in E|]. apply Sn in E.
    apply (name_between (B "CARGO_ALIAS_") n []); [reflexivity|now right|now rewrite app_nil_r].
  - intros E. now apply W in E; apply Two in E.
  - intros E. apply orb_prop in E as [E|E]; [apply orb_prop in E as [E|E]; [apply orb_prop in E as [E|E]|]|].
    + now apply W in E; apply Two in E.
    + apply Sn in E. apply (name_between (B "CARGO_REGISTRIES_") _ _ eq_refl) in E; [exact E|]. left. eexists _, _. split; reflexivity.
    + apply Sn in E. apply (name_between (B "CARGO_REGISTRIES_") _ _ eq_refl) in E; [exact E|]. left. eexists _, _. split; reflexivity.
    + apply andb_prop in E as [E _]. apply str_eqb_eq in E. subst n. name.
Qed.
End Sources.

Lemma files_text f p cwd o env l : sources f p cwd o env l ->
  (forall q t, In q (map fst l) -> fs_read f q = ReadTree t -> laid_out t /\ texts t) -> Forall (fun x => text_config (snd x)) l.
Proof.
  intros (_ & home & ps & _ & _ & E & R) U. rewrite Forall_forall in R |- *. intros x I. destruct (R x I) as (t & Rt & D).
  destruct (U (fst x) t (in_map fst _ _ I) Rt) as [L T]. exact (doc_text t (snd x) L T D).
Qed.
Lemma sources_text f p cwd o env l ec :
  sources f p cwd o env l -> easy_load_with_options f p cwd o = Ok ec ->
  (forall q t, In q (map fst l) -> fs_read f q = ReadTree t -> laid_out t /\ texts t) ->
  (forall e, o_env o = Some e -> Forall (fun x => utf8 (fst x)) e) -> text_resolved ec.
Proof.
  intros S H U O.
  assert (F := files_text _ _ _ _ _ _ S U).
  assert (N : forall n v, env_get n env = Some v -> utf8 n).
  { destruct S as (E & _). unfold environment in E. intros n v G. destruct (o_env o) as [e|].
    - destruct E as [_ E]. rewrite E in G. apply env_get_in in G. specialize (O e eq_refl). rewrite Forall_forall in O. exact (O _ G).
    - apply E in G as [[K _] _]. now apply utf8_valid_iff. }
  split; [|split].
  - intros A k a L. destruct (field k) eqn:Fk; [|destruct k; discriminate].
    assert (V := C53_values _ _ _ _ _ _ _ S H A k Fk). rewrite L in V.
    destruct (scalar_of env l k) as [v|] eqn:E; [|contradiction V]. assert (K := scalar_text env l F A k v E). cbn in V.
    destruct k; cbn in K |- *; try exact I; cbn in V; rewrite V; exact K.
  - intros k ws Nk L. destruct (list_field k) eqn:Fk; [|destruct k; discriminate].
    assert (V := C53_lists _ _ _ _ _ _ _ S H k Fk). rewrite L in V.
    destruct (words_of env l k) as [w|] eqn:E; [|contradiction V]. cbn in V.
    assert (V' : ws = map val (snd w)) by (destruct k; try exact V; now destruct Nk). subst ws.
    rewrite Forall_map, Forall_forall. intros v I. exact (words_text env l F k w v E I).
  - intros n K. repeat rewrite (C53_entries _ _ _ _ _ _ _ S H) in K.
    destruct K as [K|[K|K]]; revert K; apply (entry_text env l F N); cbn; tauto.
Qed.

(** ** Targets asked for *)
Lemma files_keys (l : files) : Forall (fun x => text_config (snd x)) l -> Forall (fun x => text_keys (c_target (snd x))) l.
Proof.
  apply Forall_impl. intros x (_ & _ & _ & K) k v I. specialize (K (TargetEntry k)). cbn [has_entry entry_place] in K.
  assert (G : is_some (bget k (c_target (snd x))) = true).
  { clear K. induction (c_target (snd x)) as [|[k' v'] m IH]; [destruct I|]. cbn [bget]. destruct (str_eqb k k') eqn:E; [reflexivity|].
    destruct I as [[= -> _]|I]; [now rewrite str_eqb_refl in E|now apply IH]. }
  specialize (K G). inversion K as [|? ? _ K']. now inversion K'.
Qed.

Section Asked.
Context (env : env_map) (l : files) (F : Forall (fun x => text_config (snd x)) l).
Context (tables : bmap target_config) (Tb : tables_of l tables) (matches : str -> bool) (T : str) (R : target_vars_readable env T).
Definition owords (o : option (form * list word)) : Prop := forall ws, o = Some ws -> Forall (fun v => utf8 (val v)) (snd ws).
Lemma gathered_text os : Forall owords os -> owords (gathered os).
Proof.
  intros H ws. unfold gathered. assert (K : Forall (fun w => Forall (fun v => utf8 (val v)) (snd w)) (defined os)).
  { apply Forall_forall. intros w I. apply some_defined in I. rewrite Forall_forall in H. exact (H _ I w eq_refl). }
  destruct (defined os) as [|[fm u] r]; [discriminate|]. intros E. injection E as <-. cbn [snd]. inversion K as [|? ? K1 K2]; subst.
  apply Forall_app. split; [exact K1|]. apply Forall_forall. intros v I. apply in_flat_map in I as (w & I1 & I2).
  rewrite Forall_forall in K2. specialize (K2 w I1). rewrite Forall_forall in K2. exact (K2 v I2).
Qed.
Lemma otherwise_text a b : owords a -> owords b -> owords (otherwise a b).
Proof. intros A B0. now destruct a. Qed.
Lemma variable_text key : In key [B "RUSTFLAGS"; B "RUSTDOCFLAGS"] -> owords (var_words env T key).
Proof.
  intros I ws. unfold var_words. destruct (env_get (target_variable T key) env) as [v|] eqn:G; [|discriminate].
  intros E. injection E as <-. cbn [snd]. rewrite Forall_map, Forall_forall. intros x Ix. cbn.
  apply (valid_words v (split_space_separated v)); [now apply space_words_iff| |exact Ix]. apply utf8_valid_iff.
  refine (proj1 R key v _ G). right. right. exact I.
Qed.
Lemma own_rustflags k : owords (under tables k rustflags_words).
Proof.
  intros ws. destruct Tb as (_ & _ & _ & _ & E & _). rewrite E. intros H. apply Forall_forall. intros v I. exact (file_words l F _ ws v H I).
Qed.
Lemma own_rustdocflags k : owords (under tables k rustdocflags_words).
Proof.
  intros ws. destruct Tb as (_ & _ & _ & _ & _ & E). rewrite E. intros H. apply Forall_forall. intros v I. exact (file_words l F _ ws v H I).
Qed.
Lemma all_text k : owords (words_of env l k).
Proof. intros ws H. apply Forall_forall. intros v I. exact (words_text env l F k ws v H I). Qed.
Lemma rustflags_text override : owords (target_rustflags env tables matches T override (words_of env l BuildRustflags)).
Proof.
  unfold target_rustflags. destruct override; [apply all_text|]. apply otherwise_text; [|apply all_text]. apply gathered_text.
  apply Forall_app. split; [repeat constructor; [apply own_rustflags|apply variable_text; now left]|].
  apply Forall_map, Forall_forall. intros x I. destruct (matching_in l tables matches Tb x I) as (k & G).
  intros ws E. apply (own_rustflags k). unfold under. now rewrite G.
Qed.
Lemma rustdocflags_text override : owords (target_rustdocflags env tables T override (words_of env l BuildRustdocflags)).
Proof.
  unfold target_rustdocflags. destruct override; [apply all_text|]. apply otherwise_text; [|apply all_text]. apply gathered_text.
  repeat constructor; [apply own_rustdocflags|apply variable_text; right; now left].
Qed.
End Asked.

Lemma reached_flags f p cwd o env l ec pr w s T e :
  sources f p cwd o env l -> easy_load_with_options f p cwd o = Ok ec -> Forall (fun x => text_config (snd x)) l ->
  reached pr w ec s -> In (T, e) (s_target s) -> text_flags e.
Proof.
  intros S H F Rs I. assert (Ul := files_keys l F).
  apply (sorted_in_bget _ _ _ (proj1 (in_order_sorted _) (reached_in_order pr w ec s Rs))) in I.
  destruct (known_again pr w ec s T e Rs I) as (t & M & <- & Hq).
  assert (Tb := tables_loaded f p cwd o env l ec S H).
  destruct (target_final f p cwd o env l ec pr w (QTarget (ArgTriple t)) (ArgTriple t) t s _ s S H Ul Rs
              (or_introl eq_refl) M eq_refl Hq _ Tb) as (m & e' & _ & X & Ex).
  injection Ex as <-. destruct X as (_ & _ & X3 & X4).
  assert (R : target_vars_readable env (tt_triple t)).
  { destruct (load_of_sources _ _ _ _ _ _ _ S H) as (c & Hc & _ & _ & _ & H4 & Ord).
    destruct (sources_cx _ _ _ _ _ _ S) as (N & G & _). set (cx := into_context p o cwd) in *.
    assert (Ku : keys_utf8 (c_target c)).
    { intros k v Ik. apply utf8_valid_iff. specialize (H4 (TargetEntry k)). cbn [has_entry] in H4.
      apply tables_in_order_sorted in Ord as (_ & _ & _ & Srt).
      rewrite (sorted_in_bget _ _ _ Srt Ik) in H4. cbn in H4. symmetry in H4. apply existsb_exists in H4 as ((q0 & c0) & Ix & Hx).
      cbn in Hx. destruct (bget k (c_target c0)) as [v0|] eqn:K; [|discriminate]. apply bget_in in K.
      rewrite Forall_forall in Ul. exact (Ul _ Ix _ _ K). }
    destruct (target_settings c cx ec pr w (QTarget (ArgTriple t)) (ArgTriple t) t s _ s N Hc Ku Rs (or_introl eq_refl) M eq_refl Hq)
      as (m' & e' & _ & _ & _ & (R1 & R2) & _).
    split; [intros key v K E|intros v E]; rewrite G in E; eauto. }
  split; intros fl E.
  - rewrite E in X3. destruct (target_rustflags _ _ _ _ _ _) as [ws|] eqn:K; [|discriminate X3]. injection X3 as ->.
    cbn. rewrite Forall_map. exact (rustflags_text env l F _ Tb m _ R _ ws K).
  - rewrite E in X4. destruct (target_rustdocflags _ _ _ _ _) as [ws|] eqn:K; [|discriminate X4]. injection X4 as ->.
    cbn. rewrite Forall_map. exact (rustdocflags_text env l F _ Tb _ R _ ws K).
Qed.
