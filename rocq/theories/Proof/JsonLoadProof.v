(** Lemmas for C74: the texts of a loaded configuration are those of the documents. *)
From Verif.Model Require Import Base Str Path BMap Error Value De Serde Walk Load JsonText.
From Verif.Spec Require Import StrSpec Utf8Spec ConfigSpec SerdeSpec LoadSpec JsonSpec.
From Verif.Proof Require Import StrFacts BMapFacts MergeProof Utf8Proof CfgEvalProof TripleProof LoadProof SerdeProof SerdeDocProof RoundTripProof GetProof JsonUseProof.
From Verif.Props Require Import Serde.

(** ** Words of valid texts *)
Lemma shape_rest c : char_shape c -> forall a r, c = a :: r -> Forall (fun x => 128 <= nb x <= 191)%N r /\ ~ (128 <= nb a <= 191)%N.
Proof.
  intros [x L|x y A Bb|x y d A Bb D|x y d e A Bb D E] a r [= -> <-]; (split; [repeat constructor|]);
    rewrite ?in_range_iff, ?cont_iff, ?second3_iff, ?second4_iff in *; lia.
Qed.
Lemma valid_front c x t : char_shape c -> utf8_valid (t ++ c ++ x) = true -> utf8_valid t = true.
Proof.
  intros Sh V. remember (t ++ c ++ x) as w eqn:E. revert t E. revert w V.
  apply (valid_ind (fun w => forall t, w = t ++ c ++ x -> utf8_valid t = true)).
  - intros [|a t] E; [reflexivity|discriminate E].
  - intros d r Sd V IH t E. apply app_eq_app in E as (l & [[E1 E2]|[E1 E2]]).
    + destruct t as [|a t]; [reflexivity|]. destruct l as [|b l].
      * rewrite app_nil_r in E1. subst d. rewrite <- (app_nil_r (a :: t)). now rewrite valid_char.
      * exfalso. cbn in E1. destruct (shape_rest _ Sd a (t ++ b :: l) E1) as [F _].
        rewrite Forall_forall in F. assert (Fb := F b ltac:(apply in_or_app; right; now left)).
        destruct c as [|h c]; [now apply shape_not_nil in Sh|]. cbn in E2. injection E2 as -> _.
        now apply (proj2 (shape_rest _ Sh b c eq_refl)).
    + subst t. rewrite valid_char by exact Sd. now apply IH.
Qed.
Lemma valid_trimmed s t : trimmed_of s t -> utf8 s -> utf8 t.
Proof.
  intros (a & b & -> & Ba & Bb & _) U. apply utf8_valid_iff in U. apply utf8_valid_iff. rewrite valid_blank in U by exact Ba.
  destruct Bb as [|c b W _]; [now rewrite app_nil_r in U|]. exact (valid_front c b t (ws_shape c W) U).
Qed.
Lemma valid_words s ws w : space_words s ws -> utf8 s -> In w ws -> utf8 w.
Proof.
  intros H U I. apply space_words_iff in H. subst ws. unfold split_space_separated in I.
  apply filter_In in I as [I _]. apply in_map_iff in I as (x & <- & I).
  apply (valid_trimmed x _ (trim_spec x)). apply utf8_valid_iff. apply utf8_valid_iff in U.
  exact (valid_pieces sp s x ltac:(reflexivity) U I).
Qed.

(** ** Texts in trees *)
Lemma texts_arr l : texts (TomlArr l) <-> Forall texts l.
Proof. induction l as [|x l IH]; cbn in *; [now split|]. rewrite IH. split; [now constructor|]. intros F. now inversion F. Qed.
Lemma texts_tab l : texts (TomlTab l) <-> Forall (fun x => utf8 (fst x) /\ texts (snd x)) l.
Proof. induction l as [|x l IH]; cbn in *; [now split|]. rewrite IH. split; [now constructor|]. intros F. now inversion F. Qed.
Lemma texts_at p : forall t u, texts t -> at_path p t = Some u -> texts u /\ Forall utf8 p.
Proof.
  induction p as [|k p IH]; intros t u T A; [cbn in A; injection A as ->; now split|].
  destruct t as [| | | | | |l]; try discriminate A. rewrite at_path_tab in A.
  destruct (entry k l) as [x|] eqn:E; [|discriminate A]. apply entry_in in E.
  apply texts_tab in T. rewrite Forall_forall in T. destruct (T _ E) as [Tk Tx]. cbn in Tk, Tx.
  destruct (IH x u Tx A) as [Tu F]. split; [exact Tu|now constructor].
Qed.
Lemma texts_strings l : texts (TomlArr (map TomlStr l)) -> forall x, In x l -> utf8 x.
Proof. rewrite texts_arr, Forall_map, Forall_forall. exact (fun H => H). Qed.
Lemma texts_list u w x : list_value u w -> texts u -> In x (snd w) -> utf8 x.
Proof. intros [s ws W|ws] T I; cbn in *; [exact (valid_words s ws x W T I)|exact (texts_strings ws T x I)]. Qed.
Lemma texts_target u w x : target_value u w -> texts u -> In x (snd w) -> utf8 x.
Proof. intros [s|ws] T I; cbn in *; [now destruct I as [<-|[]]|exact (texts_strings ws T x I)]. Qed.

(** ** Texts in configurations *)
Definition valid_at {A} (k : scalar_key A) : A -> Prop :=
  match k in scalar_key A return A -> Prop with
  | BuildRustc | BuildRustcWrapper | BuildRustcWorkspaceWrapper | BuildRustdoc | BuildTargetDir
  | BuildDepInfoBasedir | HttpProxy | HttpCainfo | HttpUserAgent | RegistriesIndex _
  | RegistriesToken _ | RegistryDefault | RegistryToken | TargetLinker _ | EnvVarValue _ => utf8
  | _ => fun _ => True
  end.
Definition text_config (c : config) : Prop :=
  (forall A (k : scalar_key A) v, look k c = Some v -> valid_at k (val v))
  /\ (forall k ws v, look_list k c = Some ws -> In v (snd ws) -> utf8 (val v))
  /\ (forall k ws v, look_program k c = Some ws -> In v (snd ws) -> utf8 (val v))
  /\ (forall k, has_entry k c = true -> Forall utf8 (entry_place k)).

Definition text_stands A (k : scalar_key A) : toml -> A -> Prop :=
  match k in scalar_key A return toml -> A -> Prop with
  | BuildRustc | BuildRustcWrapper | BuildRustcWorkspaceWrapper | BuildRustdoc | BuildTargetDir
  | BuildDepInfoBasedir | HttpProxy | HttpCainfo | HttpUserAgent | RegistriesIndex _
  | RegistriesToken _ | RegistryDefault | RegistryToken | TargetLinker _ | EnvVarValue _ => env_value
  | _ => fun _ _ => True
  end.
Lemma text_stands_for A (k : scalar_key A) u a : stands_for k u a -> text_stands A k u a.
Proof. destruct k; cbn; intros H; try exact I; try exact H; now left. Qed.
Lemma env_text u s : env_value u s -> texts u -> utf8 s.
Proof.
  intros [->|(l & -> & E)] T; [exact T|]. apply entry_in in E. apply texts_tab in T. rewrite Forall_forall in T. exact (proj2 (T _ E)).
Qed.
Lemma doc_text t c : laid_out t -> texts t -> de_config t = Some c -> text_config c.
Proof.
  intros L T D. split; [|split; [|split]].
  - intros A k v E. assert (Sy := C43_scalars t c L D A k). unfold says in Sy.
    destruct (at_path (place k) t) as [u|] eqn:P; [|congruence].
    destruct Sy as (a & (a0 & M & ->) & E'). rewrite E in E'. injection E' as ->.
    apply text_stands_for in M. destruct (texts_at _ _ _ T P) as [Tu _].
    destruct k; try exact I; exact (env_text _ _ M Tu).
  - intros k ws v E I. assert (Sy := C43_lists t c L D k). unfold says in Sy.
    destruct (at_path (list_place k) t) as [u|] eqn:P; [|congruence].
    destruct Sy as (a & (w & M & ->) & E'). rewrite E in E'. injection E' as ->.
    cbn in I. apply in_map_iff in I as (x & <- & I). destruct (texts_at _ _ _ T P) as [Tu _]. cbn.
    destruct k; cbn in M; first [exact (texts_target u w x M Tu I)|exact (texts_list u w x M Tu I)].
  - intros k ws v E I. assert (Sy := C43_programs t c L D k). unfold says in Sy.
    destruct (at_path (program_place k) t) as [u|] eqn:P; [|congruence].
    destruct Sy as (a & (w & (M & _) & ->) & E'). rewrite E in E'. injection E' as ->.
    cbn in I. apply in_map_iff in I as (x & <- & I). destruct (texts_at _ _ _ T P) as [Tu _]. exact (texts_list u w x M Tu I).
  - intros k E. rewrite (proj1 (C43_entries t c L D) k) in E.
    destruct (at_path (entry_place k) t) as [u|] eqn:P; [|discriminate E]. exact (proj2 (texts_at _ _ _ T P)).
Qed.

(** ** Written out *)
Lemma words_joined l a : utf8 a -> Forall (fun v : value str => utf8 (val v)) l -> utf8 (fold_left (fun s a => s ++ sp :: val a) l a).
Proof.
  intros U F. revert a U. induction F as [|v l V F IH]; intros a U; [exact U|]. cbn. apply IH.
  apply utf8_app; [exact U|]. change (sp :: ?x) with ([sp] ++ x). apply utf8_app; [|exact V]. apply ascii_utf8. repeat constructor.
Qed.
Lemma list_joined l a : utf8 a -> Forall (fun v : value str => utf8 (val v)) l ->
  utf8 (fold_left (fun s a => (if is_empty s then s else s ++ [sp]) ++ val a) l a).
Proof.
  intros U F. revert a U. induction F as [|v l V F IH]; intros a U; [exact U|]. cbn. apply IH.
  apply utf8_app; [|exact V]. destruct (is_empty a); [exact U|]. apply utf8_app; [exact U|]. apply ascii_utf8. repeat constructor.
Qed.
Lemma texts_words l : Forall (fun v : value str => utf8 (val v)) l -> texts (TomlArr (map ser_vstr l)).
Proof. intros F. apply texts_arr. now rewrite Forall_map. Qed.
Lemma texts_program p : Forall (fun v => utf8 (val v)) (snd (program_words p)) -> texts (ser_path_and_args p).
Proof.
  intros F. cbn in F. inversion F; subst. unfold ser_path_and_args. destruct (pa_repr p); [now apply words_joined|].
  change (TomlStr (val (pa_path p))) with (ser_vstr (pa_path p)). now apply (texts_words (pa_path p :: pa_args p)).
Qed.
Lemma texts_string_list s : Forall (fun v => utf8 (val v)) (sl_list s) -> texts (ser_string_list s).
Proof. intros F. unfold ser_string_list. destruct (sl_repr s); [apply list_joined; [constructor|exact F]|now apply texts_words]. Qed.
Lemma name_utf8 s : forallb (fun a => N.ltb (nb a) 128) s = true -> utf8 s.
Proof.
  intros H. apply ascii_utf8. apply Forall_forall. intros a I. rewrite forallb_forall in H. specialize (H a I). apply N.ltb_lt in H. exact H.
Qed.
Lemma texts_entries l : (forall k v, In (k, v) l -> utf8 k /\ texts v) -> texts (TomlTab l).
Proof. intros H. apply texts_tab, Forall_forall. intros [k v] I. exact (H k v I). Qed.
Lemma texts_map {V} (f : V -> toml) m : sorted m -> (forall k v, bget k m = Some v -> utf8 k /\ texts (f v)) -> texts (ser_map f m).
Proof.
  intros S H. apply texts_entries. intros k v I. apply in_map_iff in I as ([k' w] & [= <- <-] & I). apply H. now apply sorted_in_bget.
Qed.
Ltac plain_texts := unfold ser_vstr, ser_vbool, ser_vu32, ser_value, ser_n, ser_variant; cbn [texts].
Ltac name := apply name_utf8; vm_compute; reflexivity.
Lemma texts_variants :
  (forall x, utf8 (serde_name (frequency_variant x))) /\ (forall x, utf8 (serde_name (vcs_variant x)))
  /\ (forall x, utf8 (serde_name (protocol_variant x))) /\ (forall x, utf8 (serde_name (color_variant x)))
  /\ (forall x, utf8 (serde_name (when_variant x))).
Proof. repeat split; intros []; name. Qed.
Section Written.
Context (c : config) (T : text_config c) (O : tables_in_order c).
Lemma said {A} (k : scalar_key A) v : look k c = Some v -> valid_at k (val v).
Proof. apply T. Qed.
Lemma said_list k ws : look_list k c = Some ws -> Forall (fun v => utf8 (val v)) (snd ws).
Proof. intros E. apply Forall_forall. intros v I. destruct T as (_ & Tl & _). exact (Tl k ws v E I). Qed.
Lemma said_program k ws : look_program k c = Some ws -> Forall (fun v => utf8 (val v)) (snd ws).
Proof. intros E. apply Forall_forall. intros v I. destruct T as (_ & _ & Tp & _). exact (Tp k ws v E I). Qed.
Lemma said_entry k : has_entry k c = true -> Forall utf8 (entry_place k).
Proof. apply T. Qed.
Lemma texts_build : texts (ser_build (c_build c)).
Proof.
  apply texts_entries. intros k v H. entries H; (split; [name|]); plain_texts; try exact I.
  all: try match goal with E : b_rustc _ = Some ?x |- _ => exact (said BuildRustc x E) end.
  - now apply (said BuildRustcWrapper).
  - now apply (said BuildRustcWorkspaceWrapper).
  - now apply (said BuildRustdoc).
  - match goal with E : b_target _ = Some ?x |- _ => rename E into Et; destruct x as [s|l] end.
    + assert (F := said_list BuildTarget (AsString, [s]) ltac:(cbn; now rewrite Et)). now inversion F.
    + apply texts_words. apply (said_list BuildTarget (AsArray, l)). cbn. now rewrite Et.
  - now apply (said BuildTargetDir).
  - match goal with E : b_rustflags _ = Some ?x |- _ => apply texts_words, (said_list BuildRustflags (flags_words x)); cbn; now rewrite E end.
  - match goal with E : b_rustdocflags _ = Some ?x |- _ => apply texts_words, (said_list BuildRustdocflags (flags_words x)); cbn; now rewrite E end.
  - now apply (said BuildDepInfoBasedir).
Qed.
Lemma texts_target_table n x : bget n (c_target c) = Some x -> utf8 n /\ texts (ser_target x).
Proof.
  intros G. split.
  { assert (F := said_entry (TargetEntry n) ltac:(cbn; now rewrite G)). inversion F as [|? ? _ F']. now inversion F'. }
  apply texts_entries. intros k v H. entries H; (split; [name|]); plain_texts.
  - apply (said (TargetLinker n)). cbn. unfold under. now rewrite G.
  - match goal with E : t_runner _ = Some ?y |- _ => apply texts_program, (said_program (TargetRunner n)); cbn; unfold under; now rewrite G, E end.
  - match goal with E : t_rustflags _ = Some ?y |- _ => apply texts_words, (said_list (TargetRustflags n) (flags_words y)); cbn; unfold under; now rewrite G, E end.
  - match goal with E : t_rustdocflags _ = Some ?y |- _ => apply texts_words, (said_list (TargetRustdocflags n) (flags_words y)); cbn; unfold under; now rewrite G, E end.
Qed.
Lemma texts_env_entry n x : bget n (c_env c) = Some x -> utf8 n /\ texts (ser_env_config_value x).
Proof.
  intros G. split.
  { assert (F := said_entry (EnvEntry n) ltac:(cbn; now rewrite G)). inversion F as [|? ? _ F']. now inversion F'. }
  assert (V := said (EnvVarValue n)). cbn in V. unfold under in V. rewrite G in V.
  destruct x as [v|v fo re]; [exact (V v eq_refl)|].
  cbn [ser_env_config_value]. apply texts_entries. intros k u [[= <- <-]|H]; [split; [name|exact (V v eq_refl)]|].
  entries H; (split; [name|exact I]).
Qed.
Lemma texts_registries_entry n x : bget n (c_registries c) = Some x -> utf8 n /\ texts (ser_registries x).
Proof.
  intros G. split.
  { assert (F := said_entry (RegistriesEntry n) ltac:(cbn; now rewrite G)). inversion F as [|? ? _ F']. now inversion F'. }
  apply texts_entries. intros k v H. entries H; (split; [name|]); plain_texts.
  - apply (said (RegistriesIndex n)). cbn. unfold under. now rewrite G.
  - apply (said (RegistriesToken n)). cbn. unfold under. now rewrite G.
  - apply texts_variants.
Qed.
Lemma texts_alias_entry n x : bget n (c_alias c) = Some x -> utf8 n /\ texts (ser_string_list x).
Proof.
  intros G. split.
  { assert (F := said_entry (AliasEntry n) ltac:(cbn; now rewrite G)). inversion F as [|? ? _ F']. now inversion F'. }
  apply texts_string_list. apply (said_list (Alias n) (form_of (sl_repr x), sl_list x)). cbn. unfold under. now rewrite G.
Qed.
Lemma texts_config : texts (ser_config c).
Proof.
  apply tables_in_order_sorted in O. destruct O as (O1 & O2 & O3 & O4).
  apply texts_entries. intros k v H. entries H; (split; [name|]).
  - apply texts_map; [exact O1|exact texts_alias_entry].
  - exact texts_build.
  - apply texts_entries. intros k v H'. entries H'. split; [name|].
    match goal with E : d_browser _ = Some ?y |- _ => apply texts_program, (said_program DocBrowser); cbn; now rewrite E end.
  - apply texts_map; [exact O2|exact texts_env_entry].
  - apply texts_entries. intros k v H'. entries H'. split; [name|apply texts_variants].
  - apply texts_entries. intros k v H'. entries H'. split; [name|apply texts_variants].
  - apply texts_entries. intros k v H'. entries H'; (split; [name|]); plain_texts; try exact I.
    + now apply (said HttpProxy).
    + now apply (said HttpCainfo).
    + now apply (said HttpUserAgent).
  - apply texts_entries. intros k v H'. entries H'; (split; [name|exact I]).
  - apply texts_map; [exact O3|exact texts_registries_entry].
  - apply texts_entries. intros k v H'. entries H'; (split; [name|]); plain_texts; [now apply (said RegistryDefault)|now apply (said RegistryToken)].
  - apply texts_map; [exact O4|exact texts_target_table].
  - apply texts_entries. intros k v H'. entries H'; (split; [name|]); try exact I; [apply texts_variants|].
    apply texts_entries. intros k v H''. entries H''; (split; [name|]); [apply texts_variants|exact I].
Qed.
End Written.

(** ** Loaded *)
Lemma load_text f ps r : load_files f ps = Ok r ->
  (forall p t, In p ps -> fs_read f p = ReadTree t -> laid_out t /\ texts t) -> text_config r.
Proof.
  intros H U.
  assert (C : forall p c, In p ps -> contents f p c -> text_config c).
  { intros p c I (t & R & D). destruct (U p t I R) as [L T]. exact (doc_text t c L T D). }
  split; [|split; [|split]].
  - intros A k v E. destruct (origin_scalar _ _ _ _ _ _ H E) as (p & c & v0 & I & Cc & E0 & _ & ->). now apply (C p c I Cc).
  - intros k [fm ws] v E I. destruct (origin_list _ _ _ _ _ _ _ H E I) as (p & c & fm0 & ws0 & w0 & Ip & Cc & E0 & I0 & _ & ->).
    destruct (C p c Ip Cc) as (_ & K & _). exact (K k (fm0, ws0) w0 E0 I0).
  - intros k [fm ws] v E I. destruct (origin_program _ _ _ _ _ _ _ H E I) as (p & c & fm0 & ws0 & w0 & Ip & Cc & E0 & I0 & _ & ->).
    destruct (C p c Ip Cc) as (_ & _ & K & _). exact (K k (fm0, ws0) w0 E0 I0).
  - intros k E. assert (K : is_ok (load_files f ps) = true) by now rewrite H.
    apply load_files_ok in K. destruct K as (l & Hl & _). rewrite (load_entry f ps r l H Hl) in E.
    apply existsb_exists in E as ([p c] & I & E). destruct Hl as [Ep Fl]. rewrite Forall_forall in Fl. specialize (Fl _ I). cbn in Fl, E.
    apply (C p c); [|exact Fl|exact E]. rewrite <- Ep. exact (in_map fst _ _ I).
Qed.
