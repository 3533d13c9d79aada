(** Reading configuration documents. *)
From Verif.Model Require Import Base Str Path BMap Error Value De Serde.
From Verif.Spec Require Import StrSpec FlagsSpec ConfigSpec EnvSpec LoadSpec SerdeSpec.
From Verif.Proof Require Import StrFacts BMapFacts MergeProof LoadProof FlagsProof EnvTextProof.
From Coq Require Import Lia.

#[local] Arguments B : simpl never.

(** ** Enumerations *)
Ltac table_cases :=
  intros;
  repeat match goal with
         | |- context [str_eqb ?s ?k] =>
             destruct (str_eqb s k) eqn:?E;
             [apply str_eqb_eq in E; subst | apply str_eqb_neq in E]
         end;
  split; intros H;
  [ try discriminate; injection H as <-; cbn; tauto
  | cbn in H; repeat match goal with H : _ \/ _ |- _ => destruct H as [H|H] end;
    try contradiction; injection H; intros; subst; try reflexivity; exfalso; auto ].

Lemma variant_named_iff {A} (vs : list (variant A)) s a :
  NoDup (map serde_name vs) ->
  (variant_named vs s = Some a <-> In (s, a) (map (fun v => (serde_name v, va_value v)) vs)).
Proof.
  induction vs as [|v vs IH]; intros N; cbn.
  - split; [discriminate|contradiction].
  - inversion N as [|x l NI ND]; subst. destruct (str_eqb s (serde_name v)) eqn:E.
    + apply str_eqb_eq in E. subst s. split.
      * intros [= <-]. now left.
      * intros [H|H]; [now injection H as <-|]. exfalso. apply NI.
        apply in_map_iff in H. destruct H as (v' & H & Hin). injection H as H1 H2.
        apply in_map_iff. exists v'. now split.
    + apply str_eqb_neq in E. rewrite (IH ND). split; [now right|]. intros [H|H]; [|exact H].
      injection H as H1 H2. now subst.
Qed.

Lemma vcs_table : map (fun v => (serde_name v, va_value v)) vcs_variants = vcss.
Proof. reflexivity. Qed.
Lemma protocol_table : map (fun v => (serde_name v, va_value v)) protocol_variants = protocols.
Proof. reflexivity. Qed.
Lemma color_table : map (fun v => (serde_name v, va_value v)) color_variants = colors.
Proof. reflexivity. Qed.
Lemma when_table : map (fun v => (serde_name v, va_value v)) when_variants = whens.
Proof. reflexivity. Qed.
Lemma frequency_table : map (fun v => (serde_name v, va_value v)) frequency_variants = frequencies.
Proof. reflexivity. Qed.

Ltac nodup_names := vm_compute; repeat constructor; cbn; intuition discriminate.
Lemma vcs_nodup : NoDup (map serde_name vcs_variants). Proof. nodup_names. Qed.
Lemma protocol_nodup : NoDup (map serde_name protocol_variants). Proof. nodup_names. Qed.
Lemma color_nodup : NoDup (map serde_name color_variants). Proof. nodup_names. Qed.
Lemma when_nodup : NoDup (map serde_name when_variants). Proof. nodup_names. Qed.
Lemma frequency_nodup : NoDup (map serde_name frequency_variants). Proof. nodup_names. Qed.

Lemma vcs_named s a : variant_named vcs_variants s = Some a <-> In (s, a) vcss.
Proof. rewrite (variant_named_iff _ _ _ vcs_nodup). now rewrite vcs_table. Qed.
Lemma protocol_named s a : variant_named protocol_variants s = Some a <-> In (s, a) protocols.
Proof. rewrite (variant_named_iff _ _ _ protocol_nodup). now rewrite protocol_table. Qed.
Lemma color_named s a : variant_named color_variants s = Some a <-> In (s, a) colors.
Proof. rewrite (variant_named_iff _ _ _ color_nodup). now rewrite color_table. Qed.
Lemma when_named s a : variant_named when_variants s = Some a <-> In (s, a) whens.
Proof. rewrite (variant_named_iff _ _ _ when_nodup). now rewrite when_table. Qed.
Lemma frequency_named s a : variant_named frequency_variants s = Some a <-> In (s, a) frequencies.
Proof. rewrite (variant_named_iff _ _ _ frequency_nodup). now rewrite frequency_table. Qed.

Lemma de_enum_iff {A} vs (texts : list (str * A)) t a :
  (forall s a, variant_named vs s = Some a <-> In (s, a) texts) ->
  (de_enum (variant_named vs) t = Some a <-> one_of texts t a).
Proof.
  intros T. unfold one_of. split.
  - destruct t as [| | |s| | |[|[k u] [|x l]]]; cbn; try discriminate.
    + intros H. exists s. split; [now apply T|auto].
    + intros H. destruct u as [| | | | |[|]|[|]]; try discriminate; exists k; (split; [now apply T|auto]).
    + destruct u as [| | | | |[|]|[|]]; discriminate.
  - intros (s & H & [-> | [-> | -> ]]); cbn; now apply T.
Qed.

(** ** Scalars *)
Lemma de_value_iff {A} (f : toml -> option A) (P : toml -> A -> Prop) :
  (forall t a, f t = Some a <-> P t a) ->
  forall t v, de_value f t = Some v <-> exists a, P t a /\ v = unlabelled a.
Proof.
  intros H t v. unfold de_value, unlabelled. destruct (f t) as [a|] eqn:E.
  - apply H in E. split; [intros [= <-]; now exists a|]. intros (a' & Ha & ->).
    apply H in E, Ha. congruence.
  - split; [discriminate|]. intros (a' & Ha & ->). apply H in Ha. congruence.
Qed.
Lemma de_string_iff t s : de_string t = Some s <-> text_value t s.
Proof. unfold text_value. destruct t; cbn; split; try discriminate; congruence. Qed.
Lemma de_bool_iff t s : de_bool t = Some s <-> bool_value t s.
Proof. unfold bool_value. destruct t; cbn; split; try discriminate; congruence. Qed.
Lemma de_i32_iff t z : de_i32 t = Some z <-> i32_value t z.
Proof.
  unfold i32_value. destruct t; cbn; try (split; [discriminate|intros [? _]; discriminate]).
  destruct ((-2147483648 <=? z0) && (z0 <=? 2147483647))%Z eqn:E.
  - apply andb_prop in E. rewrite !Z.leb_le in E. split; [intros [= <-]; split; [reflexivity|lia]|].
    intros [[= <-] _]. reflexivity.
  - split; [discriminate|]. intros [[= <-] H]. exfalso.
    apply Bool.andb_false_iff in E. rewrite !Z.leb_gt in E. lia.
Qed.
Lemma de_u32_iff t n : de_u32 t = Some n <-> u32_value t n.
Proof.
  unfold u32_value. destruct t; cbn; try (split; [discriminate|intros [? _]; discriminate]).
  destruct ((0 <=? z) && (z <=? 4294967295))%Z eqn:E.
  - apply andb_prop in E. rewrite !Z.leb_le in E. split.
    + intros [= <-]. split; [f_equal; lia|]. lia.
    + intros [[= ->] _]. f_equal. lia.
  - split; [discriminate|]. intros [[= ->] H]. exfalso.
    apply Bool.andb_false_iff in E. rewrite !Z.leb_gt in E. lia.
Qed.

Lemma de_vstr_iff t v : de_vstr t = Some v <-> exists a, text_value t a /\ v = unlabelled a.
Proof. exact (de_value_iff _ _ de_string_iff t v). Qed.
Lemma de_vbool_iff t v : de_vbool t = Some v <-> exists a, bool_value t a /\ v = unlabelled a.
Proof. exact (de_value_iff _ _ de_bool_iff t v). Qed.
Lemma de_vi32_iff t v : de_value de_i32 t = Some v <-> exists a, i32_value t a /\ v = unlabelled a.
Proof. exact (de_value_iff _ _ de_i32_iff t v). Qed.
Lemma de_vu32_iff t v : de_vu32 t = Some v <-> exists a, u32_value t a /\ v = unlabelled a.
Proof. exact (de_value_iff _ _ de_u32_iff t v). Qed.
Lemma de_venum_iff {A} vs (texts : list (str * A)) t v :
  (forall s a, variant_named vs s = Some a <-> In (s, a) texts) ->
  (de_value (de_enum (variant_named vs)) t = Some v <-> exists a, one_of texts t a /\ v = unlabelled a).
Proof. intros T. apply de_value_iff. intros. now apply de_enum_iff. Qed.
Lemma de_vvcs_iff t v :
  de_value (de_enum (variant_named vcs_variants)) t = Some v
  <-> exists a, one_of vcss t a /\ v = unlabelled a.
Proof. exact (de_venum_iff _ _ t v vcs_named). Qed.
Lemma de_vprotocol_iff t v :
  de_value (de_enum (variant_named protocol_variants)) t = Some v
  <-> exists a, one_of protocols t a /\ v = unlabelled a.
Proof. exact (de_venum_iff _ _ t v protocol_named). Qed.
Lemma de_vcolor_iff t v :
  de_value (de_enum (variant_named color_variants)) t = Some v
  <-> exists a, one_of colors t a /\ v = unlabelled a.
Proof. exact (de_venum_iff _ _ t v color_named). Qed.
Lemma de_vwhen_iff t v :
  de_value (de_enum (variant_named when_variants)) t = Some v
  <-> exists a, one_of whens t a /\ v = unlabelled a.
Proof. exact (de_venum_iff _ _ t v when_named). Qed.
Lemma de_vfrequency_iff t v :
  de_value (de_enum (variant_named frequency_variants)) t = Some v
  <-> exists a, one_of frequencies t a /\ v = unlabelled a.
Proof. exact (de_venum_iff _ _ t v frequency_named). Qed.

(** ** Lists *)
Lemma map_str_inj ws ws' : map TomlStr ws = map TomlStr ws' -> ws = ws'.
Proof.
  intros H. apply (f_equal (map (fun t => match t with TomlStr s => s | _ => [] end))) in H.
  rewrite !map_map in H. now rewrite !map_id in H.
Qed.
Lemma de_list_vstr l v :
  de_list de_vstr l = Some v <-> exists ws, l = map TomlStr ws /\ v = map unlabelled ws.
Proof.
  split.
  - revert v. induction l as [|t l IH]; intros v; cbn.
    + intros [= <-]. now exists [].
    + destruct (de_vstr t) as [a|] eqn:Ea; [|discriminate].
      apply de_vstr_iff in Ea. destruct Ea as (s & -> & ->).
      destruct (de_list de_vstr l) as [r|]; [|discriminate].
      destruct (IH r eq_refl) as (ws & -> & ->). intros [= <-]. now exists (s :: ws).
  - intros (ws & -> & ->). induction ws as [|w ws IH]; [reflexivity|]. cbn in *. now rewrite IH.
Qed.

Lemma space_words_iff s ws : space_words s ws <-> ws = split_space_separated s.
Proof.
  unfold space_words. rewrite <- from_space_char. cbn. split; intros H; now symmetry.
Qed.

Lemma de_soa_iff t o :
  de_soa t = Some o
  <-> exists w, target_value t w
      /\ soa_view (Some o) = Some (unlabelled_words w).
Proof.
  split.
  - destruct t; cbn; try discriminate.
    + intros [= <-]. exists (AsString, [s]). split; [constructor|reflexivity].
    + destruct (de_list de_vstr l) as [v|] eqn:E; [|discriminate]. intros [= <-].
      apply de_list_vstr in E. destruct E as (ws & -> & ->). exists (AsArray, ws).
      split; [constructor|reflexivity].
  - intros (w & H & E). inversion H; subst; destruct o; cbn in E; try discriminate.
    + injection E as ->. reflexivity.
    + injection E as ->. cbn. erewrite (proj2 (de_list_vstr _ _)); [reflexivity|]. now exists ws.
Qed.
Lemma de_flags_iff t o :
  de_flags t = Some o <-> exists w, list_value t w /\ flags_words o = unlabelled_words w.
Proof.
  unfold de_flags. split.
  - destruct t; cbn; try discriminate.
    + intros [= <-]. exists (AsString, split_space_separated s). split; [|reflexivity].
      constructor. now apply space_words_iff.
    + destruct (de_list de_vstr l) as [v|] eqn:E; [|discriminate]. intros [= <-].
      apply de_list_vstr in E. destruct E as (ws & -> & ->). exists (AsArray, ws).
      split; [constructor|reflexivity].
  - intros (w & H & E). inversion H; subst; destruct o as [f r]; unfold flags_words in E; cbn in E.
    + apply space_words_iff in H0. subst ws. destruct r; [|discriminate]. injection E as ->. reflexivity.
    + destruct r; [discriminate|]. injection E as ->. cbn.
      erewrite (proj2 (de_list_vstr _ _)); [reflexivity|]. now exists ws.
Qed.
Lemma de_string_list_iff t o :
  de_string_list t = Some o
  <-> exists w, list_value t w /\ (form_of (sl_repr o), sl_list o) = unlabelled_words w.
Proof.
  unfold de_string_list. split.
  - destruct t; cbn; try discriminate.
    + intros [= <-]. exists (AsString, split_space_separated s). split; [|reflexivity].
      constructor. now apply space_words_iff.
    + destruct (de_list de_vstr l) as [v|] eqn:E; [|discriminate]. intros [= <-].
      apply de_list_vstr in E. destruct E as (ws & -> & ->). exists (AsArray, ws).
      split; [constructor|reflexivity].
  - intros (w & H & E). inversion H; subst; destruct o as [f r]; cbn in E.
    + apply space_words_iff in H0. subst ws. destruct r; [|discriminate]. injection E as ->. reflexivity.
    + destruct r; [discriminate|]. injection E as ->. cbn.
      erewrite (proj2 (de_list_vstr _ _)); [reflexivity|]. now exists ws.
Qed.
Lemma de_program_iff t o :
  de_path_and_args t = Some o <-> exists w, program_value t w /\ program_words o = unlabelled_words w.
Proof.
  unfold de_path_and_args, program_value. split.
  - destruct t; cbn; try discriminate.
    + unfold pa_from_string. destruct (split_space_separated s) as [|w ws] eqn:E; cbn; [discriminate|].
      intros [= <-]. exists (AsString, w :: ws). split; [|reflexivity].
      split; [|discriminate]. constructor. apply space_words_iff. now rewrite E.
    + destruct (de_list de_vstr l) as [v|] eqn:E; [|discriminate].
      apply de_list_vstr in E. destruct E as (ws & -> & ->). destruct ws as [|w ws]; [discriminate|].
      intros [= <-]. exists (AsArray, w :: ws).
      split; [split; [constructor|discriminate]|reflexivity].
  - intros (w & [H N] & E). inversion H; subst; destruct o as [p a r]; unfold program_words in E; cbn in E, N.
    + apply space_words_iff in H0. destruct r; [|discriminate].
      destruct ws as [|w ws]; [easy|]. injection E as -> ->. unfold pa_from_string.
      rewrite <- H0. reflexivity.
    + destruct r; [discriminate|]. destruct ws as [|w ws]; [easy|]. injection E as -> ->.
      erewrite (proj2 (de_list_vstr _ _)); [|now exists (w :: ws)]. reflexivity.
Qed.
