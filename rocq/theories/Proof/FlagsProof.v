From Verif.Model Require Import Base Str Error De EasyTypes.
From Verif.Spec Require Import StrSpec FlagsSpec.
From Verif.Proof Require Import StrFacts.

Lemma us_spec : us = unit_separator. Proof. reflexivity. Qed.
Lemma sp_spec : sp = space. Proof. reflexivity. Qed.

(** ** The encoding loop *)
Lemma encode_loop_none sep l buf :
  encode_loop sep buf l = None <-> Exists (fun w => In sep w) l.
Proof.
  revert buf; induction l as [|w l IH]; intros buf; cbn.
  - split; [easy | intros H; inversion H].
  - destruct (contains sep w) eqn:E.
    + apply contains_In in E. split; auto.
    + apply contains_false in E. rewrite IH. split; auto.
      intros H; inversion H; subst; easy.
Qed.

Lemma encode_loop_nonempty sep l buf :
  buf <> [] -> Forall (free_of sep) l ->
  encode_loop sep buf l = Some (intercalate sep (buf :: l)).
Proof.
  revert buf; induction l as [|w l IH]; intros buf Hb Hf; cbn [encode_loop]; [easy|].
  inversion Hf; subst. rewrite (proj2 (contains_false sep w)) by easy.
  rewrite (proj2 (is_empty_false buf) Hb).
  rewrite IH; [|now destruct buf | easy]. f_equal.
  destruct l as [|w' l]; cbn; rewrite <- !app_assoc; reflexivity.
Qed.

Lemma encode_loop_some sep l :
  Forall (free_of sep) l ->
  encode_loop sep [] l = Some (intercalate sep (drop_leading_empty l)).
Proof.
  induction l as [|w l IH]; intros Hf; cbn [encode_loop]; [easy|].
  inversion Hf; subst. rewrite (proj2 (contains_false sep w)) by easy. cbn [is_empty app].
  destruct w as [|c w]; [now apply IH|].
  rewrite encode_loop_nonempty by easy. reflexivity.
Qed.

Lemma not_exists_free sep l : ~ Exists (fun w => In sep w) l <-> Forall (free_of sep) l.
Proof. unfold free_of. rewrite <- Forall_Exists_neg. easy. Qed.

Lemma encode_internal_ok_iff sep dbg l :
  is_ok (encode_internal sep dbg (mkEflags l)) = true <-> Forall (free_of sep) l.
Proof.
  unfold encode_internal. cbn [ef_flags]. rewrite <- not_exists_free, <- (encode_loop_none sep l []).
  destruct (encode_loop sep [] l); cbn; split; congruence.
Qed.
Lemma encode_internal_not_panic sep dbg f : is_panic (encode_internal sep dbg f) = false.
Proof. unfold encode_internal. now destruct (encode_loop _ _ _). Qed.
Lemma encode_internal_value sep dbg l :
  Forall (free_of sep) l ->
  encode_internal sep dbg (mkEflags l) = Ok (intercalate sep (drop_leading_empty l)).
Proof. intros H. unfold encode_internal. cbn [ef_flags]. now rewrite encode_loop_some. Qed.

(** ** 0x1f-separated text *)
Lemma drop_leading_starts l : starts_with_text l -> intercalate us (drop_leading_empty l) = intercalate us l.
Proof.
  destruct l as [|[|c w] l]; cbn; [easy| |easy]. intros [H|H]; [easy|]. now subst.
Qed.
Lemma drop_leading_empty_sub l : exists n, l = repeat [] n ++ drop_leading_empty l.
Proof.
  induction l as [|[|c w] l [n IH]].
  - now exists 0.
  - exists (S n). cbn. f_equal. exact IH.
  - now exists 0.
Qed.
Lemma drop_leading_free sep l : Forall (free_of sep) l -> Forall (free_of sep) (drop_leading_empty l).
Proof.
  induction l as [|[|c w] l IH]; intros H; cbn; auto. inversion H; auto.
Qed.

Lemma encode_ok_iff l :
  is_ok (encode (mkEflags l)) = true <-> Forall (free_of unit_separator) l.
Proof. unfold encode. rewrite us_spec. apply encode_internal_ok_iff. Qed.
Lemma encode_never_panics f : is_panic (encode f) = false.
Proof. apply encode_internal_not_panic. Qed.
Lemma encode_value l :
  Forall (free_of unit_separator) l ->
  encode (mkEflags l) = Ok (intercalate unit_separator (drop_leading_empty l)).
Proof. apply encode_internal_value. Qed.
Lemma encode_value_join l :
  Forall (free_of unit_separator) l -> starts_with_text l ->
  encode (mkEflags l) = Ok (intercalate unit_separator l).
Proof. intros H Hs. rewrite encode_value by easy. now rewrite <- us_spec, drop_leading_starts. Qed.

Lemma drop_leading_length l : length (drop_leading_empty l) <= length l.
Proof. induction l as [|[|c w] l IH]; cbn; lia. Qed.

Lemma encode_roundtrip_iff l :
  Forall (free_of unit_separator) l ->
  (exists s, encode (mkEflags l) = Ok s /\ eflags_from_encoded s = mkEflags l)
  <-> starts_with_text l.
Proof.
  intros Hf. rewrite encode_value by easy. split.
  - intros (s & [= <-] & H). unfold eflags_from_encoded, split_encoded in H. injection H as H.
    rewrite us_spec in H.
    destruct l as [|[|c w] l].
    + cbn in H. easy.
    + cbn [drop_leading_empty] in H. inversion Hf; subst. cbn.
      destruct (drop_leading_empty l) as [|w' l'] eqn:E.
      * cbn in H. injection H as <-. now right.
      * rewrite split_intercalate in H; [|easy|rewrite <- E; now apply drop_leading_free].
        pose proof (drop_leading_length l) as Hl. rewrite E in Hl.
        apply (f_equal (@length str)) in H. cbn in H, Hl. lia.
    + cbn. left. easy.
  - intros Hs. eexists. split; [reflexivity|].
    rewrite <- us_spec, drop_leading_starts by easy.
    unfold eflags_from_encoded, split_encoded. f_equal. apply split_intercalate; [|easy].
    destruct l; easy.
Qed.

Lemma from_encoded_char s l :
  ef_flags (eflags_from_encoded s) = l
  <-> l <> [] /\ Forall (free_of unit_separator) l /\ intercalate unit_separator l = s.
Proof.
  unfold eflags_from_encoded, split_encoded. cbn [ef_flags]. rewrite <- us_spec. split.
  - intros <-. repeat split.
    + apply split_on_not_nil.
    + apply Forall_forall. intros w. apply split_on_free.
    + apply intercalate_split.
  - intros (H1 & H2 & <-). now apply split_intercalate.
Qed.

Fixpoint strip_leading (c : ascii) (s : str) : str :=
  match s with
  | x :: t => if Ascii.eqb x c then strip_leading c t else s
  | [] => []
  end.

Lemma split_leading sep s :
  intercalate sep (drop_leading_empty (split_on sep s)) = strip_leading sep s.
Proof.
  induction s as [|x s IH]; [easy|].
  destruct (Ascii.eqb_spec x sep) as [->|N].
  - cbn. now rewrite Ascii.eqb_refl.
  - cbn [strip_leading]. rewrite (proj2 (Ascii.eqb_neq x sep) N).
    rewrite <- (intercalate_split sep (x :: s)) at 2. f_equal.
    cbn [split_on]. rewrite (proj2 (Ascii.eqb_neq x sep) N).
    now destruct (split_on sep s).
Qed.

Lemma encode_from_encoded s :
  encode (eflags_from_encoded s) = Ok (strip_leading unit_separator s).
Proof.
  unfold eflags_from_encoded, split_encoded.
  rewrite encode_value.
  - now rewrite us_spec, split_leading.
  - apply Forall_forall. intros w. apply split_on_free.
Qed.
Lemma strip_leading_id c s : strip_leading c s = s <-> forall t, s <> c :: t.
Proof.
  destruct s as [|x s]; cbn; [easy|].
  destruct (Ascii.eqb_spec x c) as [->|N].
  - split.
    + intros H. exfalso. assert (L : forall u, length (strip_leading c u) <= length u).
      { induction u as [|y u IH]; cbn; [lia|]. destruct (Ascii.eqb y c); cbn; lia. }
      specialize (L s). rewrite H in L. cbn in L. lia.
    + intros H. exfalso. now apply (H s).
  - split; [|easy]. intros _ t [= -> ->]. easy.
Qed.
Lemma encode_from_encoded_iff s :
  encode (eflags_from_encoded s) = Ok s <-> forall t, s <> unit_separator :: t.
Proof.
  rewrite encode_from_encoded, <- strip_leading_id. split; congruence.
Qed.

(** ** Space-separated text *)
Definition nonempty (w : str) : bool := negb (is_empty w).

Lemma words_of_iff l t : words_of l t <-> t = filter nonempty (map trim l).
Proof.
  split.
  - induction 1 as [|w l t Hw _ IH|w v l t Hw Hv _ IH]; [easy| |]; apply trimmed_unique in Hw;
      cbn [map filter].
    + rewrite <- Hw. exact IH.
    + rewrite <- Hw. unfold nonempty at 1. rewrite (proj2 (is_empty_false v) Hv). cbn. now f_equal.
  - intros ->. induction l as [|w l IH]; cbn [map filter]; [constructor|].
    unfold nonempty at 1. destruct (is_empty (trim w)) eqn:E; cbn [negb].
    + apply is_empty_true in E. apply words_skip; [now apply trimmed_unique | exact IH].
    + apply is_empty_false in E. apply words_keep; [now apply trimmed_unique | exact E | exact IH].
Qed.

Lemma split_space_eq s : split_space_separated s = filter nonempty (map trim (split_on sp s)).
Proof.
  unfold split_space_separated, nonempty. apply filter_ext. intros a. reflexivity.
Qed.

Lemma from_space_char s l :
  ef_flags (eflags_from_space_separated s) = l
  <-> exists parts, parts <> [] /\ Forall (free_of space) parts /\ intercalate space parts = s
                    /\ words_of parts l.
Proof.
  unfold eflags_from_space_separated. cbn [ef_flags]. rewrite split_space_eq, <- sp_spec. split.
  - intros <-. exists (split_on sp s). repeat split.
    + apply split_on_not_nil.
    + apply Forall_forall. intros w. apply split_on_free.
    + apply intercalate_split.
    + now apply words_of_iff.
  - intros (parts & H1 & H2 & <- & H3). apply words_of_iff in H3.
    now rewrite split_intercalate.
Qed.

Lemma from_space_words s w :
  In w (ef_flags (eflags_from_space_separated s)) ->
  w <> [] /\ free_of space w /\ is_trimmed w.
Proof.
  unfold eflags_from_space_separated. cbn [ef_flags]. rewrite split_space_eq.
  intros H. apply filter_In in H. destruct H as [H Hn]. apply in_map_iff in H.
  destruct H as (u & <- & Hu). repeat split.
  - unfold nonempty in Hn. intros E. rewrite E in Hn. easy.
  - intros Hc. apply trim_incl in Hc. revert Hc. rewrite <- sp_spec. now apply (split_on_free sp s).
  - apply trim_is_trimmed.
  - apply trim_is_trimmed.
Qed.

Lemma encode_space_ok_iff l :
  is_ok (encode_space_separated (mkEflags l)) = true <-> Forall (free_of space) l.
Proof. unfold encode_space_separated. rewrite sp_spec. apply encode_internal_ok_iff. Qed.
Lemma encode_space_never_panics f : is_panic (encode_space_separated f) = false.
Proof. apply encode_internal_not_panic. Qed.

Lemma words_drop l t : words_of (drop_leading_empty l) t <-> words_of l t.
Proof.
  rewrite !words_of_iff. induction l as [|[|c w] l IH]; cbn [drop_leading_empty]; [easy| |easy].
  rewrite IH. cbn [map filter]. reflexivity.
Qed.

Lemma encode_space_reread l :
  Forall (free_of space) l ->
  exists s, encode_space_separated (mkEflags l) = Ok s
            /\ words_of l (ef_flags (eflags_from_space_separated s)).
Proof.
  intros Hf. unfold encode_space_separated. rewrite sp_spec, encode_internal_value by easy.
  eexists. split; [reflexivity|]. apply words_drop.
  apply words_of_iff. unfold eflags_from_space_separated. cbn [ef_flags].
  rewrite split_space_eq, sp_spec.
  destruct (drop_leading_empty l) as [|w l'] eqn:E; [reflexivity|].
  rewrite split_intercalate; [easy|easy|]. rewrite <- E. now apply drop_leading_free.
Qed.

Lemma words_id_iff l : words_of l l <-> Forall (fun w => w <> [] /\ is_trimmed w) l.
Proof.
  rewrite words_of_iff. split.
  - assert (L : forall l, length (filter nonempty (map trim l)) <= length l).
    { induction l0 as [|w l0 IH]; cbn; [lia|]. destruct (nonempty (trim w)); cbn; lia. }
    induction l as [|w l IH]; intros H; constructor.
    + cbn [map filter] in H. destruct (nonempty (trim w)) eqn:E.
      * injection H as H1 H2. split; [|now apply trim_iff].
        rewrite <- H1 in E. intros ->. easy.
      * exfalso. specialize (L l). rewrite <- H in L. cbn in L. lia.
    + apply IH. cbn [map filter] in H. destruct (nonempty (trim w)) eqn:E.
      * now injection H.
      * exfalso. specialize (L l). rewrite <- H in L. cbn in L. lia.
  - induction 1 as [|w l [H1 H2] _ IH]; [easy|]. cbn [map filter].
    rewrite (trim_id w H2). unfold nonempty at 1. rewrite (proj2 (is_empty_false w) H1). cbn. now f_equal.
Qed.

Lemma encode_space_same_iff l :
  Forall (free_of space) l ->
  (exists s, encode_space_separated (mkEflags l) = Ok s /\ eflags_from_space_separated s = mkEflags l)
  <-> Forall (fun w => w <> [] /\ is_trimmed w) l.
Proof.
  intros Hf. rewrite <- words_id_iff. destruct (encode_space_reread l Hf) as (s & E & H). split.
  - intros (s' & E' & H'). rewrite E in E'. injection E' as <-. rewrite H' in H. exact H.
  - intros Hl. exists s. split; [exact E|]. apply words_of_iff in H, Hl.
    destruct (eflags_from_space_separated s) as [fl]. cbn in H. congruence.
Qed.

Lemma from_space_idem s :
  exists s', encode_space_separated (eflags_from_space_separated s) = Ok s'
             /\ eflags_from_space_separated s' = eflags_from_space_separated s.
Proof.
  destruct (eflags_from_space_separated s) as [l] eqn:E.
  assert (H : Forall (fun w => w <> [] /\ free_of space w /\ is_trimmed w) l).
  { apply Forall_forall. intros w Hw. apply (from_space_words s). now rewrite E. }
  apply encode_space_same_iff.
  - eapply Forall_impl; [|exact H]. cbn. tauto.
  - eapply Forall_impl; [|exact H]. cbn. tauto.
Qed.

(** Pushing flags one by one: a list built by [push] behaves like the whole list. *)
Lemma push_flags f w : ef_flags (eflags_push f w) = ef_flags f ++ [w].
Proof. reflexivity. Qed.
