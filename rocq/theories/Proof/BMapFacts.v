(** Sorted association lists. *)
From Coq Require Import Sorting.Sorted.
From Verif.Model Require Import Base Str BMap.
From Verif.Spec Require Import ConfigSpec.
From Verif.Proof Require Import StrFacts.

Definition lt_key {V} (x y : str * V) : Prop := str_cmp (fst x) (fst y) = Lt.
Definition sorted {V} (m : bmap V) : Prop := StronglySorted lt_key m.

Lemma in_order_sorted {V} (m : bmap V) : in_order m <-> sorted m.
Proof.
  split.
  - induction m as [|x m IH]; intros H; constructor.
    + apply IH. intros a y z b E. apply (H (x :: a) y z b). cbn. now f_equal.
    + assert (S : sorted m).
      { apply IH. intros a y z b E. apply (H (x :: a) y z b). cbn. now f_equal. }
      destruct m as [|y m]; [constructor|].
      assert (L : lt_key x y) by (apply (H [] x y m); reflexivity).
      constructor; [exact L|]. inversion S as [|? ? S1 S2]; subst.
      rewrite Forall_forall in *. intros z Hz. eapply str_cmp_trans; [exact L | now apply S2].
  - intros S a x y b ->. induction a as [|z a IH]; cbn in S.
    + inversion S as [|? ? S1 S2]; subst. now inversion S2.
    + inversion S; subst. auto.
Qed.

Lemma sorted_nil {V} : sorted (@nil (str * V)).
Proof. constructor. Qed.
Lemma sorted_tail {V} x (m : bmap V) : sorted (x :: m) -> sorted m.
Proof. intros H; now inversion H. Qed.

Lemma bget_below {V} k (m : bmap V) : Forall (fun kv => str_cmp k (fst kv) = Lt) m -> bget k m = None.
Proof.
  induction 1 as [|[k' v] m H _ IH]; [easy|]. cbn in *. destruct (str_eqb k k') eqn:E; [|easy].
  apply str_eqb_eq in E. subst. rewrite str_cmp_refl in H. discriminate H.
Qed.

Lemma binsert_forall {V} (P : str * V -> Prop) k v m :
  P (k, v) -> Forall P m -> Forall P (binsert k v m).
Proof.
  intros Hp. induction 1 as [|[k' v'] m H Hm IH]; cbn; [auto|].
  destruct (str_cmp k k'); auto.
Qed.
Lemma binsert_sorted {V} k (v : V) m : sorted m -> sorted (binsert k v m).
Proof.
  induction 1 as [|[k' v'] m S IH F]; cbn; [repeat constructor|].
  destruct (str_cmp k k') eqn:E.
  - apply str_cmp_eq in E. subst. now constructor.
  - constructor; [now constructor|]. constructor; [exact E|].
    eapply Forall_impl; [|exact F]. intros z Hz. eapply str_cmp_trans; eauto.
  - constructor; [exact IH|]. apply binsert_forall; [|exact F].
    unfold lt_key. cbn. rewrite str_cmp_antisym, E. reflexivity.
Qed.

Lemma bget_binsert {V} k (v : V) m k' :
  bget k' (binsert k v m) = if str_eqb k' k then Some v else bget k' m.
Proof.
  induction m as [|[k0 v0] m IH]; cbn; [easy|].
  destruct (str_cmp k k0) eqn:E; cbn.
  - apply str_cmp_eq in E. subst. now destruct (str_eqb k' k0).
  - reflexivity.
  - rewrite IH. destruct (str_eqb k' k0) eqn:E0; [|easy].
    apply str_eqb_eq in E0. subst. destruct (str_eqb k0 k) eqn:E1; [|easy].
    apply str_eqb_eq in E1. subst. rewrite str_cmp_refl in E. discriminate E.
Qed.

Lemma bget_in {V} k (v : V) m : bget k m = Some v -> In (k, v) m.
Proof.
  induction m as [|[k' v'] m IH]; cbn; [easy|].
  destruct (str_eqb k k') eqn:E; [|auto]. apply str_eqb_eq in E. intros [= ->]. subst. auto.
Qed.
Lemma bget_keys {V} k (m : bmap V) : bget k m <> None <-> In k (bkeys m).
Proof.
  unfold bkeys. induction m as [|[k' v'] m IH]; cbn; [easy|].
  destruct (str_eqb k k') eqn:E.
  - apply str_eqb_eq in E. subst. split; auto. intros _. discriminate.
  - apply str_eqb_neq in E. rewrite IH. split; auto. intros [H|H]; congruence.
Qed.
Lemma sorted_in_bget {V} k (v : V) m : sorted m -> In (k, v) m -> bget k m = Some v.
Proof.
  induction 1 as [|[k' v'] m S IH F]; cbn; [easy|]. intros [E|H].
  - injection E as -> ->. now rewrite str_eqb_refl.
  - rewrite Forall_forall in F. specialize (F _ H). unfold lt_key in F. cbn in F.
    destruct (str_eqb k k') eqn:E; [|auto]. apply str_eqb_eq in E. subst.
    rewrite str_cmp_refl in F. discriminate F.
Qed.

(** Sorted maps with the same contents are equal. *)
Lemma sorted_ext {V} (m m' : bmap V) :
  sorted m -> sorted m' -> (forall k, bget k m = bget k m') -> m = m'.
Proof.
  intros S. revert m'. induction S as [|[k v] m S IH F]; intros m' S' H.
  - destruct m' as [|[k' v'] m']; [easy|]. specialize (H k'). cbn in H.
    rewrite str_eqb_refl in H. discriminate H.
  - destruct S' as [|[k' v'] m' S' F'].
    + specialize (H k). cbn in H. rewrite str_eqb_refl in H. discriminate H.
    + assert (E : str_cmp k k' = Eq).
      { destruct (str_cmp k k') eqn:E; [easy| |].
        - pose proof (H k) as Hk. cbn in Hk. rewrite str_eqb_refl in Hk.
          destruct (str_eqb k k') eqn:E1.
          + apply str_eqb_eq in E1. subst. rewrite str_cmp_refl in E. discriminate E.
          + rewrite bget_below in Hk; [discriminate Hk|].
            eapply Forall_impl; [|exact F']. intros z Hz. eapply str_cmp_trans; eauto.
        - assert (E' : str_cmp k' k = Lt) by (rewrite str_cmp_antisym, E; reflexivity).
          pose proof (H k') as Hk. cbn in Hk. rewrite str_eqb_refl in Hk.
          destruct (str_eqb k' k) eqn:E1.
          + apply str_eqb_eq in E1. subst. rewrite str_cmp_refl in E. discriminate E.
          + rewrite bget_below in Hk; [discriminate Hk|].
            eapply Forall_impl; [|exact F]. intros z Hz. eapply str_cmp_trans; eauto. }
      apply str_cmp_eq in E. subst k'.
      pose proof (H k) as Hk. cbn in Hk. rewrite !str_eqb_refl in Hk. injection Hk as <-.
      f_equal. apply IH; [exact S'|]. intros j. specialize (H j). cbn in H.
      destruct (str_eqb j k) eqn:Ej; [|exact H].
      apply str_eqb_eq in Ej. subst. rewrite !bget_below; auto.
Qed.

Lemma bget_bmapv {V W} (f : V -> W) m k : bget k (bmapv f m) = option_map f (bget k m).
Proof.
  unfold bmapv. induction m as [|[k' v] m IH]; cbn; [easy|]. now destruct (str_eqb k k').
Qed.
Lemma bkeys_bmapv {V W} (f : V -> W) m : bkeys (bmapv f m) = bkeys m.
Proof. unfold bkeys, bmapv. rewrite map_map. now apply map_ext. Qed.
Lemma bmapv_sorted {V W} (f : V -> W) m : sorted m -> sorted (bmapv f m).
Proof.
  induction 1 as [|[k v] m S IH F]; cbn; constructor; auto.
  rewrite Forall_forall in *. intros [k' w] H. unfold bmapv in H. apply in_map_iff in H.
  destruct H as ([k0 v0] & [= <- <-] & H). apply (F _ H).
Qed.

Lemma fold_binsert_sorted {V} (l : list (str * V)) m :
  sorted m -> sorted (fold_left (fun m kv => binsert (fst kv) (snd kv) m) l m).
Proof. revert m; induction l as [|[k v] l IH]; intros m H; cbn; auto using binsert_sorted. Qed.
Lemma bfrom_list_sorted {V} (l : list (str * V)) : sorted (bfrom_list l).
Proof. apply fold_binsert_sorted, sorted_nil. Qed.
