From Coq Require Import List Lia Sorting.Sorted.
From Verif.Model Require Import Base Str Path BMap Error Value De Merge SetPath Serde Walk Load Get.
From Verif.Spec Require Import StrSpec Utf8Spec WalkSpec ConfigSpec LoadSpec SerdeSpec GetSpec.
From Verif.Proof Require Import StrFacts BMapFacts LoadProof SerdeDocProof RoundTripProof LossyProof Utf8Proof.
Import ListNotations.

#[local] Arguments B : simpl never.

Section Ind.
  Variable P : toml -> Prop.
  Hypothesis HL : forall t, leaf t -> P t.
  Hypothesis HT : forall l, Forall (fun kv => P (snd kv)) l -> P (TomlTab l).
  Fixpoint toml_tables_ind (t : toml) : P t :=
    match t return P t with
    | TomlTab l =>
        HT l ((fix go (l : list (str * toml)) : Forall (fun kv => P (snd kv)) l :=
                 match l with
                 | [] => Forall_nil _
                 | (k, v) :: r => Forall_cons (k, v) (toml_tables_ind v : P (snd (k, v))) (go r)
                 end) l)
    | TomlBool b => HL (TomlBool b) (fun l => ltac:(discriminate))
    | TomlInt z => HL (TomlInt z) (fun l => ltac:(discriminate))
    | TomlFloat s => HL (TomlFloat s) (fun l => ltac:(discriminate))
    | TomlStr s => HL (TomlStr s) (fun l => ltac:(discriminate))
    | TomlDate s => HL (TomlDate s) (fun l => ltac:(discriminate))
    | TomlArr l => HL (TomlArr l) (fun l => ltac:(discriminate))
    end.
End Ind.

(** The leaves of a tree. *)
Fixpoint items (t : toml) : list (list str * toml) :=
  match t with
  | TomlTab l => flat_map (fun '(k, v) => map (fun e => (k :: fst e, snd e)) (items v)) l
  | _ => [([], t)]
  end.
Lemma items_leaf t : leaf t -> items t = [([], t)].
Proof. destruct t; try reflexivity. intros H. now destruct (H l). Qed.
Lemma table_leaf t : leaf t -> table_of t = t.
Proof. destruct t; try reflexivity. intros H. now destruct (H l). Qed.

(** ** Printing *)
Definition dots (p : list str) : str := flat_map (fun k => "."%char :: k) p.
Lemma dotted_cons k p : dotted (k :: p) = k ++ dots p.
Proof.
  unfold dotted, dots. revert k. induction p as [|k' p IH]; intros k; cbn [intercalate flat_map].
  - now rewrite app_nil_r.
  - cbn [intercalate] in IH. rewrite IH. reflexivity.
Qed.
Lemma flat_map_concat {A X} (f : A -> list X) l : flat_map f l = concat (map f l).
Proof. induction l; cbn; congruence. Qed.
Lemma concat_flat {A X} (f : A -> list (list X)) l : concat (flat_map f l) = flat_map (fun a => concat (f a)) l.
Proof. induction l; cbn; [reflexivity|]. now rewrite concat_app, IHl. Qed.
Lemma map_flat {A X Y} (g : X -> Y) (f : A -> list X) l : map g (flat_map f l) = flat_map (fun a => map g (f a)) l.
Proof. induction l; cbn; [reflexivity|]. now rewrite map_app, IHl. Qed.
Lemma flat_map_ext_in {A X} (f g : A -> list X) l : (forall a, In a l -> f a = g a) -> flat_map f l = flat_map g l.
Proof.
  induction l as [|a l IH]; intros H; cbn; [reflexivity|]. rewrite (H a (or_introl eq_refl)). f_equal.
  apply IH. intros b Hb. apply H. now right.
Qed.

Lemma print_items show t path :
  print_value show path t
  = concat (map (fun e => path ++ dots (fst e) ++ B " = " ++ show (snd e) ++ [nl]) (items t)).
Proof.
  revert path. induction t as [t L|l F] using toml_tables_ind; intros path.
  - rewrite (items_leaf _ L). cbn. rewrite app_nil_r. destruct t; try reflexivity. now destruct (L l).
  - cbn [print_value items]. rewrite map_flat, concat_flat.
    apply flat_map_ext_in. intros [k v] Hin. rewrite Forall_forall in F. rewrite (F _ Hin), map_map. f_equal.
    apply map_ext. intros [p x]. cbn [fst snd dots flat_map]. rewrite <- !app_assoc. reflexivity.
Qed.
Lemma print_config_items show c :
  print_config show c = lines show (items (table_of (ser_config c))).
Proof.
  unfold print_config, lines. destruct (ser_config c) as [| | | | | |l] eqn:E; try discriminate E.
  cbn [table_of]. generalize (bfrom_list (map (fun '(k, v) => (k, table_of v)) l)) as m. clear. intros m.
  cbn [items]. rewrite map_flat. etransitivity; [|symmetry; exact (concat_flat (X:=ascii) _ m)].
  apply flat_map_ext_in. intros [k v] _.
  rewrite print_items, map_map. f_equal. apply map_ext. intros [p x]. unfold line. cbn [fst snd].
  rewrite dotted_cons, <- !app_assoc. reflexivity.
Qed.

(** ** The leaves are those of the tree *)
Inductive orderly : toml -> Prop :=
| orderly_leaf t : leaf t -> orderly t
| orderly_tab l : NoDup (map fst l) -> (forall k v, In (k, v) l -> orderly v) -> orderly (TomlTab l).

Lemma leaf_at t p v : leaf t -> (at_path p t = Some v <-> p = [] /\ v = t).
Proof.
  intros L. destruct p as [|k p]; cbn.
  - split; [intros [= ->]; auto|intros [_ ->]; auto].
  - split; [|intros [[=] _]]. destruct t; try discriminate. now destruct (L l).
Qed.
Lemma in_table (l : list (str * toml)) k u : NoDup (map fst l) ->
  (In (k, u) (bfrom_list (map (fun '(k, v) => (k, table_of v)) l)) <-> exists w, entry k l = Some w /\ u = table_of w).
Proof.
  intros N. set (m := map _ l).
  assert (N' : NoDup (map fst m)).
  { unfold m. rewrite map_map. erewrite map_ext; [exact N|]. now intros [? ?]. }
  split.
  - intros H. apply (sorted_in_bget _ _ _ (bfrom_list_sorted m)) in H.
    apply (bget_from_list _ _ _ N') in H. apply in_map_iff in H as ([k' w] & [= -> <-] & I).
    exists w. split; [now apply in_entry|reflexivity].
  - intros (w & E & ->). apply bget_in, (bget_from_list _ _ _ N'). apply in_map_iff. exists (k, w).
    split; [reflexivity|]. now apply entry_in.
Qed.
Lemma in_items t p v : orderly t -> (In (p, v) (items (table_of t)) <-> at_path p t = Some v /\ leaf v).
Proof.
  revert p. induction t as [t L|l F] using toml_tables_ind; intros p O.
  - rewrite (table_leaf _ L), (items_leaf _ L), (leaf_at _ _ _ L). cbn. split.
    + intros [[= <- <-]|[]]. auto.
    + intros [[-> ->] _]. auto.
  - inversion O as [t L|l' N Oc]; subst; [now destruct (L l)|].
    cbn [table_of items]. rewrite in_flat_map. split.
    + intros ([k u] & I & J). apply (in_table _ _ _ N) in I as (w & E & ->).
      apply in_map_iff in J as ([q x] & [= <- <-] & J). rewrite at_path_tab, E.
      pose proof (entry_in _ _ _ E) as Iw. rewrite Forall_forall in F.
      apply (F _ Iw q (Oc _ _ Iw)). exact J.
    + intros [H Lv]. destruct p as [|k q]; [cbn in H; injection H as <-; now destruct (Lv l)|].
      rewrite at_path_tab in H. destruct (entry k l) as [w|] eqn:E; [|discriminate].
      pose proof (entry_in _ _ _ E) as Iw. exists (k, table_of w). split; [apply (in_table _ _ _ N); eauto|].
      apply in_map_iff. exists (q, v). split; [reflexivity|]. rewrite Forall_forall in F.
      apply (F _ Iw q (Oc _ _ Iw)). auto.
Qed.

(** ** Order *)
Lemma sorted_app {A} (R : A -> A -> Prop) l l' :
  StronglySorted R l -> StronglySorted R l' -> (forall a b, In a l -> In b l' -> R a b) -> StronglySorted R (l ++ l').
Proof.
  induction 1 as [|a l S IH F]; intros S' H; cbn; [exact S'|]. constructor.
  - apply IH; [exact S'|]. intros x y X Y. apply H; [now right|exact Y].
  - apply Forall_app. split; [exact F|]. apply Forall_forall. intros y Y. apply H; [now left|exact Y].
Qed.
Lemma items_sorted t : StronglySorted path_lt (map fst (items (table_of t))).
Proof.
  induction t as [t L|l F] using toml_tables_ind.
  - rewrite (table_leaf _ L), (items_leaf _ L). cbn. repeat constructor.
  - cbn [table_of items].
    pose proof (bfrom_list_sorted (map (fun '(k, v) => (k, table_of v)) l)) as S.
    assert (I : forall k u, In (k, u) (bfrom_list (map (fun '(k, v) => (k, table_of v)) l)) ->
                StronglySorted path_lt (map fst (items u))).
    { intros k u H. apply from_list_in in H. apply in_map_iff in H as ([k' w] & [= -> <-] & I).
      rewrite Forall_forall in F. exact (F _ I). }
    revert S I. generalize (bfrom_list (map (fun '(k, v) => (k, table_of v)) l)) as m. clear.
    intros m S I. induction S as [|[k u] m S IH F]; [constructor|]. cbn [flat_map]. rewrite map_app.
    apply sorted_app.
    + specialize (I k u (or_introl eq_refl)). rewrite map_map. cbn [fst].
      rewrite <- (map_map fst (cons k)). induction I as [|p ps Sp IHp Fp]; [constructor|].
      cbn [map]. constructor; [exact IHp|]. apply Forall_forall. intros q Q. apply in_map_iff in Q as (q' & <- & Q).
      apply lt_later. rewrite Forall_forall in Fp. auto.
    + apply IH. intros k' u' H. apply (I k' u'). now right.
    + intros p q P Q. apply in_map_iff in P as ([p' x] & <- & P). apply in_map_iff in P as ([p'' x'] & [= <- <-] & P).
      apply in_map_iff in Q as ([q' y] & <- & Q). apply in_flat_map in Q as ([k' u'] & Q1 & Q).
      apply in_map_iff in Q as ([q'' y'] & [= <- <-] & Q). cbn [fst]. apply lt_here.
      rewrite Forall_forall in F. exact (F _ Q1).
Qed.

Lemma listing_items t : orderly t -> listing t (items (table_of t)).
Proof. intros O. split; [apply items_sorted|]. intros p v. now apply in_items. Qed.

(** ** There is one listing only *)
Lemma path_lt_irrefl p : ~ path_lt p p.
Proof.
  induction p as [|k p IH]; intros H; inversion H; subst; auto. rewrite str_cmp_refl in *. discriminate.
Qed.
Lemma path_lt_trans p q r : path_lt p q -> path_lt q r -> path_lt p r.
Proof.
  intros H. revert r. induction H as [a b p q E|a p q H IH]; intros r K; inversion K; subst.
  - apply lt_here. eapply str_cmp_trans; eauto.
  - now apply lt_here.
  - now apply lt_here.
  - apply lt_later. auto.
Qed.
Lemma listing_unique t ls ls' : listing t ls -> listing t ls' -> ls = ls'.
Proof.
  intros (S & I) (S' & I').
  assert (E : forall e, In e ls <-> In e ls') by (intros [p v]; rewrite I, I'; tauto).
  clear I I' t. revert ls' S' E. induction ls as [|e ls IH]; intros ls' S' E.
  - destruct ls' as [|e' ls']; [reflexivity|]. now destruct (proj2 (E e') (or_introl eq_refl)).
  - destruct ls' as [|e' ls']; [now destruct (proj1 (E e) (or_introl eq_refl))|].
    cbn [map] in S, S'. inversion S as [|x xs S1 F1]; subst. inversion S' as [|x xs S2 F2]; subst.
    rewrite Forall_forall in F1, F2.
    assert (fst e = fst e' -> In e ls' -> False).
    { intros Q H. apply (path_lt_irrefl (fst e)). rewrite Q at 1. apply F2. now apply in_map. }
    assert (Q : e = e').
    { destruct (proj1 (E e) (or_introl eq_refl)) as [<-|H1]; [reflexivity|].
      destruct (proj2 (E e') (or_introl eq_refl)) as [->|H2]; [reflexivity|]. exfalso.
      apply (path_lt_irrefl (fst e)). eapply path_lt_trans.
      - apply F1. apply in_map, H2.
      - apply F2. apply in_map, H1. }
    subst e'. f_equal. apply IH; auto. intros x. split; intros H0.
    + destruct (proj1 (E x) (or_intror H0)) as [<-|H1]; [|exact H1]. exfalso.
      apply (path_lt_irrefl (fst e)), F1, in_map, H0.
    + destruct (proj2 (E x) (or_intror H0)) as [<-|H1]; [|exact H1]. exfalso.
      apply (path_lt_irrefl (fst e)), F2, in_map, H0.
Qed.

(** ** Written configurations *)
Inductive sub {A} : list A -> list A -> Prop :=
| sub_nil l : sub [] l
| sub_keep x l m : sub l m -> sub (x :: l) (x :: m)
| sub_skip x l m : sub l m -> sub l (x :: m).
Lemma sub_in {A} (l m : list A) x : sub l m -> In x l -> In x m.
Proof. induction 1; cbn; intuition. Qed.
Lemma sub_nodup {A} (l m : list A) : sub l m -> NoDup m -> NoDup l.
Proof.
  induction 1 as [l|x l m S IH|x l m S IH]; intros N; [constructor| |]; inversion N; subst; auto.
  constructor; auto. intros H. apply (sub_in _ _ _ S) in H. contradiction.
Qed.
Lemma sub_sopt {A} k (f : A -> toml) o r names :
  sub (map fst r) names -> sub (map fst (sopt k f o ++ r)) (k :: names).
Proof. intros S. destruct o; cbn; [now apply sub_keep|now apply sub_skip]. Qed.
Lemma sub_sskip {A} k skip (f : A -> toml) a r names :
  sub (map fst r) names -> sub (map fst (sskip k skip f a ++ r)) (k :: names).
Proof. intros S. unfold sskip. destruct (skip a); cbn; [now apply sub_skip|now apply sub_keep]. Qed.
Lemma sub_sopt1 {A} k (f : A -> toml) o : sub (map fst (sopt k f o)) [k].
Proof. rewrite <- (app_nil_r (sopt k f o)). apply sub_sopt. constructor. Qed.
Lemma sub_sskip1 {A} k skip (f : A -> toml) a : sub (map fst (sskip k skip f a)) [k].
Proof. rewrite <- (app_nil_r (sskip k skip f a)). apply sub_sskip. constructor. Qed.
Fixpoint distinct (l : list str) : bool :=
  match l with [] => true | x :: r => negb (existsb (str_eqb x) r) && distinct r end.
Lemma distinct_nodup l : distinct l = true -> NoDup l.
Proof.
  induction l as [|x l IH]; cbn; intros H; constructor; apply andb_true_iff in H as [H1 H2]; auto.
  apply negb_true_iff in H1. intros I. assert (existsb (str_eqb x) l = true); [|congruence].
  apply existsb_exists. exists x. split; [exact I|apply str_eqb_refl].
Qed.
Ltac names := eapply sub_nodup; [repeat first [eapply sub_sopt | eapply sub_sskip | eapply sub_sopt1 | eapply sub_sskip1 | eapply sub_keep]|apply distinct_nodup; reflexivity].

Lemma in_sopt {A} k (f : A -> toml) o k' v : In (k', v) (sopt k f o) -> k' = k /\ exists a, o = Some a /\ v = f a.
Proof. destruct o; cbn; [intros [[= <- <-]|[]]; eauto|easy]. Qed.
Lemma in_sskip {A} k skip (f : A -> toml) a k' v :
  In (k', v) (sskip k skip f a) -> k' = k /\ skip a = false /\ v = f a.
Proof. unfold sskip. destruct (skip a); cbn; [easy|]. intros [[= <- <-]|[]]; auto. Qed.

(** Entries of written tables. *)
Ltac entries H :=
  repeat (apply in_app_iff in H as [H|H]);
  first [apply in_sopt in H as (? & ? & ? & ?) | apply in_sskip in H as (? & ? & ?)]; subst.
Ltac leafy := apply orderly_leaf; intros ?; unfold ser_vstr, ser_vbool, ser_vu32, ser_value, ser_n, ser_variant, ser_flags; try discriminate.
Lemma leaf_string_list s : leaf (ser_string_list s).
Proof. intros l. unfold ser_string_list. destruct (sl_repr s); discriminate. Qed.
Lemma leaf_program s : leaf (ser_path_and_args s).
Proof. intros l. unfold ser_path_and_args. destruct (pa_repr s); discriminate. Qed.
Lemma leaf_soa s : leaf (ser_soa s).
Proof. intros l. destruct s; discriminate. Qed.
Lemma orderly_map {V} (f : V -> toml) m : in_order m -> (forall k v, In (k, v) m -> orderly (f v)) -> orderly (ser_map f m).
Proof.
  intros S H. apply orderly_tab.
  - rewrite map_map. cbn [fst]. apply in_order_sorted in S. induction S as [|x l S IH F]; cbn; constructor.
    + intros I. apply in_map_iff in I as (y & E & I). rewrite Forall_forall in F. specialize (F _ I).
      unfold lt_key in F. rewrite E, str_cmp_refl in F. discriminate.
    + apply IH. intros k v I. apply (H k v). now right.
  - intros k v I. apply in_map_iff in I as ([k' w] & [= <- <-] & I). eauto.
Qed.
Lemma orderly_target t : orderly (ser_target t).
Proof.
  apply orderly_tab; [names|]. intros k v H. entries H; leafy. now apply leaf_program.
Qed.
Lemma orderly_registries t : orderly (ser_registries t).
Proof. apply orderly_tab; [names|]. intros k v H. entries H; leafy. Qed.
Lemma orderly_env e : orderly (ser_env_config_value e).
Proof.
  destruct e as [v|v f r]; cbn [ser_env_config_value]; [leafy|]. apply orderly_tab.
  - cbn [map fst]. names.
  - intros k w [[= <- <-]|H]; [leafy|]. entries H; leafy.
Qed.
Lemma orderly_progress t : orderly (ser_progress t).
Proof. apply orderly_tab; [names|]. intros k v H. entries H; leafy. Qed.
Lemma ser_orderly c : tables_in_order c -> orderly (ser_config c).
Proof.
  intros (T1 & T2 & T3 & T4). apply orderly_tab; [names|]. intros k v H. entries H.
  - apply orderly_map; [exact T1|]. intros. apply orderly_leaf, leaf_string_list.
  - apply orderly_tab; [names|]. intros k v H'. entries H'; leafy. now apply leaf_soa.
  - apply orderly_tab; [names|]. intros k v H'. entries H'; leafy. now apply leaf_program.
  - apply orderly_map; [exact T2|]. intros. apply orderly_env.
  - apply orderly_tab; [names|]. intros k v H'. entries H'; leafy.
  - apply orderly_tab; [names|]. intros k v H'. entries H'; leafy.
  - apply orderly_tab; [names|]. intros k v H'. entries H'; leafy.
  - apply orderly_tab; [names|]. intros k v H'. entries H'; leafy.
  - apply orderly_map; [exact T3|]. intros. apply orderly_registries.
  - apply orderly_tab; [names|]. intros k v H'. entries H'; leafy.
  - apply orderly_map; [exact T4|]. intros. apply orderly_target.
  - apply orderly_tab; [names|]. intros k v H'. entries H'; try solve [leafy]. apply orderly_progress.
Qed.

Lemma at_path_in k r l u : at_path (k :: r) (TomlTab l) = Some u -> exists w, In (k, w) l /\ at_path r w = Some u.
Proof.
  rewrite at_path_tab. destruct (entry k l) as [w|] eqn:E; [|discriminate]. apply entry_in in E. eauto.
Qed.
Ltac clash :=
  match goal with
  | H : B ?a = B ?b |- _ => exfalso; apply (f_equal (str_eqb (B a))) in H; vm_compute in H; discriminate H
  end.
Lemma at_leaf r w u : leaf w -> at_path r w = Some u -> r = [] /\ u = w.
Proof. intros L H. now apply (leaf_at _ _ _ L) in H. Qed.
Lemma tab_leaf l : ~ leaf (TomlTab l).
Proof. intros H. now apply (H l). Qed.

(** Where tables are. *)
Ltac no_leaf H :=
  apply at_leaf in H as [? ?];
  [try discriminate | first [apply leaf_program | apply leaf_soa | apply leaf_string_list | (intros ?; discriminate)]].
Ltac top := left; apply section_named; cbn [In]; tauto.
Lemma tables_where c p l : at_path p (ser_config c) = Some (TomlTab l) ->
  section p \/ exists n, p = [B "env"; n].
Proof.
  destruct p as [|k p]; [left; apply section_root|]. intros H.
  apply at_path_in in H as (w & I & H).
  assert (T : forall r x, leaf x -> at_path r x = Some (TomlTab l) -> False).
  { intros r x L E. apply (leaf_at _ _ _ L) in E as [_ E]. subst x. now apply tab_leaf in L. }
  unfold ser_vstr in *.
  entries I; destruct p as [|k p]; try top; apply at_path_in in H as (w & I & H).
  - apply in_map_iff in I as ([k' s] & [= <- <-] & I). now apply (T _ _ (leaf_string_list _)) in H.
  - entries I; exfalso; eapply T; try exact H; first [apply leaf_soa | intros ?; discriminate].
  - entries I; exfalso; eapply T; try exact H; first [apply leaf_program | intros ?; discriminate].
  - apply in_map_iff in I as ([k' e] & [= <- <-] & I). destruct p as [|x p]; [right; now exists k'|]. exfalso.
    destruct e as [v|v f r]; [eapply T; try exact H; intros ?; discriminate|]. cbn [ser_env_config_value] in H.
    apply at_path_in in H as (w & I' & H'). destruct I' as [I'|I'];
      [injection I' as <- <-; eapply T; try exact H'; intros ?; discriminate|]. rename H' into H.
    entries I'; eapply T; try exact H; intros ?; discriminate.
  - entries I; exfalso; eapply T; try exact H; intros ?; discriminate.
  - entries I; exfalso; eapply T; try exact H; intros ?; discriminate.
  - entries I; exfalso; eapply T; try exact H; intros ?; discriminate.
  - entries I; exfalso; eapply T; try exact H; intros ?; discriminate.
  - apply in_map_iff in I as ([k' e] & [= <- <-] & I). destruct p as [|x p]; [left; apply section_registry|]. exfalso.
    apply at_path_in in H as (w & I' & H). entries I'; eapply T; try exact H; intros ?; discriminate.
  - entries I; exfalso; eapply T; try exact H; intros ?; discriminate.
  - apply in_map_iff in I as ([k' e] & [= <- <-] & I). destruct p as [|x p]; [left; apply section_target|]. exfalso.
    apply at_path_in in H as (w & I' & H). entries I'; eapply T; try exact H; first [apply leaf_program | intros ?; discriminate].
  - entries I; try (exfalso; eapply T; try exact H; intros ?; discriminate).
    destruct p as [|x p]; [left; apply section_progress|]. exfalso.
    apply at_path_in in H as (w & I' & H). entries I'; eapply T; try exact H; intros ?; discriminate.
Qed.

Lemma orderly_at t p u : orderly t -> at_path p t = Some u -> orderly u.
Proof.
  revert t. induction p as [|k p IH]; intros t O H; [now injection H as <-|].
  inversion O as [x L|l N F]; subst.
  - apply (leaf_at _ _ _ L) in H. now destruct H.
  - apply at_path_in in H as (w & I & H). eauto.
Qed.
Lemma ser_laid_out c : tables_in_order c -> laid_out (ser_config c).
Proof.
  intros T p u S H.
  assert (Q : exists l, u = TomlTab l).
  { inversion S as [|s Hs| |n|n]; subst.
    - injection H as <-. eexists. reflexivity.
    - apply at_path_in in H as (w & I & H). injection H as <-. entries I; eexists; reflexivity.
    - apply at_path_in in H as (w & I & H). entries I; try clash.
      apply at_path_in in H as (w & I & H). injection H as <-. entries I; try clash. eexists; reflexivity.
    - apply at_path_in in H as (w & I & H). entries I; try clash.
      apply at_path_in in H as (w & I & H). injection H as <-. apply in_map_iff in I as ([? ?] & [= <- <-] & _).
      eexists; reflexivity.
    - apply at_path_in in H as (w & I & H). entries I; try clash.
      apply at_path_in in H as (w & I & H). injection H as <-. apply in_map_iff in I as ([? ?] & [= <- <-] & _).
      eexists; reflexivity. }
  destruct Q as (l & ->). exists l. split; [reflexivity|].
  apply (orderly_at _ _ _ (ser_orderly c T)) in H. inversion H as [x L|]; subst; [now apply tab_leaf in L|assumption].
Qed.

(** ** Where something is from is not written *)
Lemma av {A} p (v : value A) : anonymous (set_path_value p v) = anonymous v.
Proof. reflexivity. Qed.
Lemma avs {A} p (l : list (value A)) : map anonymous (sp_list set_path_value p l) = map anonymous l.
Proof. unfold sp_list. rewrite map_map. reflexivity. Qed.
Lemma ao {A} p (o : option (value A)) : option_map anonymous (spv p o) = option_map anonymous o.
Proof. now destruct o. Qed.
Lemma aflags p o : option_map a_flags (sp_opt sp_flags p o) = option_map a_flags o.
Proof. destruct o as [f|]; [|reflexivity]. cbn. unfold a_flags, sp_flags. cbn. now rewrite avs. Qed.
Lemma aprogram p o : option_map a_program (sp_opt sp_path_and_args p o) = option_map a_program o.
Proof. destruct o as [f|]; [|reflexivity]. cbn. unfold a_program, sp_path_and_args. cbn. now rewrite avs. Qed.
Lemma asoa p o : option_map a_soa (sp_opt sp_soa p o) = option_map a_soa o.
Proof. destruct o as [[v|l]|]; try reflexivity. cbn. now rewrite avs. Qed.
Lemma amap {V} (a : V -> V) (s : path -> V -> V) p m :
  (forall v, a (s p v) = a v) -> bmapv a (sp_map s p m) = bmapv a m.
Proof.
  intros H. unfold sp_map, bmapv. rewrite map_map. apply map_ext. intros [k v]. cbn. now rewrite H.
Qed.
Lemma a_sp p c : a_config (sp_config p c) = a_config c.
Proof.
  unfold a_config, sp_config.
  cbn [c_alias c_build c_doc c_env c_future_incompat_report c_cargo_new c_http c_net
       c_registries c_registry c_target c_term]. f_equal.
  - apply amap. intros v. unfold a_string_list, sp_string_list. cbn. now rewrite avs.
  - unfold a_build, sp_build, oa. cbn [b_jobs b_rustc b_rustc_wrapper b_rustc_workspace_wrapper b_rustdoc
    b_target b_target_dir b_rustflags b_rustdocflags b_incremental b_dep_info_basedir].
    now rewrite !ao, !aflags, asoa.
  - unfold a_doc, sp_doc. cbn [d_browser]. now rewrite aprogram.
  - apply amap. intros [v|v f r]; [reflexivity|]. cbn. now rewrite !ao.
  - unfold a_future, sp_future, oa. cbn [f_frequency]. now rewrite ao.
  - unfold a_cargo_new, sp_cargo_new, oa. cbn [cn_vcs]. now rewrite ao.
  - unfold a_http, sp_http, oa. cbn [h_debug h_proxy h_timeout h_cainfo h_check_revoke h_low_speed_limit
    h_multiplexing h_user_agent]. now rewrite !ao.
  - unfold a_net, sp_net, oa. cbn [n_retry n_git_fetch_with_cli n_offline]. now rewrite !ao.
  - apply amap. intros v. unfold a_registries, sp_registries, oa. cbn [r_index r_token r_protocol]. now rewrite !ao.
  - unfold a_registry, sp_registry, oa. cbn [rg_default rg_token]. now rewrite !ao.
  - apply amap. intros v. unfold a_target, sp_target, oa. cbn [t_linker t_runner t_rustflags t_rustdocflags].
    now rewrite ao, aprogram, !aflags.
  - unfold a_term, sp_term, a_progress, sp_progress, oa. cbn [tm_quiet tm_verbose tm_color tm_progress p_when p_width].
    now rewrite !ao.
Qed.
Lemma ser_sp p c : ser_config (sp_config p c) = ser_config c.
Proof. rewrite <- ser_again, a_sp, ser_again. reflexivity. Qed.

(** ** What is printed *)
Lemma print_listing show c : tables_in_order c ->
  exists ls, listing (ser_config c) ls /\ print_config show c = lines show ls.
Proof.
  intros T. eexists. split; [apply listing_items, ser_orderly, T|]. apply print_config_items.
Qed.

Lemma contents_storable f p c : contents f p c -> storable c.
Proof. intros (t & _ & H). exact (de_config_storable t c H). Qed.
Lemma load_file_err f p e : load_file f p = Err e -> stops_at f [] p e.
Proof.
  unfold load_file. destruct (fs_read f p) as [k| |t] eqn:R.
  - intros [= <-]. now apply cannot_read.
  - intros [= <-]. apply cannot_parse. now left.
  - destruct (de_config t) eqn:D; [discriminate|]. intros [= <-]. apply cannot_parse. right. eauto.
Qed.
Lemma print_files_spec show f ps :
  match snd (print_files show f ps) with
  | Ok _ => shows show f ps (fst (print_files show f ps))
  | Err e => exists pre p post, ps = pre ++ p :: post /\ shows show f pre (fst (print_files show f ps)) /\ stops_at f [] p e
  | Panic _ => False
  end.
Proof.
  induction ps as [|p ps IH]; cbn [print_files]; [constructor|].
  destruct (load_file f p) as [c|e|x] eqn:L.
  - apply load_file_ok in L as (c0 & C & ->).
    assert (S : tables_in_order c0) by (apply contents_storable in C; apply C).
    destruct (print_listing show c0 S) as (ls & Hl & El).
    assert (E : print_config show (sp_config p c0) = lines show ls)
      by (rewrite <- El; unfold print_config; now rewrite ser_sp).
    destruct (print_files show f ps) as [out r]. cbn [fst snd] in *. rewrite E.
    assert (Q : B "# " ++ lossy p ++ [nl] ++ lines show ls ++ [nl] ++ out = block show (lossy p) ls ++ out).
    { unfold block. rewrite <- !app_assoc. reflexivity. }
    destruct r as [u|e|x]; [| |contradiction].
    + rewrite Q. apply shows_cons with c0; auto. apply lossy_repaired.
    + destruct IH as (pre & q & post & -> & Sh & St). exists (p :: pre), q, post. split; [reflexivity|].
      split; [|exact St]. rewrite Q. apply shows_cons with c0; auto. apply lossy_repaired.
  - cbn [fst snd]. exists [], p, ps. split; [reflexivity|]. split; [constructor|]. now apply load_file_err.
  - pose proof (load_file_panic f p) as K. rewrite L in K. discriminate.
Qed.

(** ** Settings *)
Lemma at_path_app p q t : at_path (p ++ q) t = match at_path p t with Some u => at_path q u | None => None end.
Proof.
  revert t. induction p as [|k p IH]; intros t; [reflexivity|]. cbn [app at_path]. destruct t; try reflexivity.
  destruct (entry k l); auto.
Qed.
Definition clashing (p : list str) : Prop := section p \/ exists n, p = [B "env"; n].
Ltac no_table := intros [S|(n & S)]; [inversion S; subst|first [discriminate S|injection S as]]; try clash; try discriminate.
Lemma leaf_dec t : leaf t \/ exists l, t = TomlTab l.
Proof. destruct t; [left|left|left|left|left|left|right]; try (intros ?; discriminate). eauto. Qed.

Lemma scalar_leaf c A (k : scalar_key A) v : storable c -> look k c = Some v ->
  exists p u, at_path p (ser_config c) = Some u /\ leaf u /\
    (p = place k /\ stands_for k u (val v)
     \/ p = place k ++ [B "value"] /\ stands_for k (TomlTab [(B "value", u)]) (val v)).
Proof.
  intros St L. assert (T : tables_in_order c) by apply St.
  pose proof (ser_laid_out c T) as LO. pose proof (anon_config c St) as D.
  destruct (laid_out_root _ LO) as (root & E).
  pose proof LO as LO'. rewrite E in LO', D.
  pose proof (doc_scalar root _ A k LO' D) as K. unfold says in K. rewrite <- E in K.
  rewrite a_look, L in K. cbn [option_map] in K.
  destruct (at_path (place k) (ser_config c)) as [u|] eqn:P; [|discriminate].
  destruct K as (a & (b & SF & ->) & Q). injection Q as Q.
  destruct (leaf_dec u) as [Lu|(l & ->)].
  - exists (place k), u. split; [exact P|]. split; [exact Lu|]. left. split; [reflexivity|]. now rewrite Q.
  - destruct k; cbn [place] in P; try (exfalso; apply tables_where in P; revert P; no_table; fail).
    cbn [stands_for] in SF. destruct SF as [SF|(l' & [= <-] & En)]; [discriminate|].
    exists ([B "env"; name] ++ [B "value"]), (TomlStr b). split.
    + rewrite at_path_app, P. cbn [at_path]. now rewrite En.
    + split; [intros ?; discriminate|]. right. split; [reflexivity|]. cbn [stands_for]. right.
      eexists. split; [reflexivity|]. rewrite Q. reflexivity.
Qed.
Lemma list_leaf c k v : storable c -> look_list k c = Some v ->
  exists u w, at_path (list_place k) (ser_config c) = Some u /\ leaf u /\ list_stands_for k u w /\
    w = (fst (stored_form k v), map val (snd v)).
Proof.
  intros St L. assert (T : tables_in_order c) by apply St.
  pose proof (ser_laid_out c T) as LO. pose proof (anon_config c St) as D.
  destruct (laid_out_root _ LO) as (root & E).
  pose proof LO as LO'. rewrite E in LO', D.
  pose proof (doc_list root _ k LO' D) as K. unfold says in K. rewrite <- E in K.
  rewrite a_look_list, L in K. cbn [option_map] in K.
  destruct (at_path (list_place k) (ser_config c)) as [u|] eqn:P; [|discriminate].
  destruct K as (a & (w & SF & Qa) & Q). rewrite Qa in Q. clear a Qa. exists u, w. split; [reflexivity|].
  split.
  - destruct (leaf_dec u) as [Lu|(l & ->)]; [exact Lu|]. exfalso.
    destruct k; cbn [list_place] in P; apply tables_where in P; revert P; no_table.
  - split; [exact SF|]. destruct w as [fm ws]. unfold anonymous_words, unlabelled_words in Q.
    cbn [fst snd] in Q. injection Q as Q1 Q2. f_equal; [auto|].
    assert (M : map val (map anonymous (snd (stored_form k v))) = map val (map unlabelled ws)) by now rewrite Q2.
    rewrite !map_map in M. cbn in M. rewrite map_id in M. rewrite <- M. destruct k, v; reflexivity.
Qed.
Lemma program_leaf c k v : storable c -> look_program k c = Some v ->
  exists u w, at_path (program_place k) (ser_config c) = Some u /\ leaf u /\ program_value u w /\
    w = (fst v, map val (snd v)).
Proof.
  intros St L. assert (T : tables_in_order c) by apply St.
  pose proof (ser_laid_out c T) as LO. pose proof (anon_config c St) as D.
  destruct (laid_out_root _ LO) as (root & E).
  pose proof LO as LO'. rewrite E in LO', D.
  pose proof (doc_program root _ k LO' D) as K. unfold says in K. rewrite <- E in K.
  rewrite a_look_program, L in K. cbn [option_map] in K.
  destruct (at_path (program_place k) (ser_config c)) as [u|] eqn:P; [|discriminate].
  destruct K as (a & (w & SF & Qa) & Q). rewrite Qa in Q. clear a Qa. exists u, w. split; [reflexivity|].
  split.
  - destruct (leaf_dec u) as [Lu|(l & ->)]; [exact Lu|]. exfalso.
    destruct k; cbn [program_place] in P; apply tables_where in P; revert P; no_table.
  - split; [exact SF|]. destruct w as [fm ws]. unfold anonymous_words, unlabelled_words in Q.
    cbn [fst snd] in Q. injection Q as Q1 Q2. f_equal; [auto|].
    assert (M : map val (map anonymous (snd v)) = map val (map unlabelled ws)) by now rewrite Q2.
    rewrite !map_map in M. cbn in M. rewrite map_id in M. rewrite <- M. reflexivity.
Qed.

(** ** Reading the lines back *)
Lemma dotted_inj p q : Forall (fun k => ~ In "."%char k) p -> Forall (fun k => ~ In "."%char k) q ->
  p <> [] -> q <> [] -> dotted p = dotted q -> p = q.
Proof.
  intros P Q Np Nq E. unfold dotted in E.
  rewrite <- (split_intercalate "."%char p) by assumption. rewrite <- (split_intercalate "."%char q) by assumption.
  now rewrite E.
Qed.
Lemma lines_decide t t' ls ls' : listing (TomlTab t) ls -> listing (TomlTab t') ls' -> no_dots ls -> no_dots ls' ->
  map (fun e => (dotted (fst e), snd e)) ls = map (fun e => (dotted (fst e), snd e)) ls' -> ls = ls'.
Proof.
  intros (_ & I) (_ & I') N N'.
  assert (Ne : Forall (fun e => fst e <> []) ls).
  { apply Forall_forall. intros [p v] H. apply I in H as [H L]. cbn. intros ->. injection H as <-. now apply (tab_leaf t). }
  assert (Ne' : Forall (fun e => fst e <> []) ls').
  { apply Forall_forall. intros [p v] H. apply I' in H as [H L]. cbn. intros ->. injection H as <-. now apply (tab_leaf t'). }
  clear I I'. revert ls' N' Ne'. unfold no_dots in *.
  induction ls as [|[p v] ls IH]; intros [|[q w] ls'] N' Ne' E; try discriminate; [reflexivity|].
  cbn [map fst snd] in E. injection E as E1 E2 E3. inversion N; inversion Ne; inversion N'; inversion Ne'; subst.
  f_equal; [|now apply IH]. f_equal. now apply dotted_inj.
Qed.

(** ** The note *)
Lemma note_spec escape vars :
  exists keep, (forall kv, keep kv = true <-> listed kv) /\
    note escape vars
    = B "note: The following environment variables may affect the loaded values." ++ [newline]
      ++ concat (map (fun kv => fst kv ++ B "=" ++ escape (snd kv) ++ [newline]) (filter keep vars)).
Proof.
  exists (fun kv => (utf8_valid (fst kv) && utf8_valid (snd kv) && starts_with (B "CARGO_") (fst kv))%bool). split.
  - intros [k v]. unfold listed. cbn [fst snd]. rewrite !andb_true_iff, !utf8_valid_iff, starts_with_iff. tauto.
  - unfold note. f_equal. f_equal. induction vars as [|[k v] vars IH]; [reflexivity|].
    cbn [note_vars filter fst snd]. unfold to_str. destruct (utf8_valid k), (utf8_valid v); cbn [andb]; auto.
    destruct (starts_with (B "CARGO_") k); auto. cbn [map concat fst snd]. rewrite IH, <- !app_assoc. reflexivity.
Qed.

(** ** Every leaf is a setting *)
Inductive known : list str -> Prop :=
| known_scalar A (k : scalar_key A) : known (place k)
| known_value n : known [B "env"; n; B "value"]
| known_list k : known (list_place k)
| known_program k : known (program_place k).
Ltac kn := first
  [ exact (known_list (Alias _)) | exact (known_list BuildTarget) | exact (known_list BuildRustflags)
  | exact (known_list BuildRustdocflags) | exact (known_list (TargetRustflags _))
  | exact (known_list (TargetRustdocflags _)) | exact (known_program DocBrowser)
  | exact (known_program (TargetRunner _))
  | exact (known_scalar _ BuildJobs) | exact (known_scalar _ BuildRustc) | exact (known_scalar _ BuildRustcWrapper)
  | exact (known_scalar _ BuildRustcWorkspaceWrapper) | exact (known_scalar _ BuildRustdoc)
  | exact (known_scalar _ BuildTargetDir) | exact (known_scalar _ BuildIncremental)
  | exact (known_scalar _ BuildDepInfoBasedir) | exact (known_scalar _ (EnvVarValue _))
  | exact (known_scalar _ (EnvVarForce _)) | exact (known_scalar _ (EnvVarRelative _))
  | exact (known_scalar _ FutureFrequency) | exact (known_scalar _ CargoNewVcs) | exact (known_scalar _ HttpDebug)
  | exact (known_scalar _ HttpProxy) | exact (known_scalar _ HttpTimeout) | exact (known_scalar _ HttpCainfo)
  | exact (known_scalar _ HttpCheckRevoke) | exact (known_scalar _ HttpLowSpeedLimit)
  | exact (known_scalar _ HttpMultiplexing) | exact (known_scalar _ HttpUserAgent)
  | exact (known_scalar _ NetRetry) | exact (known_scalar _ NetGitFetchWithCli) | exact (known_scalar _ NetOffline)
  | exact (known_scalar _ (RegistriesIndex _)) | exact (known_scalar _ (RegistriesToken _))
  | exact (known_scalar _ (RegistriesProtocol _)) | exact (known_scalar _ RegistryDefault)
  | exact (known_scalar _ RegistryToken) | exact (known_scalar _ (TargetLinker _))
  | exact (known_scalar _ TermQuiet) | exact (known_scalar _ TermVerbose) | exact (known_scalar _ TermColor)
  | exact (known_scalar _ TermProgressWhen) | exact (known_scalar _ TermProgressWidth)
  | exact (known_value _) ].
Ltac lf H := apply at_leaf in H as [-> ->];
  [kn | first [apply leaf_string_list | apply leaf_soa | apply leaf_program | intros ?; discriminate]].
Lemma leaf_known c p u : at_path p (ser_config c) = Some u -> leaf u -> known p.
Proof.
  intros H L. destruct p as [|k p]; [injection H as <-; now apply tab_leaf in L|].
  apply at_path_in in H as (w & I & H).
  entries I; (destruct p as [|k p]; [injection H as <-; now apply tab_leaf in L|]);
    apply at_path_in in H as (w & I & H).
  - apply in_map_iff in I as ([k' s] & [= <- <-] & I). lf H.
  - entries I; lf H.
  - entries I; lf H.
  - apply in_map_iff in I as ([k' e] & [= <- <-] & I). cbn [snd] in H.
    destruct e as [v|v f r]; [lf H|]. cbn [ser_env_config_value] in H.
    destruct p as [|x p]; [injection H as <-; now apply tab_leaf in L|].
    apply at_path_in in H as (w & I' & H'). destruct I' as [I'|I'];
      [apply (f_equal fst) in I' as I1; apply (f_equal snd) in I'; cbn [fst snd] in I1, I'; subst x w; lf H'|].
    entries I'; lf H'.
  - entries I; lf H.
  - entries I; lf H.
  - entries I; lf H.
  - entries I; lf H.
  - apply in_map_iff in I as ([k' e] & [= <- <-] & I). cbn [snd] in H.
    destruct p as [|x p]; [injection H as <-; now apply tab_leaf in L|].
    apply at_path_in in H as (w & I' & H'). entries I'; lf H'.
  - entries I; lf H.
  - apply in_map_iff in I as ([k' e] & [= <- <-] & I). cbn [snd] in H.
    destruct p as [|x p]; [injection H as <-; now apply tab_leaf in L|].
    apply at_path_in in H as (w & I' & H'). entries I'; lf H'.
  - entries I; try solve [lf H].
    destruct p as [|x p]; [injection H as <-; now apply tab_leaf in L|].
    apply at_path_in in H as (w & I' & H'). entries I'; lf H'.
Qed.
(** [u] at [p] is a setting of [c]. *)
Lemma leaf_setting c p u : storable c -> at_path p (ser_config c) = Some u -> leaf u -> setting c p u.
Proof.
  intros St H L. pose proof (leaf_known c p u H L) as K. assert (T : tables_in_order c) by apply St.
  pose proof (ser_laid_out c T) as LO. pose proof (anon_config c St) as D.
  destruct (laid_out_root _ LO) as (root & E). rewrite E in LO, D. inversion K as [A k|n|k|k]; subst p.
  - pose proof (doc_scalar root _ A k LO D) as S. unfold says in S. rewrite <- E, H, a_look in S.
    destruct S as (a & (b & SF & ->) & Q). destruct (look k c) as [v|] eqn:Lk; [|discriminate]. injection Q as Q.
    apply (set_scalar c A k v); auto. now rewrite Q.
  - change [B "env"; n; B "value"] with (place (EnvVarValue n) ++ [B "value"]) in *.
    rewrite at_path_app in H. destruct (at_path (place (EnvVarValue n)) (ser_config c)) as [w|] eqn:W; [|discriminate].
    pose proof (doc_scalar root _ _ (EnvVarValue n) LO D) as S. unfold says in S. rewrite <- E, W, a_look in S.
    destruct S as (a & (b & SF & ->) & Q). destruct (look (EnvVarValue n) c) as [v|] eqn:Lk; [|discriminate].
    injection Q as Q. apply (set_env_value c n v); auto.
    cbn [stands_for] in SF. destruct SF as [->|(l & -> & En)]; [discriminate|]. cbn [at_path] in H. rewrite En in H.
    injection H as <-. now rewrite Q.
  - pose proof (doc_list root _ k LO D) as S. unfold says in S. rewrite <- E, H, a_look_list in S.
    destruct S as (a & (b & SF & ->) & Q). destruct (look_list k c) as [v|] eqn:Lk; [|discriminate].
    destruct (list_leaf c k v St Lk) as (u' & w & H' & _ & SF' & Ew). rewrite H in H'. injection H' as <-.
    apply (set_list c k v); auto. now rewrite <- Ew.
  - pose proof (doc_program root _ k LO D) as S. unfold says in S. rewrite <- E, H, a_look_program in S.
    destruct S as (a & (b & SF & ->) & Q). destruct (look_program k c) as [v|] eqn:Lk; [|discriminate].
    destruct (program_leaf c k v St Lk) as (u' & w & H' & _ & SF' & Ew). rewrite H in H'. injection H' as <-.
    apply (set_program c k v); auto. now rewrite <- Ew.
Qed.
