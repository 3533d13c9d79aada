(** The generator against its specification. *)
From Verif.Model Require Import Base Str Codegen.
From Verif.Spec Require Import CodegenSpec.
From Verif.Proof Require Import StrFacts.

Section item_ind.
  Variable P : item -> Prop.
  Hypothesis struct : forall p n f, P (Struct p n f).
  Hypothesis enum : forall p n v, P (Enum p n v).
  Hypothesis module : forall n c, Forall P c -> P (Module n c).
  Hypothesis within : forall c, Forall P c -> P (Within c).
  Fixpoint item_rec' (i : item) : P i :=
    let all := fix all (l : list item) : Forall P l :=
      match l with
      | [] => Forall_nil P
      | j :: t => Forall_cons j (item_rec' j) (all t)
      end in
    match i with
    | Struct p n f => struct p n f
    | Enum p n v => enum p n v
    | Module n c => module n c (all c)
    | Within c => within c (all c)
    end.
End item_ind.

Lemma visit_located i : forall m x, In x (visit m i) <-> located m i (fst x) (snd x).
Proof.
  induction i as [p n f | p n v | n c IH | c IH] using item_rec'; intros m [m' j]; cbn.
  - split; [intros [[= <- <-] | []]; constructor |]. intros H; inversion H; subst; left; reflexivity.
  - split; [intros [[= <- <-] | []]; constructor |]. intros H; inversion H; subst; left; reflexivity.
  - rewrite Forall_forall in IH. rewrite in_flat_map. split.
    + intros (k & Hk & Hx). eapply located_module; [exact Hk |]. apply (IH k Hk) in Hx. exact Hx.
    + intros H; inversion H; subst. eexists; split; [eassumption |]. apply IH; assumption.
  - rewrite Forall_forall in IH. rewrite in_flat_map. split.
    + intros (k & Hk & Hx). eapply located_within; [exact Hk |]. apply (IH k Hk) in Hx. exact Hx.
    + intros H; inversion H; subst. eexists; split; [eassumption |]. apply IH; assumption.
Qed.

Lemma visited_declares files x :
  In x (flat_map visit_file files) <-> declares files (fst x) (snd x).
Proof.
  unfold declares, visit_file. rewrite in_flat_map. split.
  - intros (f & Hf & Hx). apply in_flat_map in Hx as (j & Hj & Hx).
    exists f, j. repeat split; auto. apply visit_located; exact Hx.
  - intros (f & j & Hf & Hj & Hx). exists f; split; auto. apply in_flat_map.
    exists j; split; auto. apply visit_located; exact Hx.
Qed.

Lemma path_qualified m name : path_string m name = qualified m name.
Proof.
  unfold path_string. induction m as [| s m IH]; [reflexivity |].
  change (qualified (s :: m) name) with (s ++ B "::" ++ qualified m name).
  cbn [flat_map]. rewrite <- IH, <- !app_assoc. reflexivity.
Qed.

Lemma str_mem_in s l : str_mem s l = true <-> In s l.
Proof.
  unfold str_mem. rewrite existsb_exists. split.
  - intros (x & Hx & E). apply str_eqb_eq in E as ->. exact Hx.
  - intros H. exists s; split; [exact H | apply str_eqb_eq; reflexivity].
Qed.
Lemma str_mem_not s l : str_mem s l = false <-> ~ In s l.
Proof. rewrite <- str_mem_in. destruct (str_mem s l); split; intros; congruence. Qed.

Lemma serde_skip_marked f : serde_skip (fd_attrs f) = true <-> marked_skip f.
Proof.
  unfold serde_skip, marked_skip. rewrite existsb_exists. split.
  - intros (a & Ha & E). apply andb_prop in E as [E1 E2]. apply str_eqb_eq in E1.
    destruct (at_args a) as [ms |] eqn:Em; [| discriminate].
    apply existsb_exists in E2 as (x & Hx & E2). destruct x; try discriminate.
    apply str_eqb_eq in E2 as ->. exists a, ms. auto.
  - intros (a & ms & Ha & E1 & E2 & H). exists a; split; auto. rewrite E1, E2.
    change (str_eqb (B "serde") (B "serde")) with true. cbn [andb].
    apply existsb_exists. exists (MetaPath (B "skip")); split; auto.
Qed.
Lemma not_skipped_spec f : not_skipped f = true <-> ~ marked_skip f.
Proof.
  unfold not_skipped. rewrite <- serde_skip_marked. destruct (serde_skip (fd_attrs f)); cbn;
    split; intros; congruence.
Qed.
Lemma str_neqb a b : negb (str_eqb a b) = true <-> a <> b.
Proof.
  rewrite <- str_eqb_eq. destruct (str_eqb a b); cbn; split; intros; congruence.
Qed.
Lemma has_data_spec f : has_data f = true <-> holds_data f.
Proof.
  unfold has_data, holds_data. rewrite !andb_true_iff, !str_neqb.
  fold (not_skipped f). rewrite not_skipped_spec. tauto.
Qed.

Lemma chosen_filter (P : field -> Prop) p l r :
  (forall f, p f = true <-> P f) -> (chosen P l r <-> r = names (filter p l)).
Proof.
  intros Hp. split.
  - induction 1 as [| f l r Hf _ IH | f l r Hf _ IH]; cbn; [reflexivity | |].
    + apply Hp in Hf as ->. cbn. f_equal; exact IH.
    + destruct (p f) eqn:E; [apply Hp in E; contradiction | exact IH].
  - intros ->. induction l as [| f l IH]; cbn; [constructor |].
    destruct (p f) eqn:E; cbn.
    + constructor; [apply Hp; exact E | exact IH].
    + constructor 3; [rewrite <- Hp; congruence | exact IH].
Qed.
Lemma chosen_data l r : chosen holds_data l r <-> r = names (filter has_data l).
Proof. apply chosen_filter, has_data_spec. Qed.
Lemma chosen_unskipped l r :
  chosen (fun f => ~ marked_skip f) l r <-> r = names (filter not_skipped l).
Proof. apply chosen_filter, not_skipped_spec. Qed.

Lemma all_some_spec {A} (l : list (option A)) r : all_some l = Some r <-> l = map Some r.
Proof.
  revert r. induction l as [| [a |] l IH]; intros r; cbn.
  - destruct r; cbn; split; congruence.
  - destruct (all_some l) as [t |] eqn:E; cbn.
    + split.
      * intros [= <-]. cbn. f_equal. apply IH. reflexivity.
      * destruct r as [| b r]; cbn; [discriminate |]. intros [= <- H]. apply IH in H as [= <-].
        reflexivity.
    + split; [discriminate |]. destruct r as [| b r]; cbn; [discriminate |]. intros [= <- H].
      apply IH in H. discriminate.
  - split; [discriminate |]. destruct r; discriminate.
Qed.
Lemma all_some_none {A} (l : list (option A)) : all_some l = None <-> In None l.
Proof.
  induction l as [| [a |] l IH]; cbn.
  - split; [discriminate | intros []].
  - rewrite <- (or_iff_compat_l (Some a = None) IH). destruct (all_some l); cbn; split; intros H;
      try discriminate; try (right; reflexivity); try reflexivity; destruct H; discriminate.
  - split; [left; reflexivity | reflexivity].
Qed.

Lemma no_fields_spec f : negb (no_fields f) = true <-> has_fields f.
Proof.
  destruct f as [[| f l] | [| n] |]; cbn; split; intros; try congruence; try discriminate;
    try contradiction.
Qed.
Lemma forallb_fields vs :
  forallb (fun v => negb (no_fields (snd v))) vs = true
  <-> Forall (fun v : str * fields => has_fields (snd v)) vs.
Proof.
  rewrite forallb_forall, Forall_forall. split; intros H x Hx; apply no_fields_spec, H, Hx.
Qed.

Lemma arm_of_for v a : arm_of v = Some a <-> arm_for v a.
Proof.
  destruct v as [name [l | n |]]; cbn.
  - split.
    + intros [= <-]. constructor. apply chosen_unskipped. reflexivity.
    + intros H; inversion H; subst. match goal with H : chosen _ _ _ |- _ => apply chosen_unskipped in H as -> end. reflexivity.
  - destruct (Nat.eqb n 1) eqn:E.
    + apply Nat.eqb_eq in E as ->. split; [intros [= <-]; constructor |].
      intros H; inversion H; reflexivity.
    + split; [discriminate |]. intros H; inversion H; subst. discriminate.
  - split; [discriminate |]. intros H; inversion H.
Qed.
Lemma arms_for vs arms : all_some (map arm_of vs) = Some arms <-> Forall2 arm_for vs arms.
Proof.
  rewrite all_some_spec. revert arms. induction vs as [| v vs IH]; intros [| a arms]; cbn.
  - split; [constructor | reflexivity].
  - split; [discriminate | intros H; inversion H].
  - split; [discriminate | intros H; inversion H].
  - split.
    + intros [= H1 H2]. constructor; [apply arm_of_for; exact H1 | apply IH; exact H2].
    + intros H; inversion H; subst. f_equal; [apply arm_of_for; assumption | apply IH; assumption].
Qed.
Lemma arms_none vs : Forall (fun v => has_fields (snd v)) vs ->
  (all_some (map arm_of vs) = None <-> exists v n, In (v, Unnamed n) vs /\ n <> 1).
Proof.
  intros Hf. rewrite Forall_forall in Hf. rewrite all_some_none, in_map_iff. split.
  - intros ([name [l | n |]] & E & Hv); cbn in E.
    + discriminate.
    + destruct (Nat.eqb n 1) eqn:En; [discriminate |]. apply Nat.eqb_neq in En. eauto.
    + destruct (Hf _ Hv).
  - intros (v & n & Hv & Hn). exists (v, Unnamed n). split; [| exact Hv]. cbn.
    apply Nat.eqb_neq in Hn as ->. reflexivity.
Qed.

Lemma merge_of_spec x i : In i (merge_of x) <-> merge_for (fst x) (snd x) i.
Proof.
  destruct x as [m [[] name [l | n |] | p name vs | name c | c]]; cbn -[str_mem merge_exclude is_none_exclude path_string names filter];
    try (split; [intros [] | intros H; inversion H]).
  rewrite path_qualified.
  destruct (str_mem (qualified m name) merge_exclude) eqn:E.
  - apply str_mem_in in E. split; [intros [] |]. intros H; inversion H; subst. contradiction.
  - apply str_mem_not in E. split.
    + intros [<- | []]. constructor; [exact E |]. apply chosen_data. reflexivity.
    + intros H; inversion H; subst. left. f_equal. symmetry. apply chosen_data. assumption.
Qed.
Lemma is_none_of_spec x i : In i (is_none_of x) <-> is_none_for (fst x) (snd x) i.
Proof.
  destruct x as [m [[] name [l | n |] | p name vs | name c | c]]; cbn -[str_mem merge_exclude is_none_exclude path_string names filter];
    try (split; [intros [] | intros H; inversion H]).
  rewrite path_qualified.
  destruct (str_mem (qualified m name) is_none_exclude) eqn:E.
  - apply str_mem_in in E. split; [intros [] |]. intros H; inversion H; subst. contradiction.
  - apply str_mem_not in E. split.
    + intros [<- | []]. constructor; [exact E |]. apply chosen_unskipped. reflexivity.
    + intros H; inversion H; subst. left. f_equal. symmetry. apply chosen_unskipped. assumption.
Qed.

Lemma set_path_of_none x : set_path_of x = None <-> unsupported (snd x).
Proof.
  destruct x as [m [[] name [l | n |] | [] name vs | name c | c]]; cbn -[path_string names filter Nat.eqb];
    try (split; [discriminate | intros H; inversion H]).
  - destruct (Nat.eqb n 1) eqn:E.
    + apply Nat.eqb_eq in E as ->. split; [discriminate |]. intros H; inversion H; congruence.
    + apply Nat.eqb_neq in E. split; [constructor; exact E | reflexivity].
  - split; [constructor | reflexivity].
  - destruct (forallb _ vs) eqn:E.
    + apply forallb_fields in E. pose proof (arms_none vs E) as H.
      destruct (all_some (map arm_of vs)) eqn:Ea; cbn.
      * split; [discriminate |]. intros U; inversion U; subst.
        exfalso. assert (Some l = None) by (apply H; eauto). discriminate.
      * split; [| reflexivity]. intros _. destruct H as [H _].
        destruct (H eq_refl) as (v & n & Hv & Hn). econstructor; eassumption.
    + split; [discriminate |]. intros U; inversion U; subst.
      match goal with H : Forall _ _ |- _ => apply forallb_fields in H; congruence end.
Qed.
Lemma set_path_of_spec x l i : set_path_of x = Some l -> (In i l <-> set_path_for (fst x) (snd x) i).
Proof.
  destruct x as [m [[] name [fs | n |] | [] name vs | name c | c]]; cbn -[path_string names filter Nat.eqb];
    try solve [intros [= <-]; split; [intros [] | intros H; inversion H]].
  - rewrite path_qualified. intros [= <-]. split.
    + intros [<- | []]. constructor. apply chosen_data. reflexivity.
    + intros H; inversion H; subst. left. f_equal. symmetry. apply chosen_data. assumption.
  - rewrite path_qualified. destruct (Nat.eqb n 1) eqn:E; [| discriminate]. apply Nat.eqb_eq in E as ->.
    intros [= <-]. split.
    + intros [<- | []]. constructor.
    + intros H; inversion H; subst. left. reflexivity.
  - discriminate.
  - destruct (forallb _ vs) eqn:E.
    + apply forallb_fields in E. destruct (all_some (map arm_of vs)) as [arms |] eqn:Ea; [| discriminate].
      cbn -[path_string]. rewrite path_qualified. intros [= <-]. apply arms_for in Ea as Ha. split.
      * intros [<- | []]. constructor; assumption.
      * intros H; inversion H; subst. left. f_equal.
        match goal with H : Forall2 _ _ _ |- _ => apply arms_for in H end. congruence.
    + intros [= <-]. split; [intros [] |]. intros H; inversion H; subst.
      match goal with H : Forall _ _ |- _ => apply forallb_fields in H; congruence end.
Qed.

(** The list of the implementations is a concatenation over the visited items. *)
Lemma in_concat_some {A X} (f : X -> option (list A)) xs is i :
  all_some (map f xs) = Some is ->
  (In i (concat is) <-> exists x l, In x xs /\ f x = Some l /\ In i l).
Proof.
  rewrite all_some_spec. intros E. rewrite in_concat. split.
  - intros (l & Hl & Hi). assert (H : In (Some l) (map f xs)) by (rewrite E; apply in_map; exact Hl).
    apply in_map_iff in H as (x & Hx & Hin). eauto.
  - intros (x & l & Hx & Hf & Hi). exists l; split; auto.
    assert (H : In (f x) (map f xs)) by (apply in_map; exact Hx).
    rewrite Hf, E in H. apply in_map_iff in H as (? & [= ->] & ?). assumption.
Qed.

Lemma gen_de_spec files out i : gen_de files = Some out ->
  (In i out <-> exists m x, declares files m x /\ (merge_for m x i \/ set_path_for m x i)).
Proof.
  unfold gen_de. set (xs := flat_map visit_file files).
  destruct (all_some _) as [is |] eqn:E; [| discriminate].
  destruct (forallb _ _); [| discriminate]. intros [= <-].
  rewrite (in_concat_some _ _ _ i E). split.
  - intros (x & l & Hx & Hl & Hi). exists (fst x), (snd x). split; [apply visited_declares; exact Hx |].
    destruct (set_path_of x) as [sp |] eqn:Es; [| discriminate]. cbn in Hl. injection Hl as <-.
    apply in_app_iff in Hi as [Hi | Hi].
    + left. apply merge_of_spec. exact Hi.
    + right. apply (set_path_of_spec x sp i Es). exact Hi.
  - intros (m & x & Hx & Hi). exists (m, x).
    assert (Hin : In (m, x) xs) by (apply visited_declares; exact Hx).
    destruct (set_path_of (m, x)) as [sp |] eqn:Es.
    + exists (merge_of (m, x) ++ sp). repeat split; [exact Hin |].
      apply in_app_iff. destruct Hi as [Hi | Hi].
      * left. apply merge_of_spec. exact Hi.
      * right. apply (set_path_of_spec _ sp i Es). exact Hi.
    + exfalso. apply all_some_spec in E.
      assert (H : In (option_map (app (merge_of (m, x))) (set_path_of (m, x))) (map (fun x => option_map (app (merge_of x)) (set_path_of x)) xs))
        by (apply (in_map (fun x => option_map (app (merge_of x)) (set_path_of x))); exact Hin).
      rewrite Es, E in H. apply in_map_iff in H as (? & ? & _). discriminate.
Qed.

Lemma visited_spec t files :
  In t (flat_map visited_of (flat_map visit_file files))
  <-> exists m name, t = qualified m name /\
        ((exists f, declares files m (Struct true name f))
         \/ (exists vs, declares files m (Enum true name vs) /\ Forall (fun v => has_fields (snd v)) vs)).
Proof.
  rewrite in_flat_map. split.
  - intros ([m x] & Hx & Ht). apply visited_declares in Hx. cbn in Hx.
    destruct x as [[] name f | [] name vs | |]; cbn in Ht; try contradiction.
    + rewrite path_qualified in Ht. destruct Ht as [<- | []]. exists m, name. eauto.
    + destruct (forallb _ vs) eqn:E; [| contradiction]. rewrite path_qualified in Ht.
      destruct Ht as [<- | []]. apply forallb_fields in E. exists m, name. eauto.
  - intros (m & name & -> & [(f & H) | (vs & H & Hv)]).
    + exists (m, Struct true name f). split; [apply visited_declares; exact H |]. cbn.
      left; apply path_qualified.
    + exists (m, Enum true name vs). split; [apply visited_declares; exact H |]. cbn.
      apply forallb_fields in Hv as ->. left; apply path_qualified.
Qed.

Lemma forallb_false {A} (p : A -> bool) l : forallb p l = false <-> exists x, In x l /\ p x = false.
Proof.
  induction l as [| a l IH]; cbn.
  - split; [discriminate | intros (x & [] & _)].
  - destruct (p a) eqn:E; cbn.
    + rewrite IH. split; [intros (x & Hx & H); eauto |]. intros (x & [-> | Hx] & H); [congruence |].
      eauto.
    + split; [intros _; eauto | reflexivity].
Qed.

Lemma gen_de_none files :
  gen_de files = None
  <-> (exists m x, declares files m x /\ unsupported x)
      \/ (exists t, In t (merge_exclude ++ set_path_exclude)
                    /\ ~ In t (flat_map visited_of (flat_map visit_file files))).
Proof.
  unfold gen_de. set (xs := flat_map visit_file files).
  assert (HN : all_some (map (fun x => option_map (app (merge_of x)) (set_path_of x)) xs) = None
               <-> exists m x, declares files m x /\ unsupported x).
  { rewrite all_some_none, in_map_iff. split.
    - intros ([m x] & E & Hx). exists m, x. split; [apply (visited_declares files (m, x)); exact Hx |].
      apply (set_path_of_none (m, x)). destruct (set_path_of (m, x)); [discriminate | reflexivity].
    - intros (m & x & Hx & U). exists (m, x). split; [| apply visited_declares; exact Hx].
      apply (set_path_of_none (m, x)) in U as ->. reflexivity. }
  destruct (all_some _) as [is |] eqn:E.
  - split.
    + destruct (forallb _ _) eqn:Ef; [discriminate |]. intros _. right.
      apply forallb_false in Ef as (t & Ht & Hm). apply str_mem_not in Hm. eauto.
    + intros [H | (t & Ht & Hm)]; [apply HN in H; discriminate |].
      apply str_mem_not in Hm. destruct (forallb _ _) eqn:Ef; [| reflexivity].
      rewrite forallb_forall in Ef. rewrite (Ef t Ht) in Hm. discriminate.
  - split; [intros _; left; apply HN; reflexivity | reflexivity].
Qed.

Lemma gen_is_none_spec files out i : gen_is_none files = Some out ->
  (In i out <-> exists m x, declares files m x /\ is_none_for m x i).
Proof.
  unfold gen_is_none. destruct (forallb _ _); [| discriminate]. intros [= <-].
  rewrite in_flat_map. split.
  - intros ([m x] & Hx & Hi). exists m, x. split; [apply (visited_declares files (m, x)); exact Hx |].
    apply (is_none_of_spec (m, x)). exact Hi.
  - intros (m & x & Hx & Hi). exists (m, x). split; [apply visited_declares; exact Hx |].
    apply is_none_of_spec. exact Hi.
Qed.
Lemma gen_is_none_none files :
  gen_is_none files = None
  <-> exists t, In t is_none_exclude
        /\ ~ (exists m name l, t = qualified m name /\ declares files m (Struct true name (Named l))).
Proof.
  unfold gen_is_none. set (vs := flat_map is_none_visited _).
  assert (H : forall t, In t vs <-> exists m name l, t = qualified m name
                                      /\ declares files m (Struct true name (Named l))).
  { intros t. unfold vs. rewrite in_flat_map. split.
    - intros ([m x] & Hx & Ht). apply visited_declares in Hx. cbn in Hx.
      destruct x as [[] name [l | |] | | |]; cbn in Ht; try contradiction.
      rewrite path_qualified in Ht. destruct Ht as [<- | []]. eauto 6.
    - intros (m & name & l & -> & Hx). exists (m, Struct true name (Named l)).
      split; [apply visited_declares; exact Hx |]. left; apply path_qualified. }
  destruct (forallb _ _) eqn:E.
  - split; [discriminate |]. intros (t & Ht & Hm). exfalso. apply Hm, H.
    rewrite forallb_forall in E. apply str_mem_in, E, Ht.
  - split; [| reflexivity]. intros _. apply forallb_false in E as (t & Ht & Hm).
    apply str_mem_not in Hm. exists t. rewrite <- H. auto.
Qed.
