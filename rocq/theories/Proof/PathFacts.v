(** Facts about the path functions of [Model.Path]. *)
From Verif.Model Require Import Base Str Path.
From Verif.Spec Require Import StrSpec PathSpec.
From Verif.Proof Require Import StrFacts.

Definition nosl (w : str) : Prop := ~ In slash w.

(** A decomposition that [decompose] can return. *)
Definition dec_ok (st : start) (ws : list str) : Prop :=
  Forall nosl ws
  /\ match st with
     | SRoot => ws <> []
     | SCur => True
     | SNone => match ws with [] => True | w :: _ => w <> [] /\ w <> B "." end
     end.

Lemma decompose_ok p : dec_ok (fst (decompose p)) (snd (decompose p)).
Proof.
  unfold decompose. pose proof (split_on_free slash p) as Hf.
  assert (Hl : Forall nosl (split_on slash p)) by (apply Forall_forall; auto).
  destruct (split_on slash p) as [|w ws]; [split; cbn; auto|].
  inversion Hl; subst.
  destruct (is_empty w) eqn:Ew.
  - destruct ws; split; cbn; auto. easy.
  - apply is_empty_false in Ew. destruct (str_eqb w (B ".")) eqn:Ed.
    + split; cbn; auto.
    + apply str_eqb_neq in Ed. split; cbn; auto.
Qed.

Lemma recompose_decompose p : recompose (fst (decompose p)) (snd (decompose p)) = p.
Proof.
  pose proof (intercalate_split slash p) as Hi. unfold decompose.
  destruct (split_on slash p) as [|w ws] eqn:E; [now apply split_on_not_nil in E|].
  rewrite <- Hi. clear Hi E.
  destruct (is_empty w) eqn:Ew.
  - apply is_empty_true in Ew. subst w. destruct ws as [|w' ws]; [easy|].
    cbn [fst snd recompose]. rewrite join_with_intercalate. reflexivity.
  - destruct (str_eqb w (B ".")) eqn:Ed.
    + apply str_eqb_eq in Ed. subst w. cbn [fst snd recompose].
      destruct ws as [|w' ws]; [easy|]. rewrite join_with_intercalate. reflexivity.
    + cbn [fst snd recompose]. now rewrite join_with_intercalate.
Qed.

Lemma decompose_recompose st ws : dec_ok st ws -> decompose (recompose st ws) = (st, ws).
Proof.
  intros [Hf Hs]. unfold decompose. destruct st; cbn [recompose].
  - rewrite join_with_intercalate.
    change (slash :: intercalate slash ws) with ([] ++ slash :: intercalate slash ws).
    rewrite split_on_app_sep by easy. rewrite split_intercalate by easy. cbn.
    destruct ws; easy.
  - destruct ws as [|w ws]; [reflexivity|].
    rewrite join_with_intercalate.
    change (B "./" ++ intercalate slash (w :: ws)) with (B "." ++ slash :: intercalate slash (w :: ws)).
    rewrite split_on_app_sep.
    + rewrite split_intercalate by easy. reflexivity.
    + cbn. intros [H|[]]. discriminate H.
  - rewrite join_with_intercalate. destruct ws as [|w ws]; [reflexivity|].
    rewrite split_intercalate by easy. destruct Hs as [H1 H2].
    rewrite (proj2 (is_empty_false w) H1), (proj2 (str_eqb_neq w (B ".")) H2). reflexivity.
Qed.

Definition start_comps (st : start) : list component :=
  match st with SRoot => [RootDir] | SCur => [CurDir] | SNone => [] end.
Lemma components_decompose p :
  components p = start_comps (fst (decompose p)) ++ flat_map comp_of (snd (decompose p)).
Proof. unfold components. now destruct (decompose p) as [st ws]. Qed.

(** ** The specification's reading of a path *)
Lemma counts_junk w : counts w = negb (junk w).
Proof.
  destruct w as [|c [|d w]]; [easy| |].
  - unfold junk. cbn. now rewrite andb_true_r.
  - unfold junk. cbn. now rewrite andb_false_r.
Qed.

Definition anchor_of (st : start) : anchor :=
  match st with SRoot => AtRoot | SCur => AtDot | SNone => Plain end.

Definition names_of (ws : list str) : list str := filter counts ws.

Lemma names_of_app a b : names_of (a ++ b) = names_of a ++ names_of b.
Proof. apply filter_app. Qed.

Lemma reads_as_decompose p :
  reads_as p (anchor_of (fst (decompose p))) (names_of (snd (decompose p))).
Proof.
  pose proof (intercalate_split slash p) as Hi.
  pose proof (split_on_free slash p) as Hf.
  exists (split_on slash p). unfold decompose.
  destruct (split_on slash p) as [|w ws] eqn:E; [now apply split_on_not_nil in E|].
  repeat split; [easy | apply Forall_forall; auto | easy | |].
  - destruct (is_empty w) eqn:Ew.
    + apply is_empty_true in Ew. subst. destruct ws; reflexivity.
    + destruct (str_eqb w (B ".")) eqn:Ed.
      * apply str_eqb_eq in Ed. subst. reflexivity.
      * reflexivity.
  - destruct w as [|c w]; cbn [is_empty].
    + destruct ws; reflexivity.
    + destruct (str_eqb (c :: w) (B ".")) eqn:Ed.
      * apply str_eqb_eq in Ed. injection Ed as -> ->. reflexivity.
      * apply str_eqb_neq in Ed. cbn.
        destruct c as [[|] [|] [|] [|] [|] [|] [|] [|]]; try reflexivity.
        destruct w; [|reflexivity]. exfalso. now apply Ed.
Qed.

Lemma reads_as_unique p a l a' l' : reads_as p a l -> reads_as p a' l' -> a = a' /\ l = l'.
Proof.
  intros (ps & H1 & H2 & H3 & -> & ->) (ps' & H1' & H2' & H3' & -> & ->).
  assert (ps = ps').
  { rewrite <- (split_intercalate separator ps), <- (split_intercalate separator ps') by easy.
    now rewrite H3, H3'. }
  now subst.
Qed.

Lemma reads_as_iff p a l :
  reads_as p a l <-> a = anchor_of (fst (decompose p)) /\ l = names_of (snd (decompose p)).
Proof.
  split.
  - intros H. now apply (reads_as_unique p a l _ _ H (reads_as_decompose p)).
  - intros [-> ->]. apply reads_as_decompose.
Qed.

Lemma reads_as_recompose st ws a l :
  dec_ok st ws -> reads_as (recompose st ws) a l <-> a = anchor_of st /\ l = names_of ws.
Proof. intros H. rewrite reads_as_iff, decompose_recompose by easy. easy. Qed.

(** [components] is the same information. *)
Definition comp_name (w : str) : component := if str_eqb w (B "..") then ParentDir else Normal w.
Lemma flat_map_comp ws : flat_map comp_of ws = map comp_name (names_of ws).
Proof.
  induction ws as [|w ws IH]; [easy|]. cbn [flat_map names_of filter]. rewrite IH, counts_junk.
  unfold comp_of. destruct (junk w); cbn [negb map]; [easy|].
  unfold comp_name at 2. now destruct (str_eqb w (B "..")).
Qed.
Lemma comp_name_inj a b : comp_name a = comp_name b -> a = b.
Proof.
  unfold comp_name. destruct (str_eqb a (B "..")) eqn:Ea; destruct (str_eqb b (B "..")) eqn:Eb;
    intros H; try discriminate H.
  - apply str_eqb_eq in Ea, Eb. congruence.
  - now injection H.
Qed.
Lemma map_comp_name_inj a b : map comp_name a = map comp_name b -> a = b.
Proof.
  revert b; induction a as [|x a IH]; intros [|y b] H; try discriminate H; [easy|].
  injection H as H1 H2. apply comp_name_inj in H1. apply IH in H2. now subst.
Qed.
Lemma component_eqb_eq a b : component_eqb a b = true <-> a = b.
Proof.
  destruct a, b; cbn; split; try easy.
  - intros H. apply str_eqb_eq in H. now subst.
  - intros [= ->]. apply str_eqb_refl.
Qed.
Lemma comps_eqb_eq a b : comps_eqb a b = true <-> a = b.
Proof.
  revert b; induction a as [|x a IH]; intros [|y b]; cbn; split; try easy.
  - rewrite andb_true_iff, component_eqb_eq, IH. now intros [-> ->].
  - intros [= -> ->]. rewrite andb_true_iff, component_eqb_eq, IH. easy.
Qed.
Lemma comp_name_shape n : comp_name n <> RootDir /\ comp_name n <> CurDir.
Proof. unfold comp_name. destruct (str_eqb n (B "..")); easy. Qed.

Lemma path_eqb_same p q : path_eqb p q = true <-> same_place p q.
Proof.
  unfold path_eqb. rewrite comps_eqb_eq, !components_decompose, !flat_map_comp.
  unfold same_place. setoid_rewrite reads_as_iff.
  destruct (decompose p) as [sp1 wp], (decompose q) as [sq wq]. cbn [fst snd].
  split.
  - intros H.
    assert (K : sp1 = sq /\ names_of wp = names_of wq).
    { destruct sp1, sq; cbn in H;
        repeat match goal with
        | H : context [map comp_name (names_of ?w)] |- _ =>
            let n := fresh "n" in let e := fresh "e" in
            remember (names_of w) as n eqn:e; clear e
        end;
        try (injection H as H; apply map_comp_name_inj in H; subst; split; reflexivity);
        try discriminate H;
        try (apply map_comp_name_inj in H; subst; split; reflexivity);
        exfalso;
        match type of H with
        | _ :: _ = map comp_name ?n => destruct n as [|x ?]; [discriminate H|]; injection H as H _;
             pose proof (comp_name_shape x) as [? ?]; congruence
        | map comp_name ?n = _ :: _ => destruct n as [|x ?]; [discriminate H|]; injection H as H _;
             pose proof (comp_name_shape x) as [? ?]; congruence
        end. }
    destruct K as [-> K]. eexists _, _. split; split; try reflexivity. exact K.
  - intros (a & l & [-> ->] & [H1 H2]).
    assert (sp1 = sq) by (destruct sp1, sq; easy). subst. now rewrite H2.
Qed.

(** ** Parent *)
Lemma junk_drop ws :
  exists js, ws = js ++ drop_junk ws /\ Forall (fun w => junk w = true) js
             /\ match drop_junk ws with [] => True | w :: _ => junk w = false end.
Proof.
  induction ws as [|w ws (js & H1 & H2 & H3)]; cbn.
  - exists []. repeat split; auto.
  - destruct (junk w) eqn:E.
    + exists (w :: js). repeat split; auto. cbn. congruence.
    + exists []. repeat split; auto.
Qed.
Lemma names_junk js : Forall (fun w => junk w = true) js -> names_of js = [].
Proof.
  induction 1 as [|w js Hw _ IH]; [easy|]. cbn. rewrite counts_junk, Hw. cbn. exact IH.
Qed.

Lemma junk_rev js : Forall (fun w => junk w = true) js -> Forall (fun w => junk w = true) (rev js).
Proof. intros H. apply Forall_rev. exact H. Qed.

(** Pieces of the form [ws1 ++ junk ++ [w] ++ junk]. *)
Lemma last_piece ws :
  match drop_junk (rev ws) with
  | [] => names_of ws = []
  | w :: r => exists js1 js2, ws = rev (drop_junk r) ++ js1 ++ [w] ++ js2
                         /\ Forall (fun w => junk w = true) js1 /\ Forall (fun w => junk w = true) js2
                         /\ junk w = false
                         /\ match drop_junk r with [] => True | w :: _ => junk w = false end
  end.
Proof.
  destruct (junk_drop (rev ws)) as (js & H1 & H2 & H3).
  destruct (drop_junk (rev ws)) as [|w r] eqn:E.
  - rewrite app_nil_r in H1. apply (f_equal (@rev str)) in H1. rewrite rev_involutive in H1.
    subst. apply names_junk. now apply junk_rev.
  - destruct (junk_drop r) as (js' & H1' & H2' & H3').
    apply (f_equal (@rev str)) in H1. rewrite rev_involutive in H1.
    exists (rev js'), (rev js). repeat split; auto using junk_rev.
    rewrite H1. rewrite rev_app_distr. cbn [rev]. rewrite H1' at 1. rewrite rev_app_distr.
    now rewrite <- !app_assoc.
Qed.

Lemma dec_ok_prefix st a b : dec_ok st (a ++ b) -> st <> SRoot \/ a <> [] -> dec_ok st a.
Proof.
  intros [H1 H2] Hs. apply Forall_app in H1. split; [easy|]. destruct st; auto.
  - destruct Hs; easy.
  - destruct a; auto.
Qed.

Lemma intercalate_app_prefix a b :
  a <> [] -> exists r, intercalate slash (a ++ b) = intercalate slash a ++ r.
Proof.
  induction a as [|w a IH]; intros Hn; [easy|]. destruct a as [|w' a].
  - destruct b as [|x b].
    + exists []. now rewrite !app_nil_r.
    + exists (slash :: intercalate slash (x :: b)). reflexivity.
  - destruct (IH ltac:(easy)) as [r Hr]. exists r.
    change ((w :: w' :: a) ++ b) with (w :: (w' :: a) ++ b).
    rewrite !intercalate_cons by easy. rewrite Hr. rewrite <- app_assoc. reflexivity.
Qed.

Lemma recompose_prefix st a b : exists r, recompose st (a ++ b) = recompose st a ++ r.
Proof.
  destruct a as [|w a].
  - destruct st; cbn.
    + eexists. reflexivity.
    + destruct b as [|x b]; [exists []; reflexivity|]. exists (slash :: join_with slash (x :: b)). reflexivity.
    + eexists. reflexivity.
  - destruct (intercalate_app_prefix (w :: a) b ltac:(easy)) as [r Hr]. exists r.
    destruct st; cbn [recompose app]; rewrite !join_with_intercalate;
      change (w :: a ++ b) with ((w :: a) ++ b); rewrite Hr; reflexivity.
Qed.

(** Last byte of a list of pieces whose last piece is not junk. *)
Lemma intercalate_snoc a w : a <> [] -> intercalate slash (a ++ [w]) = intercalate slash a ++ slash :: w.
Proof.
  induction a as [|x a IH]; intros Hn; [easy|]. destruct a as [|y a]; [reflexivity|].
  change ((x :: y :: a) ++ [w]) with (x :: (y :: a) ++ [w]).
  rewrite !intercalate_cons by easy. rewrite IH by easy. now rewrite <- app_assoc.
Qed.

Lemma snoc_last {A} (a b : list A) x y : a ++ [x] = b ++ [y] -> a = b /\ x = y.
Proof. apply app_inj_tail. Qed.

Lemma tidy_piece pre w :
  nosl w -> junk w = false -> tidy (pre ++ w).
Proof.
  intros Hw Hj. destruct (rev w) as [|c r] eqn:E.
  { apply (f_equal (@rev ascii)) in E. rewrite rev_involutive in E. subst. easy. }
  apply (f_equal (@rev ascii)) in E. rewrite rev_involutive in E. cbn in E. subst w.
  split.
  - intros q H. change (B "/.") with ([slash] ++ ["."%char]) in H. rewrite !app_assoc in H.
    apply snoc_last in H. destruct H as [H ->].
    destruct r as [|d r].
    + unfold junk in Hj. cbn in Hj. easy.
    + cbn in H. rewrite app_assoc in H. apply snoc_last in H. destruct H as [_ ->].
      apply Hw. cbn. rewrite !in_app_iff. left. right. now left.
  - intros _ q H. change (B "/") with [slash] in H. rewrite app_assoc in H. apply snoc_last in H.
    destruct H as [_ ->]. apply Hw. rewrite in_app_iff. right. now left.
Qed.

Lemma recompose_tidy st ws :
  Forall nosl ws -> match rev ws with [] => True | w :: _ => junk w = false end ->
  tidy (recompose st ws).
Proof.
  intros Hf Hl. destruct (rev ws) as [|w r] eqn:E.
  - apply (f_equal (@rev str)) in E. rewrite rev_involutive in E. subst ws.
    destruct st; cbn; split; try (intros q H; now destruct q as [|x [|y [|z q]]]).
    + easy.
    + intros _ q H. now destruct q as [|x [|y [|z q]]].
    + intros _ q H. now destruct q as [|x [|y [|z q]]].
  - apply (f_equal (@rev str)) in E. rewrite rev_involutive in E. cbn in E. subst ws.
    apply Forall_app in Hf. destruct Hf as [_ Hf]. inversion Hf; subst.
    assert (K : exists pre, recompose st (rev r ++ [w]) = pre ++ w).
    { destruct (rev r) as [|x r'] eqn:Er.
      - destruct st; cbn; [exists [slash] | exists (B "./") | exists []]; reflexivity.
      - assert (Hs : intercalate slash ((x :: r') ++ [w]) = (intercalate slash (x :: r') ++ [slash]) ++ w).
        { rewrite intercalate_snoc by easy. now rewrite <- app_assoc. }
        destruct st; cbn [recompose app]; rewrite ?join_with_intercalate;
          change (x :: r' ++ [w]) with ((x :: r') ++ [w]); rewrite Hs.
        + exists (slash :: intercalate slash (x :: r') ++ [slash]). reflexivity.
        + exists (B "./" ++ intercalate slash (x :: r') ++ [slash]). now rewrite <- !app_assoc.
        + eexists. reflexivity. }
    destruct K as [pre ->]. now apply tidy_piece.
Qed.

Lemma root_empty_reads : decompose (recompose SRoot []) = (SRoot, [[]]).
Proof. reflexivity. Qed.

Lemma reads_as_recompose_weak st ws :
  dec_ok st ws \/ (st = SRoot /\ ws = []) ->
  reads_as (recompose st ws) (anchor_of st) (names_of ws).
Proof.
  intros [H|[-> ->]].
  - now apply reads_as_recompose.
  - apply reads_as_iff. rewrite root_empty_reads. easy.
Qed.

Lemma parent_spec p :
  match parent p with
  | Some q => parent_dir p q
  | None => reads_as p AtRoot [] \/ reads_as p Plain []
  end.
Proof.
  pose proof (recompose_decompose p) as Hr. pose proof (decompose_ok p) as Hok.
  pose proof (reads_as_decompose p) as Hread.
  unfold parent. destruct (decompose p) as [st ws]. cbn [fst snd] in *.
  pose proof (last_piece ws) as Hl. destruct (drop_junk (rev ws)) as [|w r] eqn:E.
  - rewrite Hl in Hread. destruct st.
    + now left.
    + repeat split.
      * exists p. reflexivity.
      * intros q H. now destruct q.
      * intros _ q H. now destruct q.
      * right. split; [exact Hread | reflexivity].
    + now right.
  - destruct Hl as (js1 & js2 & Hws & Hj1 & Hj2 & Hw & Hd).
    set (ws1 := rev (drop_junk r)) in *.
    assert (Hf : Forall nosl ws1).
    { destruct Hok as [Hf _]. rewrite Hws in Hf. now apply Forall_app in Hf. }
    repeat split.
    + rewrite <- Hr, Hws. apply recompose_prefix.
    + assert (T : tidy (recompose st ws1)).
      { apply recompose_tidy; [exact Hf|]. unfold ws1. rewrite rev_involutive. exact Hd. }
      apply T.
    + assert (T : tidy (recompose st ws1)).
      { apply recompose_tidy; [exact Hf|]. unfold ws1. rewrite rev_involutive. exact Hd. }
      apply T.
    + left. exists (anchor_of st), (names_of ws1), w. split.
      * rewrite Hws in Hread. rewrite !names_of_app in Hread.
        rewrite (names_junk js1 Hj1), (names_junk js2 Hj2) in Hread.
        cbn [names_of filter app] in Hread. rewrite counts_junk, Hw in Hread. exact Hread.
      * apply reads_as_recompose_weak.
        destruct st; try (left; rewrite Hws in Hok; apply (dec_ok_prefix _ _ _ Hok); left; easy).
        destruct ws1 as [|x ws2] eqn:Ex; [now right|].
        left. rewrite Hws in Hok. apply (dec_ok_prefix _ _ _ Hok). right. easy.
Qed.

Lemma no_parent p : reads_as p AtRoot [] \/ reads_as p Plain [] -> forall q, ~ parent_dir p q.
Proof.
  intros H q (_ & _ & [(a & l & n & H1 & _)|[H1 _]]).
  - destruct H as [H|H]; destruct (reads_as_unique _ _ _ _ _ H H1) as [_ E]; now destruct l.
  - destruct H as [H|H]; destruct (reads_as_unique _ _ _ _ _ H H1) as [E _]; easy.
Qed.

Lemma parent_some_iff p q : parent p = Some q -> parent_dir p q.
Proof. intros H. pose proof (parent_spec p) as K. now rewrite H in K. Qed.
Lemma parent_none_iff p : parent p = None <-> forall q, ~ parent_dir p q.
Proof.
  pose proof (parent_spec p) as K. destruct (parent p) as [q|].
  - split; [easy|]. intros H. exfalso. now apply (H q).
  - split; auto. intros _. now apply no_parent.
Qed.

Lemma parent_shorter p q : parent p = Some q -> length q < length p.
Proof.
  intros H. apply parent_some_iff in H. destruct H as ([r Hr] & _ & K).
  destruct r as [|c r].
  - rewrite app_nil_r in Hr. subst q. destruct K as [(a & l & n & H1 & H2)|[H1 H2]].
    + destruct (reads_as_unique _ _ _ _ _ H1 H2) as [_ E].
      apply (f_equal (@length str)) in E. rewrite app_length in E. cbn in E. lia.
    + subst p. apply reads_as_iff in H1. cbn in H1. now destruct H1.
  - subst p. rewrite app_length. cbn. lia.
Qed.

Lemma ancestors_fuel_up n p : length p <= n -> upwards p (ancestors_fuel n p).
Proof.
  revert p; induction n as [|n IH]; intros p Hn.
  - destruct p as [|c p]; [|cbn in Hn; lia]. cbn. apply up_stop. now apply parent_none_iff.
  - cbn [ancestors_fuel]. destruct (parent p) as [q|] eqn:E.
    + apply up_step with q; [now apply parent_some_iff|]. apply IH.
      apply parent_shorter in E. lia.
    + apply up_stop. now apply parent_none_iff.
Qed.
Lemma ancestors_up p : upwards p (ancestors p).
Proof. now apply ancestors_fuel_up. Qed.

(** Fuel does not matter once it is enough. *)
Lemma ancestors_fuel_enough n m p :
  length p <= n -> length p <= m -> ancestors_fuel n p = ancestors_fuel m p.
Proof.
  revert m p; induction n as [|n IH]; intros m p Hn Hm.
  - destruct p as [|c p]; [|cbn in Hn; lia]. destruct m; reflexivity.
  - destruct m as [|m].
    + destruct p as [|c p]; [|cbn in Hm; lia]. reflexivity.
    + cbn [ancestors_fuel]. f_equal. destruct (parent p) as [q|] eqn:E; [|easy].
      apply parent_shorter in E. apply IH; lia.
Qed.
Lemma ancestors_unfold p :
  ancestors p = p :: match parent p with Some q => ancestors q | None => [] end.
Proof.
  unfold ancestors. destruct p as [|c p]; [reflexivity|].
  cbn [length ancestors_fuel]. f_equal. destruct (parent (c :: p)) as [q|] eqn:E; [|easy].
  apply parent_shorter in E. cbn in E. apply ancestors_fuel_enough; lia.
Qed.

(** Canonical absolute paths. *)
Lemma name_ok_junk n : name_ok n -> junk n = false /\ nosl n.
Proof.
  intros (H1 & H2 & H3). split; [|exact H3]. unfold junk.
  rewrite (proj2 (is_empty_false n) H1), (proj2 (str_eqb_neq n (B ".")) H2). reflexivity.
Qed.
Lemma abs_recompose l : abs l = recompose SRoot l.
Proof. destruct l as [|n l]; [reflexivity|]. cbn [recompose]. now rewrite join_with_intercalate. Qed.
Lemma abs_decompose l : Forall name_ok l -> l <> [] -> decompose (abs l) = (SRoot, l).
Proof.
  intros Hf Hn. rewrite abs_recompose. apply decompose_recompose. split; [|easy].
  eapply Forall_impl; [|exact Hf]. intros n H. now apply name_ok_junk.
Qed.
Lemma drop_junk_ok l : match l with [] => True | n :: _ => junk n = false end -> drop_junk l = l.
Proof. destruct l as [|n l]; [easy|]. cbn. now intros ->. Qed.
Lemma abs_parent l n : Forall name_ok (l ++ [n]) -> parent (abs (l ++ [n])) = Some (abs l).
Proof.
  intros Hf. unfold parent. rewrite abs_decompose; [|easy|now destruct l].
  apply Forall_app in Hf. destruct Hf as [Hl Hn]. inversion Hn; subst.
  rewrite rev_app_distr. cbn [rev app]. rewrite drop_junk_ok by now apply name_ok_junk.
  rewrite drop_junk_ok.
  - rewrite rev_involutive. now rewrite abs_recompose.
  - destruct (rev l) as [|m r] eqn:E; [easy|].
    apply name_ok_junk. rewrite Forall_forall in Hl. apply Hl. apply in_rev. rewrite E. now left.
Qed.

(** All prefixes, longest first. *)
Fixpoint prefixes_desc {A} (l : list A) : list (list A) :=
  match l with
  | [] => [[]]
  | x :: l' => map (cons x) (prefixes_desc l') ++ [[]]
  end.
Lemma prefixes_desc_snoc {A} (l : list A) n : prefixes_desc (l ++ [n]) = (l ++ [n]) :: prefixes_desc l.
Proof. induction l as [|x l IH]; [reflexivity|]. cbn. rewrite IH. reflexivity. Qed.
Lemma abs_ancestors l : Forall name_ok l -> ancestors (abs l) = map abs (prefixes_desc l).
Proof.
  induction l as [|n l IH] using rev_ind; intros Hf; [reflexivity|].
  rewrite ancestors_unfold, abs_parent by easy. rewrite prefixes_desc_snoc. cbn [map].
  rewrite IH; [easy|]. now apply Forall_app in Hf.
Qed.

(** ** Joining *)
Lemma ends_with_slash_rev p :
  ends_with_slash p = match rev p with c :: _ => Ascii.eqb c separator | [] => false end.
Proof. reflexivity. Qed.
Lemma join_child dir name : is_absolute name = false -> join dir name = child dir name.
Proof.
  intros H. unfold join, child, ends_with_slash. rewrite H.
  destruct (rev dir) as [|c r] eqn:E.
  - apply (f_equal (@rev ascii)) in E. rewrite rev_involutive in E. now subst.
  - destruct dir as [|d dir]; [discriminate E|]. cbn [is_empty]. change slash with separator.
    now destruct (Ascii.eqb c separator).
Qed.
Lemma is_absolute_iff p : is_absolute p = true <-> exists r, p = separator :: r.
Proof.
  destruct p as [|c p]; cbn; [split; [easy | intros [r Hr]; easy]|].
  rewrite Ascii.eqb_eq. split; [intros ->; eauto | intros [r Hr]; now injection Hr].
Qed.
Lemma join_absolute dir p : is_absolute p = true -> join dir p = p.
Proof. unfold join. now intros ->. Qed.
Lemma join_is_absolute dir p :
  is_absolute (join dir p) = true <-> is_absolute p = true \/ is_absolute dir = true.
Proof.
  unfold join. destruct (is_absolute p) eqn:Ep; [split; auto|].
  destruct dir as [|c dir]; cbn [is_empty].
  - rewrite Ep. split; [easy | intros [H|H]; easy].
  - destruct (ends_with_slash (c :: dir)); cbn; split; auto; intros [H|H]; easy.
Qed.
