(** Loading, key by key. *)
From Verif.Model Require Import Base Str Path BMap Error Value De Debug SetPath Merge Walk Serde Load.
From Verif.Spec Require Import StrSpec PathSpec WalkSpec ConfigSpec LoadSpec.
From Verif.Proof Require Import StrFacts BMapFacts MergeProof PathFacts WalkProof.

(** ** [set_path], key by key *)
Lemma under_sp {V A} (g : path -> V -> V) p (m : bmap V) n (h h' : V -> option A) :
  (forall v, h (g p v) = h' v) -> under (sp_map g p m) n h = under m n h'.
Proof.
  intros H. unfold under, sp_map. rewrite bget_bmapv. destruct (bget n m); cbn; auto.
Qed.

Lemma look_sp {A} (k : scalar_key A) p c :
  look k (sp_config p c) = scalar_in k (p, c).
Proof.
  unfold scalar_in. destruct k; cbn [look fst snd]; try reflexivity; rewrite omap_under;
    apply under_sp; intros v; try reflexivity; destruct v; reflexivity.
Qed.
Lemma look_list_sp k p c : look_list k (sp_config p c) = list_in k (p, c).
Proof.
  unfold list_in. destruct k; cbn [look_list fst snd].
  - rewrite omap_under. now apply under_sp.
  - cbn. destruct (b_target (c_build c)) as [[|]|]; reflexivity.
  - cbn. destruct (b_rustflags (c_build c)); reflexivity.
  - cbn. destruct (b_rustdocflags (c_build c)); reflexivity.
  - rewrite omap_under. apply under_sp. intros v. cbn. destruct (t_rustflags v); reflexivity.
  - rewrite omap_under. apply under_sp. intros v. cbn. destruct (t_rustdocflags v); reflexivity.
Qed.
Lemma look_program_sp k p c : look_program k (sp_config p c) = program_in k (p, c).
Proof.
  unfold program_in. destruct k; cbn [look_program fst snd].
  - cbn. destruct (d_browser (c_doc c)); reflexivity.
  - rewrite omap_under. apply under_sp. intros v. cbn. destruct (t_runner v); reflexivity.
Qed.
Lemma shape_sp k p c : shape_at k (sp_config p c) = shape_at k c.
Proof.
  destruct k; cbn [shape_at].
  - rewrite look_list_sp. unfold list_in. cbn [fst snd]. destruct (look_list k c); reflexivity.
  - rewrite look_program_sp. unfold program_in. cbn [fst snd]. destruct (look_program k c); reflexivity.
  - apply under_sp. intros v. destruct v; reflexivity.
Qed.
Lemma entry_sp k p c : has_entry k (sp_config p c) = has_entry k c.
Proof.
  destruct k; cbn; unfold sp_map; rewrite bget_bmapv; match goal with |- context [bget ?n ?m] => destruct (bget n m) end;
    reflexivity.
Qed.
Lemma sp_sorted p c : cfg_sorted c -> cfg_sorted (sp_config p c).
Proof. intros (H1 & H2 & H3 & H4). repeat split; now apply bmapv_sorted. Qed.
Lemma sp_overrides p c : overrides (sp_config p c) = overrides c.
Proof. reflexivity. Qed.

(** ** Deserialized tables are in order *)
Lemma de_map_sorted {V} (g : toml -> option V) t m : de_map g t = Some m -> sorted m.
Proof.
  destruct t; cbn [de_map]; try discriminate; intros H;
    match type of H with option_map _ ?x = _ => destruct x; [|discriminate H] end;
    injection H as <-; apply bfrom_list_sorted.
Qed.
Lemma fdef_map_sorted {V} s i k (g : toml -> option V) m : fdef s i k [] (de_map g) = Some m -> sorted m.
Proof.
  destruct s; cbn [fdef].
  - destruct (tget k l); [apply de_map_sorted|]. intros [= <-]. constructor.
  - destruct (nth_error l i); [apply de_map_sorted|]. intros [= <-]. constructor.
Qed.

Ltac de_open H :=
  repeat match type of H with
  | match ?e with Some _ => _ | None => None end = Some _ =>
      let E := fresh "E" in destruct e eqn:E; [|discriminate H]
  end.

Lemma de_config_sorted t c : de_config t = Some c -> cfg_sorted c.
Proof.
  unfold de_config. intros H. de_open H. injection H as <-.
  repeat split; cbn; eapply fdef_map_sorted; eauto.
Qed.
Lemma de_config_overrides t c : de_config t = Some c -> overrides c = (false, false).
Proof.
  unfold de_config. intros H. de_open H. injection H as <-. unfold overrides. cbn.
  clear - E1. destruct f as [l|l]; cbn [fdef] in E1.
  - destruct (tget (B "build") l); [|injection E1 as <-; reflexivity].
    unfold de_build in E1. de_open E1. injection E1 as <-. reflexivity.
  - destruct (nth_error l 1); [|injection E1 as <-; reflexivity].
    unfold de_build in E1. de_open E1. injection E1 as <-. reflexivity.
Qed.
Lemma contents_sorted f p c : contents f p c -> cfg_sorted c.
Proof. intros (t & _ & H). eapply de_config_sorted; eauto. Qed.
Lemma contents_overrides f p c : contents f p c -> overrides c = (false, false).
Proof. intros (t & _ & H). eapply de_config_overrides; eauto. Qed.
Lemma contents_unique f p c c' : contents f p c -> contents f p c' -> c = c'.
Proof. intros (t & H1 & H2) (t' & H1' & H2'). congruence. Qed.
Lemma reads_unique f ps l l' : reads f ps l -> reads f ps l' -> l = l'.
Proof.
  intros [H1 H2] [H1' H2']. revert ps l' H1 H1' H2'.
  induction H2 as [|[p c] l H _ IH]; intros ps l' H1 H1' H2'; cbn in H1; subst ps.
  - now destruct l'.
  - destruct l' as [|[p' c'] l']; [discriminate|]. cbn in H1'. injection H1' as -> H1'.
    inversion H2' as [|? ? K1 K2]; subst. cbn in *. f_equal; [f_equal; eapply contents_unique; eauto|].
    eapply IH; eauto.
Qed.
Lemma reads_nil f l : reads f [] l <-> l = [].
Proof. unfold reads. destruct l; cbn; split; intros H; try easy. Qed.
Lemma reads_cons f p ps l :
  reads f (p :: ps) l <-> exists c l', l = (p, c) :: l' /\ contents f p c /\ reads f ps l'.
Proof.
  unfold reads. split.
  - intros [H1 H2]. destruct l as [|[q c] l]; [discriminate|]. cbn in H1. injection H1 as -> H1.
    inversion H2; subst. cbn in *. eauto 10.
  - intros (c & l' & -> & H1 & H2 & H3). cbn. rewrite H2. auto.
Qed.

Lemma load_file_ok f p r : load_file f p = Ok r <-> exists c, contents f p c /\ r = sp_config p c.
Proof.
  unfold load_file, contents. destruct (fs_read f p) as [k| |t].
  - split; [discriminate|]. intros (c & (t & K & _) & _). discriminate K.
  - split; [discriminate|]. intros (c & (t & K & _) & _). discriminate K.
  - destruct (de_config t) as [c|] eqn:E.
    + split.
      * intros [= <-]. eauto 10.
      * intros (c' & (t' & [= <-] & K) & ->). rewrite E in K. now injection K as ->.
    + split; [discriminate|]. intros (c' & (t' & [= <-] & K) & _). rewrite E in K. discriminate K.
Qed.
Lemma load_file_panic f p : is_panic (load_file f p) = false.
Proof. unfold load_file. destruct (fs_read f p) as [| |t]; try reflexivity. now destruct (de_config t). Qed.

(** ** Shapes *)
Definition consistent (l : list (option shape)) : Prop := forall x y, In x l -> In y l -> agree x y.
Lemma agree_sym {A} (x y : option A) : agree x y -> agree y x.
Proof. destruct x, y; cbn; auto. Qed.
Lemma agree_refl {A} (x : option A) : agree x x.
Proof. now destruct x. Qed.
Lemma consistent_cons x l : consistent (x :: l) <-> consistent l /\ forall y, In y l -> agree x y.
Proof.
  split.
  - intros H. split; [intros a b Ha Hb|intros y Hy]; apply H; cbn; auto.
  - intros [H1 H2] a b [<-|Ha] [<-|Hb]; auto using agree_refl, agree_sym.
Qed.
Lemma consistent_step a b l :
  consistent (a :: b :: l) <-> agree a b /\ consistent (orelse a b :: l).
Proof.
  rewrite !consistent_cons. split.
  - intros ((H1 & H2) & H3). split; [apply H3; now left|]. split; [exact H1|].
    intros y Hy. destruct a; cbn; [apply H3; now right | now apply H2].
  - intros (H1 & H2 & H3). split; [split; [exact H2|]|].
    + intros y Hy. specialize (H3 y Hy). destruct a; cbn in *; [|easy].
      destruct b; cbn in *; [now subst|easy].
    + intros y [<-|Hy]; [exact H1|]. specialize (H3 y Hy). destruct a; cbn in *; easy.
Qed.
Lemma same_shapes_iff cs :
  same_shapes cs <-> forall k, consistent (map (shape_at k) cs).
Proof.
  unfold same_shapes, consistent. split.
  - intros H k x y Hx Hy. apply in_map_iff in Hx, Hy. destruct Hx as (c & <- & Hc), Hy as (c' & <- & Hc'). auto.
  - intros H k c c' Hc Hc'. apply (H k); now apply in_map.
Qed.

Definition shapes_ok (base : config) (l : files) : Prop :=
  forall k, consistent (shape_at k base :: map (fun x => shape_at k (snd x)) l).

Lemma load_rest_ok f bp ps base :
  cfg_sorted base ->
  (is_ok (load_rest f bp base ps) = true <-> exists l, reads f ps l /\ shapes_ok base l).
Proof.
  revert base. induction ps as [|p ps IH]; intros base S; cbn [load_rest].
  - split; [intros _ | reflexivity]. exists []. split; [now apply reads_nil|].
    intros k. apply consistent_cons. split; [intros ? ? []|intros ? []].
  - rewrite bind_is_ok. split.
    + intros (c' & Hc & H). apply load_file_ok in Hc. destruct Hc as (c & Hc & ->).
      apply bind_is_ok in H. destruct H as (r & Hr & H). apply with_context_ok in Hr.
      pose proof (sp_sorted p c (contents_sorted _ _ _ Hc)) as Sc.
      assert (Sr : cfg_sorted r) by (eapply merge_sorted; [|eassumption]; eassumption).
      apply (IH r Sr) in H. destruct H as (l & Hl & Hs).
      exists ((p, c) :: l). split; [apply reads_cons; eauto 10|].
      intros k. cbn [map snd]. apply consistent_step. split.
      * rewrite <- (shape_sp k p c). apply (proj1 (merge_ok_iff base _ false Sc)). now rewrite Hr.
      * rewrite <- (shape_sp k p c), <- (merge_shape _ _ _ _ Sc Hr). apply Hs.
    + intros (l & Hl & Hs). apply reads_cons in Hl. destruct Hl as (c & l' & -> & Hc & Hl).
      exists (sp_config p c). split; [apply load_file_ok; now exists c|].
      pose proof (sp_sorted p c (contents_sorted _ _ _ Hc)) as Sc.
      assert (Hm : is_ok (merge_config base (sp_config p c) false) = true).
      { apply merge_ok_iff; [exact Sc|]. intros k. rewrite shape_sp. specialize (Hs k). cbn [map snd] in Hs.
        apply consistent_step in Hs. exact (proj1 Hs). }
      apply is_ok_iff in Hm. destruct Hm as [r Hr]. rewrite Hr. cbn [with_context map_err bind].
      apply IH; [eapply merge_sorted; [|eassumption]; eassumption|]. exists l'. split; [exact Hl|].
      intros k. specialize (Hs k). cbn [map snd] in Hs. apply consistent_step in Hs.
      rewrite (merge_shape _ _ _ _ Sc Hr), shape_sp. exact (proj2 Hs).
Qed.

Lemma load_files_ok f ps :
  is_ok (load_files f ps) = true <-> exists l, reads f ps l /\ same_shapes (map snd l).
Proof.
  destruct ps as [|p ps]; cbn [load_files].
  - split; [intros _|reflexivity]. exists []. split; [now apply reads_nil|]. intros k c c' [].
  - rewrite bind_is_ok. split.
    + intros (c' & Hc & H). apply load_file_ok in Hc. destruct Hc as (c & Hc & ->).
      apply load_rest_ok in H; [|apply sp_sorted; eapply contents_sorted; eauto].
      destruct H as (l & Hl & Hs). exists ((p, c) :: l). split; [apply reads_cons; eauto 10|].
      apply same_shapes_iff. intros k. specialize (Hs k). cbn [map snd]. rewrite shape_sp in Hs.
      now rewrite map_map.
    + intros (l & Hl & Hs). apply reads_cons in Hl. destruct Hl as (c & l' & -> & Hc & Hl).
      exists (sp_config p c). split; [apply load_file_ok; now exists c|].
      apply load_rest_ok; [apply sp_sorted; eapply contents_sorted; eauto|].
      exists l'. split; [exact Hl|]. intros k. rewrite shape_sp.
      pose proof (proj1 (same_shapes_iff _) Hs k) as K. cbn [map snd] in K. now rewrite map_map in K.
Qed.

Lemma load_rest_panic f bp ps base : is_panic (load_rest f bp base ps) = false.
Proof.
  revert base; induction ps as [|p ps IH]; intros base; cbn [load_rest]; [reflexivity|].
  apply bind_panic; [apply load_file_panic|]. intros c _.
  apply bind_panic; [rewrite with_context_panic; apply merge_config_panic|]. auto.
Qed.
Lemma load_files_panic f ps : is_panic (load_files f ps) = false.
Proof.
  destruct ps; [reflexivity|]. cbn. apply bind_panic; [apply load_file_panic|]. intros; apply load_rest_panic.
Qed.

(** ** Views of the result *)
Section Views.
  Context {T : Type} (view : config -> T) (op : T -> T -> T).
  Hypothesis step : forall a b r, cfg_sorted b -> merge_config a b false = Ok r -> view r = op (view a) (view b).

  Lemma load_rest_view f bp ps base r l :
    load_rest f bp base ps = Ok r -> reads f ps l ->
    view r = fold_left op (map (fun x => view (sp_config (fst x) (snd x))) l) (view base).
  Proof.
    revert base l. induction ps as [|p ps IH]; intros base l H Hl; cbn [load_rest] in H.
    - apply reads_nil in Hl. subst l. now injection H as ->.
    - apply reads_cons in Hl. destruct Hl as (c & l' & -> & Hc & Hl).
      apply bind_ok in H. destruct H as (c' & Hc' & H). apply load_file_ok in Hc'.
      destruct Hc' as (c'' & Hc'' & ->). rewrite (contents_unique _ _ _ _ Hc'' Hc) in *.
      apply bind_ok in H. destruct H as (m & Hm & H). apply with_context_ok in Hm.
      pose proof (sp_sorted p c (contents_sorted _ _ _ Hc)) as Sc.
      rewrite (IH m l' H Hl), (step _ _ _ Sc Hm). reflexivity.
  Qed.
  Lemma load_files_view f p ps r l :
    load_files f (p :: ps) = Ok r -> reads f (p :: ps) l ->
    match l with
    | [] => False
    | x :: l' => view r = fold_left op (map (fun x => view (sp_config (fst x) (snd x))) l')
                                    (view (sp_config (fst x) (snd x)))
    end.
  Proof.
    intros H Hl. cbn [load_files] in H. apply reads_cons in Hl. destruct Hl as (c & l' & -> & Hc & Hl).
    apply bind_ok in H. destruct H as (c' & Hc' & H). apply load_file_ok in Hc'.
    destruct Hc' as (c'' & Hc'' & ->). rewrite (contents_unique _ _ _ _ Hc'' Hc) in *.
    exact (load_rest_view f p ps _ r l' H Hl).
  Qed.
End Views.

Lemma fold_orelse {A} (l : list (option A)) x : fold_left orelse l x = orelse x (first_defined l).
Proof.
  revert x; induction l as [|y l IH]; intros x; cbn; [now destruct x|].
  rewrite IH. destruct x, y; reflexivity.
Qed.

Lemma look_default {A} (k : scalar_key A) : look k config_default = None.
Proof. destruct k; reflexivity. Qed.
Lemma look_list_default k : look_list k config_default = None.
Proof. destruct k; reflexivity. Qed.
Lemma look_program_default k : look_program k config_default = None.
Proof. destruct k; reflexivity. Qed.
Lemma entry_default k : has_entry k config_default = false.
Proof. destruct k; reflexivity. Qed.
Lemma shape_default k : shape_at k config_default = None.
Proof. destruct k as [k|k|]; [destruct k|destruct k|]; reflexivity. Qed.

Lemma load_scalar f ps r l :
  load_files f ps = Ok r -> reads f ps l ->
  forall A (k : scalar_key A), look k r = first_defined (map (scalar_in k) l).
Proof.
  intros H Hl A k. destruct ps as [|p ps].
  - apply reads_nil in Hl. subst l. injection H as <-. apply look_default.
  - pose proof (load_files_view (look k) orelse
      (fun a b r S M => merge_scalar a b false r S M A k) f p ps r l H Hl) as K.
    destruct l as [|[q c] l]; [easy|]. rewrite K, fold_orelse. cbn [fst snd map first_defined].
    rewrite look_sp, (map_ext _ (scalar_in k)) by (intros [? ?]; apply look_sp).
    reflexivity.
Qed.

Lemma load_entry f ps r l :
  load_files f ps = Ok r -> reads f ps l ->
  forall k, has_entry k r = existsb (fun x => has_entry k (snd x)) l.
Proof.
  intros H Hl k. destruct ps as [|p ps].
  - apply reads_nil in Hl. subst l. injection H as <-. apply entry_default.
  - pose proof (load_files_view (has_entry k) orb
      (fun a b r S M => merge_entry a b false r S M k) f p ps r l H Hl) as K.
    destruct l as [|x l]; [easy|]. rewrite K. cbn [existsb]. rewrite entry_sp.
    generalize (has_entry k (snd x)). clear. induction l as [|y l IH]; intros b; cbn.
    + now destruct b.
    + rewrite IH, entry_sp. symmetry. apply orb_assoc.
Qed.

(** Joining lists whose forms agree. *)
Definition fshape (o : option (form * list word)) : option form := option_map fst o.
Definition fconsistent (l : list (option (form * list word))) : Prop :=
  forall x y, In x l -> In y l -> agree (fshape x) (fshape y).
Lemma fconsistent_tail x l : fconsistent (x :: l) -> fconsistent l.
Proof. intros H a b Ha Hb. apply H; now right. Qed.

Lemma join_lists_fold l :
  fconsistent l -> forall w, fconsistent (w :: l) ->
  fold_left (join2 false) l w = join_lists (defined (w :: l)).
Proof.
  induction l as [|y l IH]; intros Hl w Hw; cbn [fold_left].
  - destruct w as [[[|] ws]|]; cbn; [reflexivity| |reflexivity]. now rewrite app_nil_r.
  - assert (Hl' : fconsistent l) by (eapply fconsistent_tail; eauto).
    rewrite IH; [|exact Hl'|].
    + destruct w as [[fw ws]|], y as [[fy ys]|]; cbn [defined join2]; try reflexivity.
      * destruct fw; cbn [join2 defined]; [reflexivity|].
        unfold join_lists. cbn [map snd rev]. now rewrite !concat_app, <- app_assoc; cbn; rewrite !app_nil_r.
      * destruct fw; reflexivity.
    + assert (E : fshape (join2 false w y) = orelse (fshape w) (fshape y)).
      { destruct w as [[[|] ws]|], y as [[[|] ys]|]; reflexivity. }
      intros a b Ha Hb.
      assert (K : forall z, In z l -> agree (fshape (join2 false w y)) (fshape z)).
      { intros z Hz. rewrite E.
        assert (K1 : agree (fshape w) (fshape z)) by (apply Hw; cbn; auto).
        assert (K2 : agree (fshape y) (fshape z)) by (apply Hw; cbn; auto).
        destruct (fshape w); assumption. }
      destruct Ha as [<-|Ha], Hb as [<-|Hb].
      * destruct (fshape (join2 false w y)); cbn; auto.
      * auto.
      * specialize (K a Ha). destruct (fshape a), (fshape (join2 false w y)); cbn in *; auto.
      * apply Hl'; auto.
Qed.
Lemma join_programs_fold l :
  fconsistent l -> forall w, fconsistent (w :: l) ->
  fold_left (join2p false) l w = join_programs (defined (w :: l)).
Proof.
  induction l as [|y l IH]; intros Hl w Hw; cbn [fold_left].
  - destruct w as [[[|] ws]|]; cbn; [reflexivity| |reflexivity]. now rewrite app_nil_r.
  - assert (Hl' : fconsistent l) by (eapply fconsistent_tail; eauto).
    rewrite IH; [|exact Hl'|].
    + destruct w as [[fw ws]|], y as [[fy ys]|]; cbn [defined join2p]; try reflexivity.
      * destruct fw; cbn [join2p defined]; [reflexivity|].
        unfold join_programs. cbn [map snd concat]. now rewrite <- app_assoc.
      * destruct fw; reflexivity.
    + assert (E : fshape (join2p false w y) = orelse (fshape w) (fshape y)).
      { destruct w as [[[|] ws]|], y as [[[|] ys]|]; reflexivity. }
      intros a b Ha Hb.
      assert (K : forall z, In z l -> agree (fshape (join2p false w y)) (fshape z)).
      { intros z Hz. rewrite E.
        assert (K1 : agree (fshape w) (fshape z)) by (apply Hw; cbn; auto).
        assert (K2 : agree (fshape y) (fshape z)) by (apply Hw; cbn; auto).
        destruct (fshape w); assumption. }
      destruct Ha as [<-|Ha], Hb as [<-|Hb].
      * destruct (fshape (join2p false w y)); cbn; auto.
      * auto.
      * specialize (K a Ha). destruct (fshape a), (fshape (join2p false w y)); cbn in *; auto.
      * apply Hl'; auto.
Qed.

Lemma shapes_fconsistent_list k l :
  same_shapes (map snd l) -> fconsistent (map (list_in k) l).
Proof.
  intros H x y Hx Hy. apply in_map_iff in Hx, Hy. destruct Hx as (a & <- & Ha), Hy as (b & <- & Hb).
  specialize (H (ShapeList k) (snd a) (snd b) (in_map _ _ _ Ha) (in_map _ _ _ Hb)). cbn in H.
  unfold list_in. destruct (look_list k (snd a)) as [[[|] ?]|], (look_list k (snd b)) as [[[|] ?]|]; cbn in *; easy.
Qed.
Lemma shapes_fconsistent_program k l :
  same_shapes (map snd l) -> fconsistent (map (program_in k) l).
Proof.
  intros H x y Hx Hy. apply in_map_iff in Hx, Hy. destruct Hx as (a & <- & Ha), Hy as (b & <- & Hb).
  specialize (H (ShapeProgram k) (snd a) (snd b) (in_map _ _ _ Ha) (in_map _ _ _ Hb)). cbn in H.
  unfold program_in. destruct (look_program k (snd a)) as [[[|] ?]|], (look_program k (snd b)) as [[[|] ?]|]; cbn in *; easy.
Qed.

Lemma load_shapes f ps r l : load_files f ps = Ok r -> reads f ps l -> same_shapes (map snd l).
Proof.
  intros H Hl. assert (K : is_ok (load_files f ps) = true) by now rewrite H.
  apply load_files_ok in K. destruct K as (l' & Hl' & Hs). now rewrite (reads_unique _ _ _ _ Hl Hl').
Qed.

Lemma load_list f ps r l :
  load_files f ps = Ok r -> reads f ps l ->
  forall k, look_list k r = join_lists (defined (map (list_in k) l)).
Proof.
  intros H Hl k. pose proof (shapes_fconsistent_list k l (load_shapes f ps r l H Hl)) as C.
  destruct ps as [|p ps].
  - apply reads_nil in Hl. subst l. injection H as <-. apply look_list_default.
  - pose proof (load_files_view (look_list k) (join2 false)
      (fun a b r S M => merge_list a b false r S M k) f p ps r l H Hl) as K.
    destruct l as [|[q c] l]; [easy|]. rewrite K. cbn [fst snd]. rewrite look_list_sp.
    rewrite (map_ext _ (list_in k)) by (intros [? ?]; apply look_list_sp).
    cbn [map] in *. apply join_lists_fold; [eapply fconsistent_tail; eauto | exact C].
Qed.
Lemma load_program f ps r l :
  load_files f ps = Ok r -> reads f ps l ->
  forall k, look_program k r = join_programs (defined (map (program_in k) l)).
Proof.
  intros H Hl k. pose proof (shapes_fconsistent_program k l (load_shapes f ps r l H Hl)) as C.
  destruct ps as [|p ps].
  - apply reads_nil in Hl. subst l. injection H as <-. apply look_program_default.
  - pose proof (load_files_view (look_program k) (join2p false)
      (fun a b r S M => merge_program a b false r S M k) f p ps r l H Hl) as K.
    destruct l as [|[q c] l]; [easy|]. rewrite K. cbn [fst snd]. rewrite look_program_sp.
    rewrite (map_ext _ (program_in k)) by (intros [? ?]; apply look_program_sp).
    cbn [map] in *. apply join_programs_fold; [eapply fconsistent_tail; eauto | exact C].
Qed.
Lemma load_shape f ps r l :
  load_files f ps = Ok r -> reads f ps l ->
  forall k, shape_at k r = first_defined (map (fun x => shape_at k (snd x)) l).
Proof.
  intros H Hl k. destruct ps as [|p ps].
  - apply reads_nil in Hl. subst l. injection H as <-. apply shape_default.
  - pose proof (load_files_view (shape_at k) orelse
      (fun a b r S M => merge_shape a b false r S M k) f p ps r l H Hl) as K.
    destruct l as [|x l]; [easy|]. rewrite K, fold_orelse. cbn [map first_defined].
    rewrite shape_sp, (map_ext _ (fun x => shape_at k (snd x))) by (intros [? ?]; apply shape_sp).
    reflexivity.
Qed.

Lemma load_rest_sorted f bp ps base r : cfg_sorted base -> load_rest f bp base ps = Ok r -> cfg_sorted r.
Proof.
  revert base. induction ps as [|p ps IH]; intros base S H; cbn [load_rest] in H.
  - now injection H as <-.
  - apply bind_ok in H. destruct H as (c & _ & H). apply bind_ok in H. destruct H as (m & Hm & H).
    apply with_context_ok in Hm. eapply IH; [|exact H]. eapply merge_sorted; [|eassumption]; eassumption.
Qed.
Lemma load_rest_overrides f bp ps base r : load_rest f bp base ps = Ok r -> overrides r = overrides base.
Proof.
  revert base. induction ps as [|p ps IH]; intros base H; cbn [load_rest] in H.
  - now injection H as <-.
  - apply bind_ok in H. destruct H as (c & _ & H). apply bind_ok in H. destruct H as (m & Hm & H).
    apply with_context_ok in Hm. rewrite (IH _ H). eapply merge_overrides; eauto.
Qed.
Lemma load_files_sorted f ps r : load_files f ps = Ok r -> cfg_sorted r.
Proof.
  destruct ps as [|p ps]; cbn [load_files].
  - intros [= <-]. repeat split; constructor.
  - intros H. apply bind_ok in H. destruct H as (c & Hc & H). apply load_file_ok in Hc.
    destruct Hc as (c' & Hc & ->). eapply load_rest_sorted; [|exact H].
    apply sp_sorted. eapply contents_sorted; eauto.
Qed.
Lemma load_files_overrides f ps r : load_files f ps = Ok r -> overrides r = (false, false).
Proof.
  destruct ps as [|p ps]; cbn [load_files].
  - intros [= <-]. reflexivity.
  - intros H. apply bind_ok in H. destruct H as (c & Hc & H). apply load_file_ok in Hc.
    destruct Hc as (c' & Hc & ->). rewrite (load_rest_overrides _ _ _ _ _ H), sp_overrides.
    eapply contents_overrides; eauto.
Qed.

(** Everything [load_files] looks at. *)
Lemma load_file_ext f g p : fs_read f p = fs_read g p -> load_file f p = load_file g p.
Proof. unfold load_file. now intros ->. Qed.
Lemma load_rest_ext f g bp ps base :
  (forall p, In p ps -> fs_read f p = fs_read g p) -> load_rest f bp base ps = load_rest g bp base ps.
Proof.
  revert base; induction ps as [|p ps IH]; intros base H; cbn [load_rest]; [reflexivity|].
  rewrite (load_file_ext f g p) by (apply H; now left). destruct (load_file g p); cbn [bind]; [|reflexivity..].
  destruct (with_context _ _); cbn [bind]; [|reflexivity..]. apply IH. intros q Hq. apply H. now right.
Qed.
Lemma load_files_ext f g ps :
  (forall p, In p ps -> fs_read f p = fs_read g p) -> load_files f ps = load_files g ps.
Proof.
  intros H. destruct ps as [|p ps]; cbn; [reflexivity|].
  rewrite (load_file_ext f g p) by (apply H; now left). destruct (load_file g p); cbn [bind]; [|reflexivity..].
  apply load_rest_ext. intros q Hq. apply H. now right.
Qed.

Lemma visited_walk f cwd home ps :
  visited f cwd home ps <-> ps = walk_all (fs_exists f) (walk_init cwd home).
Proof.
  destruct (walk_order (fs_exists f) cwd home) as (dirs & H1 & H2). split.
  - intros (dirs' & K1 & K2). rewrite (search_order_unique _ _ _ _ K1 H1) in K2.
    eapply files_in_unique; eauto.
  - intros ->. exists dirs. auto.
Qed.
Lemma visited_load f cwd home ps :
  visited f cwd home ps -> load_with_options f cwd home = load_files f ps.
Proof. intros H. apply visited_walk in H. subst. reflexivity. Qed.
Lemma visited_ex f cwd home : exists ps, visited f cwd home ps.
Proof. eexists. now apply visited_walk. Qed.

(** ** Each value has its origin *)
Lemma first_defined_in {A} (l : list (option A)) a : first_defined l = Some a -> In (Some a) l.
Proof. induction l as [|[x|] l IH]; cbn; [easy| |auto]. intros [= ->]. now left. Qed.
Lemma first_defined_split {A} (l : list (option A)) a :
  first_defined l = Some a <-> exists l1 l2, l = l1 ++ Some a :: l2 /\ Forall (eq None) l1.
Proof.
  split.
  - induction l as [|[x|] l IH]; cbn; [easy| |].
    + intros [= ->]. exists [], l. auto.
    + intros H. destruct (IH H) as (l1 & l2 & -> & F). exists (None :: l1), l2. auto.
  - intros (l1 & l2 & -> & F). induction F as [|x l1 <- _ IH]; cbn; auto.
Qed.
Lemma in_defined {A} (l : list (option A)) a : In a (defined l) <-> In (Some a) l.
Proof.
  induction l as [|[x|] l IH]; cbn; [easy| |]; rewrite IH; intuition congruence.
Qed.

Lemma join_lists_in l fm ws w :
  join_lists l = Some (fm, ws) -> In w ws -> exists fm' ws', In (fm', ws') l /\ In w ws'.
Proof.
  destruct l as [|[[|] v] l]; cbn [join_lists]; [easy| |].
  - intros [= <- <-] H. exists AsString, v. split; [now left|exact H].
  - intros [= <- <-] H. apply in_concat in H. destruct H as (x & Hx & Hw).
    change (rev (map snd l) ++ [v]) with (rev (v :: map snd l)) in Hx.
    rewrite <- in_rev in Hx. change (v :: map snd l) with (map (@snd form (list word)) ((AsArray, v) :: l)) in Hx.
    apply in_map_iff in Hx. destruct Hx as ([fm' ws'] & <- & K). eauto.
Qed.
Lemma join_programs_in l fm ws w :
  join_programs l = Some (fm, ws) -> In w ws -> exists fm' ws', In (fm', ws') l /\ In w ws'.
Proof.
  destruct l as [|[[|] v] l]; cbn [join_programs]; [easy| |].
  - intros [= <- <-] H. exists AsString, v. split; [now left|exact H].
  - intros [= <- <-] H. change (v ++ concat (map snd l)) with (concat (v :: map snd l)) in H.
    apply in_concat in H. destruct H as (x & Hx & Hw).
    change (v :: map snd l) with (map (@snd form (list word)) ((AsArray, v) :: l)) in Hx.
    apply in_map_iff in Hx. destruct Hx as ([fm' ws'] & <- & K). eauto.
Qed.

Lemma reads_in f ps l p c : reads f ps l -> In (p, c) l -> In p ps /\ contents f p c.
Proof.
  intros [H1 H2] H. split.
  - rewrite <- H1. change p with (fst (p, c)). now apply in_map.
  - rewrite Forall_forall in H2. apply (H2 (p, c) H).
Qed.

Lemma origin_scalar f ps r A (k : scalar_key A) v :
  load_files f ps = Ok r -> look k r = Some v ->
  exists p c v0, In p ps /\ contents f p c /\ look k c = Some v0
                 /\ def v = Some (DefPath p) /\ val v = val v0.
Proof.
  intros H Hv. assert (K : is_ok (load_files f ps) = true) by now rewrite H.
  apply load_files_ok in K. destruct K as (l & Hl & _).
  rewrite (load_scalar f ps r l H Hl) in Hv. apply first_defined_in in Hv.
  apply in_map_iff in Hv. destruct Hv as ([p c] & E & Hi). unfold scalar_in in E. cbn in E.
  destruct (look k c) as [v0|] eqn:E0; [|discriminate]. injection E as <-.
  destruct (reads_in _ _ _ _ _ Hl Hi). exists p, c, v0. auto.
Qed.
Lemma origin_list f ps r k fm ws w :
  load_files f ps = Ok r -> look_list k r = Some (fm, ws) -> In w ws ->
  exists p c fm0 ws0 w0, In p ps /\ contents f p c /\ look_list k c = Some (fm0, ws0) /\ In w0 ws0
                 /\ def w = Some (DefPath p) /\ val w = val w0.
Proof.
  intros H Hv Hw. assert (K : is_ok (load_files f ps) = true) by now rewrite H.
  apply load_files_ok in K. destruct K as (l & Hl & _).
  rewrite (load_list f ps r l H Hl) in Hv.
  destruct (join_lists_in _ _ _ _ Hv Hw) as (fm' & ws' & Hi & Hw').
  apply in_defined in Hi.
  apply in_map_iff in Hi. destruct Hi as ([p c] & E & Hi). unfold list_in in E. cbn in E.
  destruct (look_list k c) as [[fm0 ws0]|] eqn:E0; [|discriminate]. cbn in E. injection E as <- <-.
  apply in_map_iff in Hw'. destruct Hw' as (w0 & <- & Hw').
  destruct (reads_in _ _ _ _ _ Hl Hi). exists p, c, fm0, ws0, w0. auto 10.
Qed.
Lemma origin_program f ps r k fm ws w :
  load_files f ps = Ok r -> look_program k r = Some (fm, ws) -> In w ws ->
  exists p c fm0 ws0 w0, In p ps /\ contents f p c /\ look_program k c = Some (fm0, ws0) /\ In w0 ws0
                 /\ def w = Some (DefPath p) /\ val w = val w0.
Proof.
  intros H Hv Hw. assert (K : is_ok (load_files f ps) = true) by now rewrite H.
  apply load_files_ok in K. destruct K as (l & Hl & _).
  rewrite (load_program f ps r l H Hl) in Hv.
  destruct (join_programs_in _ _ _ _ Hv Hw) as (fm' & ws' & Hi & Hw').
  apply in_defined in Hi.
  apply in_map_iff in Hi. destruct Hi as ([p c] & E & Hi). unfold program_in in E. cbn in E.
  destruct (look_program k c) as [[fm0 ws0]|] eqn:E0; [|discriminate]. cbn in E. injection E as <- <-.
  apply in_map_iff in Hw'. destruct Hw' as (w0 & <- & Hw').
  destruct (reads_in _ _ _ _ _ Hl Hi). exists p, c, fm0, ws0, w0. auto 10.
Qed.

(** ** Entries depend on same-named entries only *)
Lemma load_entry_local f ps r g ps' r' l l' :
  load_files f ps = Ok r -> load_files g ps' = Ok r' -> reads f ps l -> reads g ps' l' ->
  forall n,
  (Forall2 (fun x y => fst x = fst y /\ bget n (c_target (snd x)) = bget n (c_target (snd y))) l l' ->
   bget n (c_target r) = bget n (c_target r'))
  /\ (Forall2 (fun x y => fst x = fst y /\ bget n (c_env (snd x)) = bget n (c_env (snd y))) l l' ->
   bget n (c_env r) = bget n (c_env r'))
  /\ (Forall2 (fun x y => fst x = fst y /\ bget n (c_registries (snd x)) = bget n (c_registries (snd y))) l l' ->
   bget n (c_registries r) = bget n (c_registries r'))
  /\ (Forall2 (fun x y => fst x = fst y /\ bget n (c_alias (snd x)) = bget n (c_alias (snd y))) l l' ->
   bget n (c_alias r) = bget n (c_alias r')).
Proof.
  intros H H' Hl Hl' n.
  assert (Sc : forall A (k : scalar_key A), map (scalar_in k) l = map (scalar_in k) l' -> look k r = look k r').
  { intros A k E. now rewrite (load_scalar _ _ _ _ H Hl), (load_scalar _ _ _ _ H' Hl'), E. }
  assert (Li : forall k, map (list_in k) l = map (list_in k) l' -> look_list k r = look_list k r').
  { intros k E. now rewrite (load_list _ _ _ _ H Hl), (load_list _ _ _ _ H' Hl'), E. }
  assert (Pr : forall k, map (program_in k) l = map (program_in k) l' -> look_program k r = look_program k r').
  { intros k E. now rewrite (load_program _ _ _ _ H Hl), (load_program _ _ _ _ H' Hl'), E. }
  assert (Sh : forall k, map (fun x => shape_at k (snd x)) l = map (fun x => shape_at k (snd x)) l' ->
                         shape_at k r = shape_at k r').
  { intros k E. now rewrite (load_shape _ _ _ _ H Hl), (load_shape _ _ _ _ H' Hl'), E. }
  assert (En : forall k, map (fun x => has_entry k (snd x)) l = map (fun x => has_entry k (snd x)) l' ->
                         has_entry k r = has_entry k r').
  { intros k E. rewrite (load_entry _ _ _ _ H Hl), (load_entry _ _ _ _ H' Hl').
    clear - E. revert l' E. induction l as [|x l IH]; intros [|y l'] E; try discriminate E; [easy|].
    cbn in *. injection E as -> E. f_equal. now apply IH. }
  assert (F : forall (R : str * config -> str * config -> Prop) T (h : str * config -> T),
            Forall2 R l l' -> (forall x y, R x y -> h x = h y) -> map h l = map h l').
  { intros R T h F2 K. clear - F2 K. induction F2; cbn; [easy|]. f_equal; auto. }
  repeat split; intros F2.
  - assert (K1 : look (TargetLinker n) r = look (TargetLinker n) r').
    { apply Sc. eapply F; [exact F2|]. intros x y [E1 E2]. unfold scalar_in. cbn. unfold under. now rewrite E1, E2. }
    assert (K2 : look_list (TargetRustflags n) r = look_list (TargetRustflags n) r').
    { apply Li. eapply F; [exact F2|]. intros x y [E1 E2]. unfold list_in. cbn. unfold under. now rewrite E1, E2. }
    assert (K3 : look_list (TargetRustdocflags n) r = look_list (TargetRustdocflags n) r').
    { apply Li. eapply F; [exact F2|]. intros x y [E1 E2]. unfold list_in. cbn. unfold under. now rewrite E1, E2. }
    assert (K4 : look_program (TargetRunner n) r = look_program (TargetRunner n) r').
    { apply Pr. eapply F; [exact F2|]. intros x y [E1 E2]. unfold program_in. cbn. unfold under. now rewrite E1, E2. }
    assert (K5 : has_entry (TargetEntry n) r = has_entry (TargetEntry n) r').
    { apply En. eapply F; [exact F2|]. intros x y [E1 E2]. cbn. now rewrite E2. }
    cbn in K1, K2, K3, K4, K5. unfold under in *.
    destruct (bget n (c_target r)) as [[]|], (bget n (c_target r')) as [[]|]; cbn in *; try congruence.
    apply flags_view_inj in K2, K3. apply prog_view_inj in K4. congruence.
  - assert (K1 : look (EnvVarValue n) r = look (EnvVarValue n) r').
    { apply Sc. eapply F; [exact F2|]. intros x y [E1 E2]. unfold scalar_in. cbn. unfold under. now rewrite E1, E2. }
    assert (K2 : look (EnvVarForce n) r = look (EnvVarForce n) r').
    { apply Sc. eapply F; [exact F2|]. intros x y [E1 E2]. unfold scalar_in. cbn. unfold under. now rewrite E1, E2. }
    assert (K3 : look (EnvVarRelative n) r = look (EnvVarRelative n) r').
    { apply Sc. eapply F; [exact F2|]. intros x y [E1 E2]. unfold scalar_in. cbn. unfold under. now rewrite E1, E2. }
    assert (K4 : shape_at (ShapeEnv n) r = shape_at (ShapeEnv n) r').
    { apply Sh. eapply F; [exact F2|]. intros x y [E1 E2]. cbn. unfold under. now rewrite E2. }
    cbn in K1, K2, K3, K4. unfold under in *.
    destruct (bget n (c_env r)) as [[|]|], (bget n (c_env r')) as [[|]|]; cbn in *; congruence.
  - assert (K1 : look (RegistriesIndex n) r = look (RegistriesIndex n) r').
    { apply Sc. eapply F; [exact F2|]. intros x y [E1 E2]. unfold scalar_in. cbn. unfold under. now rewrite E1, E2. }
    assert (K2 : look (RegistriesToken n) r = look (RegistriesToken n) r').
    { apply Sc. eapply F; [exact F2|]. intros x y [E1 E2]. unfold scalar_in. cbn. unfold under. now rewrite E1, E2. }
    assert (K3 : look (RegistriesProtocol n) r = look (RegistriesProtocol n) r').
    { apply Sc. eapply F; [exact F2|]. intros x y [E1 E2]. unfold scalar_in. cbn. unfold under. now rewrite E1, E2. }
    assert (K5 : has_entry (RegistriesEntry n) r = has_entry (RegistriesEntry n) r').
    { apply En. eapply F; [exact F2|]. intros x y [E1 E2]. cbn. now rewrite E2. }
    cbn in K1, K2, K3, K5. unfold under in *.
    destruct (bget n (c_registries r)) as [[]|], (bget n (c_registries r')) as [[]|]; cbn in *; congruence.
  - assert (K2 : look_list (Alias n) r = look_list (Alias n) r').
    { apply Li. eapply F; [exact F2|]. intros x y [E1 E2]. unfold list_in. cbn. unfold under. now rewrite E1, E2. }
    cbn in K2. unfold under in K2. apply sl_view_inj.
    destruct (bget n (c_alias r)), (bget n (c_alias r')); cbn in *; congruence.
Qed.

(** The result is determined by the keys. *)
Lemma load_determined f ps r g ps' r' :
  load_files f ps = Ok r -> load_files g ps' = Ok r' -> same_keys r r' -> r = r'.
Proof.
  intros H H' K. apply same_keys_eq; eauto using load_files_sorted.
  now rewrite (load_files_overrides _ _ _ H), (load_files_overrides _ _ _ H').
Qed.

(** ** Monoid laws *)
Lemma plain_iff c : plain c <-> overrides c = (false, false).
Proof. unfold plain, overrides. split; [intros [-> ->]; reflexivity | intros [= -> ->]; auto]. Qed.

Lemma default_sorted : cfg_sorted config_default.
Proof. repeat split; constructor. Qed.

Lemma orelse_none_r {A} (x : option A) : orelse x None = x.
Proof. now destruct x. Qed.
Lemma pick_none_r' {A} f (x : option A) : pick f x None = x.
Proof. destruct f, x; reflexivity. Qed.
Lemma join2_none_r' f x : join2 f x None = x.
Proof. destruct x as [[[|] ?]|]; reflexivity. Qed.
Lemma join2p_none_r' f x : join2p f x None = x.
Proof. destruct x as [[[|] ?]|]; reflexivity. Qed.

Lemma merge_default_r a f : cfg_sorted a -> merge_config a config_default f = Ok a.
Proof.
  intros S. assert (K : is_ok (merge_config a config_default f) = true).
  { apply merge_ok_iff; [apply default_sorted|]. intros k. rewrite shape_default. now destruct (shape_at k a). }
  apply is_ok_iff in K. destruct K as [r Hr]. rewrite Hr. f_equal.
  apply same_keys_eq; [eapply merge_sorted; [|eassumption]; eassumption | exact S | eapply merge_overrides; eauto |].
  repeat split; intros.
  - rewrite (merge_scalar _ _ _ _ default_sorted Hr), look_default. apply pick_none_r'.
  - rewrite (merge_list _ _ _ _ default_sorted Hr), look_list_default. apply join2_none_r'.
  - rewrite (merge_program _ _ _ _ default_sorted Hr), look_program_default. apply join2p_none_r'.
  - rewrite (merge_entry _ _ _ _ default_sorted Hr), entry_default. apply orb_false_r.
  - rewrite (merge_shape _ _ _ _ default_sorted Hr), shape_default. apply orelse_none_r.
Qed.
Lemma merge_default_l a f : cfg_sorted a -> plain a -> merge_config config_default a f = Ok a.
Proof.
  intros S P. assert (K : is_ok (merge_config config_default a f) = true).
  { apply merge_ok_iff; [exact S|]. intros k. rewrite shape_default. easy. }
  apply is_ok_iff in K. destruct K as [r Hr]. rewrite Hr. f_equal.
  apply same_keys_eq; [eapply merge_sorted; [|eassumption]; apply default_sorted | exact S | |].
  { rewrite (merge_overrides _ _ _ _ Hr). symmetry. now apply plain_iff. }
  repeat split; intros.
  - rewrite (merge_scalar _ _ _ _ S Hr), look_default. apply pick_none_l.
  - rewrite (merge_list _ _ _ _ S Hr), look_list_default. apply join2_none_l.
  - rewrite (merge_program _ _ _ _ S Hr), look_program_default. apply join2p_none_l.
  - rewrite (merge_entry _ _ _ _ S Hr), entry_default. reflexivity.
  - rewrite (merge_shape _ _ _ _ S Hr), shape_default. reflexivity.
Qed.

Lemma same_outcome_intro {A} (x y : result A) :
  is_panic x = false -> is_panic y = false -> (is_ok x = true <-> is_ok y = true) ->
  (forall a b, x = Ok a -> y = Ok b -> a = b) -> same_outcome x y.
Proof.
  destruct x, y; cbn; intros P1 P2 H K; auto; try discriminate; destruct H as [H1 H2];
    try (now specialize (H1 eq_refl)); try (now specialize (H2 eq_refl)).
Qed.

Lemma pick_assoc {A} f (a b c : option A) : pick f (pick f a b) c = pick f a (pick f b c).
Proof. destruct f, a, b, c; reflexivity. Qed.
Lemma join2_assoc f a b c :
  agree (fshape a) (fshape b) -> agree (fshape b) (fshape c) -> agree (fshape a) (fshape c) ->
  join2 f (join2 f a b) c = join2 f a (join2 f b c).
Proof.
  destruct a as [[[|] a]|], b as [[[|] b]|], c as [[[|] c]|]; cbn; intros H1 H2 H3; try discriminate;
    destruct f; try reflexivity; now rewrite <- app_assoc.
Qed.
Lemma join2p_assoc f a b c :
  agree (fshape a) (fshape b) -> agree (fshape b) (fshape c) -> agree (fshape a) (fshape c) ->
  join2p f (join2p f a b) c = join2p f a (join2p f b c).
Proof.
  destruct a as [[[|] a]|], b as [[[|] b]|], c as [[[|] c]|]; cbn; intros H1 H2 H3; try discriminate;
    destruct f; try reflexivity; now rewrite <- app_assoc.
Qed.
Lemma agree_fshape_list k a b :
  agree (shape_at (ShapeList k) a) (shape_at (ShapeList k) b) ->
  agree (fshape (look_list k a)) (fshape (look_list k b)).
Proof. cbn. destruct (look_list k a) as [[[|] ?]|], (look_list k b) as [[[|] ?]|]; cbn; easy. Qed.
Lemma agree_fshape_program k a b :
  agree (shape_at (ShapeProgram k) a) (shape_at (ShapeProgram k) b) ->
  agree (fshape (look_program k a)) (fshape (look_program k b)).
Proof. cbn. destruct (look_program k a) as [[[|] ?]|], (look_program k b) as [[[|] ?]|]; cbn; easy. Qed.

Lemma merge_assoc a b c f :
  cfg_sorted a -> cfg_sorted b -> cfg_sorted c ->
  same_outcome (ab <- merge_config a b f ;; merge_config ab c f)
               (bc <- merge_config b c f ;; merge_config a bc f).
Proof.
  intros Sa Sb Sc. apply same_outcome_intro.
  - apply bind_panic; [apply merge_config_panic|]. intros; apply merge_config_panic.
  - apply bind_panic; [apply merge_config_panic|]. intros; apply merge_config_panic.
  - rewrite !bind_is_ok. split.
    + intros (ab & Hab & H).
      assert (A1 : forall k, agree (shape_at k a) (shape_at k b)) by (apply (merge_ok_iff a b f Sb); now rewrite Hab).
      pose proof (proj1 (merge_ok_iff ab c f Sc) H) as A2.
      assert (K : is_ok (merge_config b c f) = true).
      { apply merge_ok_iff; [exact Sc|]. intros k. specialize (A1 k). specialize (A2 k).
        rewrite (merge_shape _ _ _ _ Sb Hab) in A2.
        destruct (shape_at k a), (shape_at k b), (shape_at k c); cbn in *; first [exact I | congruence]. }
      apply is_ok_iff in K. destruct K as [bc Hbc]. exists bc. split; [exact Hbc|].
      apply merge_ok_iff; [eapply merge_sorted; [|eassumption]; eassumption|]. intros k. specialize (A1 k). specialize (A2 k).
      rewrite (merge_shape _ _ _ _ Sb Hab) in A2. rewrite (merge_shape _ _ _ _ Sc Hbc).
      destruct (shape_at k a), (shape_at k b), (shape_at k c); cbn in *; first [exact I | congruence].
    + intros (bc & Hbc & H).
      assert (Sbc : cfg_sorted bc) by (eapply merge_sorted; [|eassumption]; eassumption).
      assert (A1 : forall k, agree (shape_at k b) (shape_at k c)) by (apply (merge_ok_iff b c f Sc); now rewrite Hbc).
      pose proof (proj1 (merge_ok_iff a bc f Sbc) H) as A2.
      assert (K : is_ok (merge_config a b f) = true).
      { apply merge_ok_iff; [exact Sb|]. intros k. specialize (A1 k). specialize (A2 k).
        rewrite (merge_shape _ _ _ _ Sc Hbc) in A2.
        destruct (shape_at k a), (shape_at k b), (shape_at k c); cbn in *; first [exact I | congruence]. }
      apply is_ok_iff in K. destruct K as [ab Hab]. exists ab. split; [exact Hab|].
      apply merge_ok_iff; [exact Sc|]. intros k. specialize (A1 k). specialize (A2 k).
      rewrite (merge_shape _ _ _ _ Sc Hbc) in A2. rewrite (merge_shape _ _ _ _ Sb Hab).
      destruct (shape_at k a), (shape_at k b), (shape_at k c); cbn in *; first [exact I | congruence].
  - intros x y Hx Hy. apply bind_ok in Hx, Hy.
    destruct Hx as (ab & Hab & Hx), Hy as (bc & Hbc & Hy).
    assert (Sab : cfg_sorted ab) by (eapply merge_sorted; [|eassumption]; eassumption).
    assert (Sbc : cfg_sorted bc) by (eapply merge_sorted; [|eassumption]; eassumption).
    assert (A1 : forall k, agree (shape_at k a) (shape_at k b)) by (apply (merge_ok_iff a b f Sb); now rewrite Hab).
    assert (A2 : forall k, agree (shape_at k b) (shape_at k c)) by (apply (merge_ok_iff b c f Sc); now rewrite Hbc).
    assert (A3 : forall k, agree (shape_at k a) (shape_at k c)).
    { intros k. assert (K : forall k, agree (shape_at k ab) (shape_at k c))
        by (apply (merge_ok_iff ab c f Sc); now rewrite Hx).
      specialize (K k). rewrite (merge_shape _ _ _ _ Sb Hab) in K.
      destruct (shape_at k a), (shape_at k b), (shape_at k c); cbn in *; first [exact I | congruence]. }
    apply same_keys_eq; [eapply merge_sorted; [|eassumption]; eassumption | eapply merge_sorted; [|eassumption]; eassumption | |].
    { rewrite (merge_overrides _ _ _ _ Hx), (merge_overrides _ _ _ _ Hab), (merge_overrides _ _ _ _ Hy). reflexivity. }
    repeat split; intros.
    + rewrite (merge_scalar _ _ _ _ Sc Hx), (merge_scalar _ _ _ _ Sb Hab), (merge_scalar _ _ _ _ Sbc Hy),
        (merge_scalar _ _ _ _ Sc Hbc). apply pick_assoc.
    + rewrite (merge_list _ _ _ _ Sc Hx), (merge_list _ _ _ _ Sb Hab), (merge_list _ _ _ _ Sbc Hy),
        (merge_list _ _ _ _ Sc Hbc). apply join2_assoc; apply agree_fshape_list; auto.
    + rewrite (merge_program _ _ _ _ Sc Hx), (merge_program _ _ _ _ Sb Hab), (merge_program _ _ _ _ Sbc Hy),
        (merge_program _ _ _ _ Sc Hbc). apply join2p_assoc; apply agree_fshape_program; auto.
    + rewrite (merge_entry _ _ _ _ Sc Hx), (merge_entry _ _ _ _ Sb Hab), (merge_entry _ _ _ _ Sbc Hy),
        (merge_entry _ _ _ _ Sc Hbc). now rewrite orb_assoc.
    + rewrite (merge_shape _ _ _ _ Sc Hx), (merge_shape _ _ _ _ Sb Hab), (merge_shape _ _ _ _ Sbc Hy),
        (merge_shape _ _ _ _ Sc Hbc). destruct (shape_at k a), (shape_at k b); reflexivity.
Qed.

Lemma merge_force a b x y :
  cfg_sorted a -> cfg_sorted b -> merge_config a b true = Ok x -> merge_config b a false = Ok y ->
  forall A (k : scalar_key A), look k x = look k y.
Proof.
  intros Sa Sb Hx Hy A k. rewrite (merge_scalar _ _ _ _ Sb Hx), (merge_scalar _ _ _ _ Sa Hy). reflexivity.
Qed.

(** ** Error reports *)
Lemma load_rest_app f bp base ps qs :
  load_rest f bp base (ps ++ qs) = (r <- load_rest f bp base ps ;; load_rest f bp r qs).
Proof.
  revert base; induction ps as [|p ps IH]; intros base; cbn [load_rest app]; [reflexivity|].
  destruct (load_file f p); cbn [bind]; [|reflexivity..].
  destruct (with_context _ _); cbn [bind]; [|reflexivity..]. apply IH.
Qed.

Lemma load_file_err f p e earlier : load_file f p = Err e -> stops_at f earlier p e.
Proof.
  unfold load_file. destruct (fs_read f p) as [k| |t] eqn:E.
  - intros [= <-]. now constructor.
  - intros [= <-]. apply cannot_parse. now left.
  - destruct (de_config t) as [c|] eqn:Ec; [discriminate|]. intros [= <-]. apply cannot_parse. eauto.
Qed.

Lemma load_files_snoc f p0 pre p :
  load_files f ((p0 :: pre) ++ [p]) =
  (base <- load_files f (p0 :: pre) ;;
   c <- load_file f p ;;
   with_context (MText (B "failed to merge config from " ++ bt (lossy p) ++ B " into " ++ bt (lossy p0)))
     (merge_config base c false)).
Proof.
  cbn [load_files app]. destruct (load_file f p0); cbn [bind]; [|reflexivity..].
  rewrite load_rest_app. destruct (load_rest f p0 a pre); cbn [bind]; [|reflexivity..].
  cbn [load_rest]. destruct (load_file f p); cbn [bind]; [|reflexivity..].
  destruct (with_context _ _); reflexivity.
Qed.

Lemma load_files_prefix f pre post r : load_files f (pre ++ post) = Ok r -> is_ok (load_files f pre) = true.
Proof.
  destruct pre as [|p pre]; [reflexivity|]. cbn [load_files app]. intros H.
  apply bind_ok in H. destruct H as (c & -> & H). cbn [bind].
  rewrite load_rest_app in H. apply bind_ok in H. destruct H as (b & -> & _). reflexivity.
Qed.

Lemma load_files_err_ext f pre p post e :
  is_ok (load_files f pre) = true -> load_files f (pre ++ [p]) = Err e -> load_files f (pre ++ p :: post) = Err e.
Proof.
  intros _ H. destruct pre as [|p0 pre].
  - cbn in *. destruct (load_file f p); cbn in *; [discriminate|assumption|discriminate].
  - cbn [load_files app] in *. destruct (load_file f p0); cbn [bind] in *; [|assumption|discriminate].
    change (p :: post) with ([p] ++ post). rewrite app_assoc, load_rest_app, H. reflexivity.
Qed.

Lemma first_failure f ps e :
  load_files f ps = Err e ->
  exists pre p post, ps = pre ++ p :: post /\ is_ok (load_files f pre) = true
                     /\ load_files f (pre ++ [p]) = Err e.
Proof.
  induction ps as [|p ps IH] using rev_ind; [discriminate|]. intros H.
  destruct (load_files f ps) as [c|e'|pn] eqn:E.
  - exists ps, p, []. split; [reflexivity|]. rewrite E. auto.
  - assert (e' = e).
    { destruct ps as [|p0 ps]; [discriminate|]. rewrite load_files_snoc, E in H. now injection H. }
    subst e'. destruct (IH eq_refl) as (pre & q & post & -> & K1 & K2).
    exists pre, q, (post ++ [p]). split; [now rewrite <- app_assoc|auto].
  - pose proof (load_files_panic f ps) as K. rewrite E in K. discriminate.
Qed.

Lemma merge_map_not_ok {V} m (d : V -> dbg) lf low this force :
  sorted low -> is_ok (merge_map m d lf this low force) = false ->
  exists k a b, bget k this = Some a /\ bget k low = Some b /\ is_ok (m a b force) = false.
Proof.
  intros S. revert this. induction S as [|[k v] low S IH F]; intros this; cbn [merge_map]; [discriminate|].
  assert (Hk : bget k low = None) by now apply bget_below.
  assert (Lift : forall w, (exists k' a b, bget k' (binsert k w this) = Some a /\ bget k' low = Some b
                                   /\ is_ok (m a b force) = false) ->
                 exists k' a b, bget k' this = Some a /\ bget k' ((k, v) :: low) = Some b
                                   /\ is_ok (m a b force) = false).
  { intros w (k' & a & b & H1 & H2 & H3). rewrite bget_binsert in H1. cbn.
    destruct (str_eqb k' k) eqn:Ek.
    - apply str_eqb_eq in Ek. subst. congruence.
    - exists k', a, b. rewrite Ek. auto. }
  destruct (bget k this) as [e|] eqn:E.
  - destruct (m e v force) as [w|er|pn] eqn:Em; cbn [with_context map_err bind].
    + intros H. apply (Lift w). now apply IH.
    + intros _. exists k, e, v. cbn. rewrite str_eqb_refl, Em. auto.
    + intros _. exists k, e, v. cbn. rewrite str_eqb_refl, Em. auto.
  - intros H. apply (Lift v). now apply IH.
Qed.

Lemma not_ok_iff (b : bool) (P : Prop) : (b = true <-> P) -> b = false -> ~ P.
Proof. intros H -> K. apply H in K. discriminate. Qed.

Lemma merge_conflict a b f :
  cfg_sorted b -> is_ok (merge_config a b f) = false -> exists k, ~ agree (shape_at k a) (shape_at k b).
Proof.
  intros (S1 & S2 & S3 & S4) H.
  pose proof (not_ok_iff _ _ (merge_config_ok_split a b f) H) as N. clear H.
  destruct (is_ok (merge_map merge_string_list dbg_string_list left_whole (c_alias a) (c_alias b) f)) eqn:E1.
  2:{ apply merge_map_not_ok in E1; [|exact S1]. destruct E1 as (n & x & y & Hx & Hy & M).
      exists (ShapeList (Alias n)). cbn [shape_at look_list]. rewrite !omap_under. intros A.
      pose proof (proj1 (agree_under _ _ _ _) A x y Hx Hy) as K. cbn in K.
      apply (not_ok_iff _ _ (merge_sl_ok x y f) M). destruct (sl_repr x), (sl_repr y); easy. }
  destruct (is_ok (merge_opt merge_soa (b_target (c_build a)) (b_target (c_build b)) f)) eqn:E2.
  2:{ exists (ShapeList BuildTarget). exact (not_ok_iff _ _ (merge_soa_opt_ok _ _ f) E2). }
  destruct (is_ok (merge_opt merge_flags (b_rustflags (c_build a)) (b_rustflags (c_build b)) f)) eqn:E3.
  2:{ exists (ShapeList BuildRustflags). exact (not_ok_iff _ _ (merge_flags_opt_ok _ _ f) E3). }
  destruct (is_ok (merge_opt merge_flags (b_rustdocflags (c_build a)) (b_rustdocflags (c_build b)) f)) eqn:E4.
  2:{ exists (ShapeList BuildRustdocflags). exact (not_ok_iff _ _ (merge_flags_opt_ok _ _ f) E4). }
  destruct (is_ok (merge_opt merge_path_and_args (d_browser (c_doc a)) (d_browser (c_doc b)) f)) eqn:E5.
  2:{ exists (ShapeProgram DocBrowser). exact (not_ok_iff _ _ (merge_pa_opt_ok _ _ f) E5). }
  destruct (is_ok (merge_map merge_env_config_value dbg_env_config_value left_whole (c_env a) (c_env b) f)) eqn:E6.
  2:{ apply merge_map_not_ok in E6; [|exact S2]. destruct E6 as (n & x & y & Hx & Hy & M).
      exists (ShapeEnv n). cbn [shape_at]. intros A.
      pose proof (proj1 (agree_under _ _ _ _) A x y Hx Hy) as K. cbn in K.
      apply (not_ok_iff _ _ (merge_env_ok x y f) M). exact K. }
  destruct (is_ok (merge_map merge_registries dbg_registries left_whole (c_registries a) (c_registries b) f)) eqn:E7.
  2:{ apply merge_map_not_ok in E7; [|exact S3]. destruct E7 as (n & x & y & Hx & Hy & M).
      rewrite merge_registries_eq in M. discriminate. }
  destruct (is_ok (merge_map merge_target dbg_target left_target (c_target a) (c_target b) f)) eqn:E8.
  { destruct N. auto 10. }
  apply merge_map_not_ok in E8; [|exact S4]. destruct E8 as (n & x & y & Hx & Hy & M). clear N.
  rewrite merge_target_eq in M.
  destruct (is_ok (merge_opt merge_path_and_args (t_runner x) (t_runner y) f)) eqn:T1.
  2:{ exists (ShapeProgram (TargetRunner n)). cbn [shape_at look_program]. rewrite !omap_under. intros A.
      exact (not_ok_iff _ _ (merge_pa_opt_ok _ _ f) T1 (proj1 (agree_under _ _ _ _) A x y Hx Hy)). }
  destruct (is_ok (merge_opt merge_flags (t_rustflags x) (t_rustflags y) f)) eqn:T2.
  2:{ exists (ShapeList (TargetRustflags n)). cbn [shape_at look_list]. rewrite !omap_under. intros A.
      exact (not_ok_iff _ _ (merge_flags_opt_ok _ _ f) T2 (proj1 (agree_under _ _ _ _) A x y Hx Hy)). }
  destruct (is_ok (merge_opt merge_flags (t_rustdocflags x) (t_rustdocflags y) f)) eqn:T3.
  2:{ exists (ShapeList (TargetRustdocflags n)). cbn [shape_at look_list]. rewrite !omap_under. intros A.
      exact (not_ok_iff _ _ (merge_flags_opt_ok _ _ f) T3 (proj1 (agree_under _ _ _ _) A x y Hx Hy)). }
  exfalso. apply is_ok_iff in T1, T2, T3. destruct T1 as [? T1], T2 as [? T2], T3 as [? T3].
  rewrite T1, T2, T3 in M. discriminate.
Qed.

Lemma load_files_err f ps e :
  load_files f ps = Err e ->
  exists pre p post, ps = pre ++ p :: post /\ is_ok (load_files f pre) = true /\ stops_at f pre p e.
Proof.
  intros H. destruct (first_failure f ps e H) as (pre & p & post & -> & K1 & K2).
  exists pre, p, post. split; [reflexivity|]. split; [exact K1|].
  destruct pre as [|p0 pre].
  - cbn in K2. destruct (load_file f p) eqn:E; cbn in K2; [discriminate| |discriminate].
    injection K2 as <-. now apply load_file_err.
  - rewrite load_files_snoc in K2. pose proof K1 as Ko. apply is_ok_iff in K1. destruct K1 as [base Hb].
    rewrite Hb in K2. cbn [bind] in K2.
    destruct (load_file f p) as [c'|e'|pn] eqn:E; cbn [bind] in K2; [|injection K2 as <-; now apply load_file_err|discriminate].
    apply load_file_ok in E. destruct E as (c & Hc & ->).
    destruct (merge_config base (sp_config p c) false) as [r|e'|pn] eqn:Em;
      cbn [with_context map_err] in K2; [discriminate| |discriminate].
    injection K2 as <-. apply cannot_merge with (more := pre) (c := c); [reflexivity|exact Hc|].
    apply load_files_ok in Ko. destruct Ko as (l & Hl & _).
    pose proof (sp_sorted p c (contents_sorted _ _ _ Hc)) as Sc.
    destruct (merge_conflict base (sp_config p c) false Sc) as [k Hk]; [now rewrite Em|].
    rewrite shape_sp in Hk. exists k.
    pose proof (load_shape _ _ _ _ Hb Hl k) as Es.
    destruct (shape_at k base) as [s|] eqn:Eb; [|now destruct Hk].
    symmetry in Es. apply first_defined_in in Es. apply in_map_iff in Es. destruct Es as ([q c'] & Ek & Hin).
    destruct (reads_in _ _ _ _ _ Hl Hin). exists q, c'. cbn in Ek. rewrite Ek. auto.
Qed.
