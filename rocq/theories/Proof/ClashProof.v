(** Proofs about the report of a failed merge. *)
From Verif.Model Require Import Base Str Path BMap Error Value De Debug Merge SetPath Walk Serde Load.
From Verif.Spec Require Import StrSpec PathSpec WalkSpec ConfigSpec LoadSpec ClashSpec.
From Verif.Proof Require Import StrFacts BMapFacts MergeProof LoadProof.
From Coq Require Import Lia.

#[local] Arguments B : simpl never.

(** ** The order of the keys *)
Definition precedes_place (x y : nat * str * nat) : Prop :=
  let '(t, n, i) := x in
  let '(t', n', i') := y in
  t < t' \/ (t = t' /\ (str_cmp n n' = Lt \/ (n = n' /\ i < i'))).
Lemma precedes_eq k k' : precedes k k' = precedes_place (place k) (place k').
Proof. reflexivity. Qed.

Lemma place_total x y : precedes_place x y \/ x = y \/ precedes_place y x.
Proof.
  destruct x as [[t n] i], y as [[t' n'] i']. cbn.
  destruct (Nat.lt_total t t') as [H|[H|H]]; [auto| |auto]. subst t'.
  destruct (str_cmp n n') eqn:E.
  - apply str_cmp_eq in E. subst n'. destruct (Nat.lt_total i i') as [H|[H|H]]; [left; right; auto|subst; auto|right; right; right; auto].
  - left. right. auto.
  - right. right. right. split; [reflexivity|]. left. rewrite str_cmp_antisym, E. reflexivity.
Qed.

Lemma place_inj k k' : place k = place k' -> k = k'.
Proof.
  destruct k as [[n| | | |n|n]|[|n]|n], k' as [[m| | | |m|m]|[|m]|m]; cbn; intros [=]; subst; reflexivity.
Qed.

Lemma first_clash_unique a b k k' : first_clash a b k -> first_clash a b k' -> k = k'.
Proof.
  intros [H1 H2] [K1 K2]. destruct (place_total (place k) (place k')) as [H|[H|H]].
  - destruct H1. now apply K2.
  - now apply place_inj.
  - destruct K1. now apply H2.
Qed.

(** ** The report is determined *)
Lemma flags_words_inj x y : flags_words x = flags_words y -> x = y.
Proof. destruct x as [? [|]], y as [? [|]]; cbn; unfold flags_words; cbn; intros [=]; subst; reflexivity. Qed.
Lemma program_words_inj x y : program_words x = program_words y -> x = y.
Proof. destruct x as [? ? [|]], y as [? ? [|]]; cbn; unfold program_words; cbn; intros [=]; subst; reflexivity. Qed.
Lemma omap_inj {A A'} (f : A -> A') x y :
  (forall a b, f a = f b -> a = b) -> option_map f x = option_map f y -> x = y.
Proof. intros H. destruct x, y; cbn; intros [=]; [f_equal; now apply H|reflexivity]. Qed.

Lemma half_unique force i x y z z' : half_joined force i x y z -> half_joined force i x y z' -> z = z'.
Proof.
  intros (H1 & H2 & H3 & H4) (K1 & K2 & K3 & K4).
  rewrite <- K2 in H2. rewrite <- K3 in H3.
  apply (omap_inj _ _ _ program_words_inj) in H2. apply (omap_inj _ _ _ flags_words_inj) in H3.
  destruct z, z'; cbn in *; subst; reflexivity.
Qed.

Lemma report_unique a b force s s' k e e' :
  report a b force s s' k e -> report a b force s s' k e' -> e = e'.
Proof.
  intros H K. destruct H as [k P| |n x y Hx Hy|n x y Hx Hy|k n i x y z P Hx Hy Hz]; inversion K; subst; cbn in *;
    try discriminate; try reflexivity; try congruence;
    try (rewrite P in *; cbn in *; discriminate);
    try match goal with H : place _ = _, H' : fst (fst (place _)) = _ |- _ => rewrite H in H'; discriminate end.
  match goal with H : place k = (4, ?n', ?i') |- _ => rewrite P in H; injection H as <- <- end.
  match goal with H : bget n (c_target a) = Some ?x' |- _ => rewrite Hx in H; injection H as <- end.
  match goal with H : bget n (c_target b) = Some ?x' |- _ => rewrite Hy in H; injection H as <- end.
  match goal with H : half_joined _ _ _ _ ?z' |- _ => rewrite (half_unique _ _ _ _ _ _ Hz H) end. reflexivity.
Qed.

(** ** Failures of the parts *)
Lemma merge_map_err {V} m (d : V -> dbg) lf low this force e :
  sorted low -> merge_map m d lf this low force = Err e ->
  exists n x y e0, bget n this = Some x /\ bget n low = Some y /\ m x y force = Err e0
    /\ e = about n (d (lf x y force)) (d y) e0
    /\ forall n' x' y', str_cmp n' n = Lt -> bget n' this = Some x' -> bget n' low = Some y' ->
                        is_ok (m x' y' force) = true.
Proof.
  intros S. revert this. induction S as [|[k v] low S IH F]; intros this; cbn [merge_map]; [discriminate|].
  assert (Hk : bget k low = None) by now apply bget_below.
  assert (Below : forall n y, bget n low = Some y -> str_cmp k n = Lt).
  { intros n y Hn. apply bget_in in Hn. rewrite Forall_forall in F. exact (F _ Hn). }
  assert (Lift : forall w,
    (forall e', bget k this = Some e' -> is_ok (m e' v force) = true) ->
    (exists n x y e0, bget n (binsert k w this) = Some x /\ bget n low = Some y /\ m x y force = Err e0
      /\ e = about n (d (lf x y force)) (d y) e0
      /\ forall n' x' y', str_cmp n' n = Lt -> bget n' (binsert k w this) = Some x' -> bget n' low = Some y' ->
                        is_ok (m x' y' force) = true) ->
    exists n x y e0, bget n this = Some x /\ bget n ((k, v) :: low) = Some y /\ m x y force = Err e0
      /\ e = about n (d (lf x y force)) (d y) e0
      /\ forall n' x' y', str_cmp n' n = Lt -> bget n' this = Some x' -> bget n' ((k, v) :: low) = Some y' ->
                        is_ok (m x' y' force) = true).
  { intros w Hw (n & x & y & e0 & H1 & H2 & H3 & H4 & H5). exists n, x, y, e0.
    assert (N : str_eqb n k = false).
    { destruct (str_eqb n k) eqn:E; [|reflexivity]. apply str_eqb_eq in E. subst. congruence. }
    rewrite bget_binsert, N in H1. cbn [bget]. rewrite N. repeat split; auto.
    intros n' x' y' L Hx Hy. destruct (str_eqb n' k) eqn:E.
    - apply str_eqb_eq in E. subst n'. injection Hy as <-. now apply Hw.
    - apply (H5 n'); auto. rewrite bget_binsert, E. exact Hx. }
  destruct (bget k this) as [x|] eqn:E.
  - destruct (m x v force) as [w|er|pn] eqn:Em; cbn [with_context map_err bind].
    + intros H. apply (Lift w); [|now apply IH]. intros ? [= <-]. now rewrite Em.
    + intros [= <-]. exists k, x, v, er. cbn [bget]. rewrite str_eqb_refl. repeat split; auto.
      intros n' x' y' L Hx Hy. exfalso. destruct (str_eqb n' k) eqn:En.
      * apply str_eqb_eq in En. subst. rewrite str_cmp_refl in L. discriminate.
      * apply Below in Hy. rewrite str_cmp_antisym, L in Hy. discriminate.
    + discriminate.
  - intros H. apply (Lift v); [discriminate|now apply IH].
Qed.

Lemma soa_err x y f e k :
  (forall n, k <> ShapeEnv n) ->
  merge_opt merge_soa x y f = Err e ->
  exists s s', vshape (soa_view x) = Some s /\ vshape (soa_view y) = Some s' /\ s <> s' /\ e = complaint k s s'.
Proof.
  intros N. leaf_cases; cbn; try discriminate; intros [= <-]; do 2 eexists; repeat split; try discriminate;
    destruct k as [| |n]; try reflexivity; now destruct (N n).
Qed.
Lemma flags_err x y f e k :
  (forall n, k <> ShapeEnv n) ->
  merge_opt merge_flags x y f = Err e ->
  exists s s', vshape (flags_view x) = Some s /\ vshape (flags_view y) = Some s' /\ s <> s' /\ e = complaint k s s'.
Proof.
  intros N. leaf_cases; cbn; try discriminate; intros [= <-]; do 2 eexists; repeat split; try discriminate;
    destruct k as [| |n]; try reflexivity; now destruct (N n).
Qed.
Lemma pa_err x y f e k :
  (forall n, k <> ShapeEnv n) ->
  merge_opt merge_path_and_args x y f = Err e ->
  exists s s', vshape (prog_view x) = Some s /\ vshape (prog_view y) = Some s' /\ s <> s' /\ e = complaint k s s'.
Proof.
  intros N. leaf_cases; cbn; try discriminate; intros [= <-]; do 2 eexists; repeat split; try discriminate;
    destruct k as [| |n]; try reflexivity; now destruct (N n).
Qed.
Lemma sl_err x y f e n :
  merge_string_list x y f = Err e ->
  e = complaint (ShapeList (Alias n)) (shape_of_form (form_of (sl_repr x))) (shape_of_form (form_of (sl_repr y)))
  /\ sl_repr x <> sl_repr y.
Proof. destruct x as [? [|]], y as [? [|]]; cbn; try discriminate; intros [= <-]; split; easy. Qed.
Lemma env_err x y f e n :
  merge_env_config_value x y f = Err e ->
  e = complaint (ShapeEnv n) (env_shape x) (env_shape y) /\ env_shape x <> env_shape y.
Proof. rewrite merge_env_eq. destruct x, y; cbn; try discriminate; intros [= <-]; split; easy. Qed.

Lemma winner_pick {A} f (x y : option A) : winner f x y = pick f x y.
Proof. destruct f, x, y; reflexivity. Qed.
Lemma joined_join2 f x y :
  agree (vshape x) (vshape y) -> joined join_lists f x y = join2 f x y.
Proof.
  destruct x as [[[|] u]|], y as [[[|] v]|], f; cbn; intros H; try discriminate; rewrite ?app_nil_r; reflexivity.
Qed.
Lemma joined_join2p f x y :
  agree (vshape x) (vshape y) -> joined join_programs f x y = join2p f x y.
Proof.
  destruct x as [[[|] u]|], y as [[[|] v]|], f; cbn; intros H; try discriminate; rewrite ?app_nil_r; reflexivity.
Qed.

Definition key_no (n : str) (i : nat) : shaped_key :=
  match i with
  | 0 => ShapeProgram (TargetRunner n)
  | 1 => ShapeList (TargetRustflags n)
  | _ => ShapeList (TargetRustdocflags n)
  end.
Definition shape_no (i : nat) (t : target_config) : option shape :=
  match i with
  | 0 => vshape (prog_view (t_runner t))
  | 1 => vshape (flags_view (t_rustflags t))
  | _ => vshape (flags_view (t_rustdocflags t))
  end.
Lemma target_err x y f e n :
  merge_target x y f = Err e ->
  exists i s s', i < 3 /\ shape_no i x = Some s /\ shape_no i y = Some s' /\ s <> s'
    /\ e = complaint (key_no n i) s s'
    /\ (forall j, j < i -> agree (shape_no j x) (shape_no j y))
    /\ half_joined f i x y (left_target x y f).
Proof.
  rewrite merge_target_eq. unfold left_target. rewrite merge_v_eq.
  destruct (merge_opt merge_path_and_args (t_runner x) (t_runner y) f) as [r|e1|p] eqn:E1; cbn [bind]; [| |discriminate].
  2:{ intros [= <-]. destruct (pa_err _ _ _ _ (ShapeProgram (TargetRunner n)) ltac:(discriminate) E1)
        as (s & s' & H1 & H2 & H3 & H4).
      exists 0, s, s'. repeat split; auto; try lia. cbn. now rewrite winner_pick. }
  pose proof (proj1 (merge_pa_opt_ok _ _ f) (f_equal is_ok E1)) as A1.
  destruct (merge_opt merge_flags (t_rustflags x) (t_rustflags y) f) as [r2|e1|p] eqn:E2; cbn [bind]; [| |discriminate].
  2:{ intros [= <-]. destruct (flags_err _ _ _ _ (ShapeList (TargetRustflags n)) ltac:(discriminate) E2)
        as (s & s' & H1 & H2 & H3 & H4).
      exists 1, s, s'. repeat split; auto; try lia.
      - intros j L. assert (j = 0) by lia. subst j. exact A1.
      - cbn. now rewrite winner_pick.
      - cbn [t_runner]. cbv zeta. cbn [Nat.ltb Nat.leb]. rewrite joined_join2p by exact A1.
        exact (merge_pa_opt_view _ _ _ _ E1). }
  pose proof (proj1 (merge_flags_opt_ok _ _ f) (f_equal is_ok E2)) as A2.
  destruct (merge_opt merge_flags (t_rustdocflags x) (t_rustdocflags y) f) as [r3|e1|p] eqn:E3; cbn [bind];
    [discriminate| |discriminate].
  intros [= <-]. destruct (flags_err _ _ _ _ (ShapeList (TargetRustdocflags n)) ltac:(discriminate) E3)
        as (s & s' & H1 & H2 & H3 & H4).
  exists 2, s, s'. repeat split; auto; try lia.
  - intros j L. destruct j as [|[|j]]; [exact A1|exact A2|lia].
  - cbn. now rewrite winner_pick.
  - cbn [t_runner]. cbv zeta. cbn [Nat.ltb Nat.leb]. rewrite joined_join2p by exact A1.
    exact (merge_pa_opt_view _ _ _ _ E1).
  - cbn [t_rustflags]. cbv zeta. cbn [Nat.ltb Nat.leb]. rewrite joined_join2 by exact A2.
    exact (merge_flags_opt_view _ _ _ _ E2).
Qed.

(** ** The first failure *)
Lemma merge_config_err a b f e :
  merge_config a b f = Err e ->
  let m1 := merge_map merge_string_list dbg_string_list left_whole (c_alias a) (c_alias b) f in
  let m2 := merge_opt merge_soa (b_target (c_build a)) (b_target (c_build b)) f in
  let m3 := merge_opt merge_flags (b_rustflags (c_build a)) (b_rustflags (c_build b)) f in
  let m4 := merge_opt merge_flags (b_rustdocflags (c_build a)) (b_rustdocflags (c_build b)) f in
  let m5 := merge_opt merge_path_and_args (d_browser (c_doc a)) (d_browser (c_doc b)) f in
  let m6 := merge_map merge_env_config_value dbg_env_config_value left_whole (c_env a) (c_env b) f in
  let m8 := merge_map merge_target dbg_target left_target (c_target a) (c_target b) f in
  m1 = Err e
  \/ is_ok m1 = true /\ (m2 = Err e
  \/ is_ok m2 = true /\ (m3 = Err e
  \/ is_ok m3 = true /\ (m4 = Err e
  \/ is_ok m4 = true /\ (m5 = Err e
  \/ is_ok m5 = true /\ (m6 = Err e
  \/ is_ok m6 = true /\ m8 = Err e))))).
Proof.
  cbv zeta. unfold merge_config. rewrite merge_build_eq. unfold merge_doc, merge_future, merge_cargo_new.
  rewrite !merge_v_eq, merge_http_eq, merge_net_eq, merge_registry_eq, merge_term_eq.
  destruct (merge_map merge_string_list _ _ _ _ _); cbn [bind is_ok]; intros H; [|left; now injection H as ->|discriminate].
  right; split; [reflexivity|].
  destruct (merge_opt merge_soa _ _ _); cbn [bind is_ok] in *; [|left; now injection H as ->|discriminate].
  right; split; [reflexivity|].
  destruct (merge_opt merge_flags (b_rustflags _) _ _); cbn [bind is_ok] in *; [|left; now injection H as ->|discriminate].
  right; split; [reflexivity|].
  destruct (merge_opt merge_flags (b_rustdocflags _) _ _); cbn [bind is_ok] in *; [|left; now injection H as ->|discriminate].
  right; split; [reflexivity|].
  destruct (merge_opt merge_path_and_args _ _ _); cbn [bind is_ok] in *; [|left; now injection H as ->|discriminate].
  right; split; [reflexivity|].
  destruct (merge_map merge_env_config_value _ _ _ _ _); cbn [bind is_ok] in *; [|left; now injection H as ->|discriminate].
  right; split; [reflexivity|].
  destruct (is_ok (merge_map merge_registries dbg_registries left_whole (c_registries a) (c_registries b) f)) eqn:E.
  - apply is_ok_iff in E. destruct E as [x E]. rewrite E in H. cbn [bind] in H.
    destruct (merge_map merge_target _ _ _ _ _); cbn [bind] in H; [discriminate|now injection H as ->|discriminate].
  - exfalso. assert (K : forall low this, is_ok (merge_map merge_registries dbg_registries left_whole this low f) = true).
    { induction low as [|[k v] low IH]; intros this; cbn [merge_map]; [reflexivity|].
      destruct (bget k this); [|apply IH]. rewrite merge_registries_eq. cbn [with_context map_err bind]. apply IH. }
    rewrite K in E. discriminate.
Qed.

Lemma aliases_agree a b f :
  sorted (c_alias b) ->
  is_ok (merge_map merge_string_list dbg_string_list left_whole (c_alias a) (c_alias b) f) = true ->
  forall n, agree (shape_at (ShapeList (Alias n)) a) (shape_at (ShapeList (Alias n)) b).
Proof.
  intros S H n. rewrite merge_map_ok_iff in H by exact S. cbn [shape_at look_list]. rewrite !omap_under.
  apply agree_under. intros x y Hx Hy. specialize (H n x y Hx Hy). apply merge_sl_ok in H. cbn. now rewrite H.
Qed.
Lemma envs_agree a b f :
  sorted (c_env b) ->
  is_ok (merge_map merge_env_config_value dbg_env_config_value left_whole (c_env a) (c_env b) f) = true ->
  forall n, agree (shape_at (ShapeEnv n) a) (shape_at (ShapeEnv n) b).
Proof.
  intros S H n. rewrite merge_map_ok_iff in H by exact S. cbn [shape_at].
  apply agree_under. intros x y Hx Hy. specialize (H n x y Hx Hy). apply merge_env_ok in H. exact H.
Qed.

Lemma shape_no_at c n i : i < 3 ->
  shape_at (key_no n i) c = match bget n (c_target c) with Some t => shape_no i t | None => None end.
Proof.
  intros L. destruct i as [|[|[|i]]]; [..|lia]; cbn [key_no shape_at look_list look_program]; rewrite omap_under;
    unfold under; destruct (bget n (c_target c)); reflexivity.
Qed.

Ltac key_cases k' := destruct k' as [[n'| | | |n'|n']|[|n']|n'].

Lemma clash_forward a b f e :
  cfg_sorted b -> merge_config a b f = Err e -> clash_report a b f e.
Proof.
  intros (S1 & S2 & S3 & S4) H. apply merge_config_err in H. cbv zeta in H.
  destruct H as [H|[O1 H]].
  { apply merge_map_err in H; [|exact S1]. destruct H as (n & x & y & e0 & Hx & Hy & He & -> & Hb).
    apply sl_err with (n := n) in He. destruct He as [-> Ne].
    exists (ShapeList (Alias n)), (shape_of_form (form_of (sl_repr x))), (shape_of_form (form_of (sl_repr y))).
    assert (Ha : shape_at (ShapeList (Alias n)) a = Some (shape_of_form (form_of (sl_repr x))))
      by (cbn; unfold under; now rewrite Hx).
    assert (Hb' : shape_at (ShapeList (Alias n)) b = Some (shape_of_form (form_of (sl_repr y))))
      by (cbn; unfold under; now rewrite Hy).
    repeat split; auto.
    - rewrite Ha, Hb'. cbn. intros E. apply Ne. destruct (sl_repr x), (sl_repr y); easy.
    - intros k' P. key_cases k'; cbn in P; try lia. cbn [shape_at look_list]. rewrite !omap_under.
      apply agree_under. intros x' y' Hx' Hy'. destruct P as [P|[_ [P|[_ P]]]]; try lia.
      specialize (Hb n' x' y' P Hx' Hy'). apply merge_sl_ok in Hb. cbn. now rewrite Hb.
    - now apply report_alias. }
  pose proof (aliases_agree a b f S1 O1) as A1. clear O1.
  destruct H as [H|[O2 H]].
  { apply soa_err with (k := ShapeList BuildTarget) in H; [|discriminate].
    destruct H as (s & s' & H1 & H2 & N & ->). exists (ShapeList BuildTarget), s, s'.
    repeat split; auto.
    - unfold shape_at. change (~ agree (vshape (soa_view (b_target (c_build a)))) (vshape (soa_view (b_target (c_build b))))).
      now rewrite H1, H2.
    - intros k' P. key_cases k'; cbn in P; try (exfalso; intuition (try lia; discriminate)). apply A1.
    - now constructor. }
  apply merge_soa_opt_ok in O2.
  destruct H as [H|[O3 H]].
  { apply flags_err with (k := ShapeList BuildRustflags) in H; [|discriminate].
    destruct H as (s & s' & H1 & H2 & N & ->). exists (ShapeList BuildRustflags), s, s'.
    repeat split; auto.
    - change (~ agree (vshape (flags_view (b_rustflags (c_build a)))) (vshape (flags_view (b_rustflags (c_build b))))).
      now rewrite H1, H2.
    - intros k' P. key_cases k'; cbn in P; try (exfalso; intuition (try lia; discriminate)); [apply A1|exact O2].
    - now constructor. }
  apply merge_flags_opt_ok in O3.
  destruct H as [H|[O4 H]].
  { apply flags_err with (k := ShapeList BuildRustdocflags) in H; [|discriminate].
    destruct H as (s & s' & H1 & H2 & N & ->). exists (ShapeList BuildRustdocflags), s, s'.
    repeat split; auto.
    - change (~ agree (vshape (flags_view (b_rustdocflags (c_build a)))) (vshape (flags_view (b_rustdocflags (c_build b))))).
      now rewrite H1, H2.
    - intros k' P. key_cases k'; cbn in P; try (exfalso; intuition (try lia; discriminate));
        [apply A1|exact O2|exact O3].
    - now constructor. }
  apply merge_flags_opt_ok in O4.
  destruct H as [H|[O5 H]].
  { apply pa_err with (k := ShapeProgram DocBrowser) in H; [|discriminate].
    destruct H as (s & s' & H1 & H2 & N & ->). exists (ShapeProgram DocBrowser), s, s'.
    repeat split; auto.
    - change (~ agree (vshape (prog_view (d_browser (c_doc a)))) (vshape (prog_view (d_browser (c_doc b))))).
      now rewrite H1, H2.
    - intros k' P. key_cases k'; cbn in P; try (exfalso; intuition (try lia; discriminate));
        [apply A1|exact O2|exact O3|exact O4].
    - apply report_doc. }
  apply merge_pa_opt_ok in O5.
  destruct H as [H|[O6 H]].
  { apply merge_map_err in H; [|exact S2]. destruct H as (n & x & y & e0 & Hx & Hy & He & -> & Hb).
    apply env_err with (n := n) in He. destruct He as [-> Ne].
    exists (ShapeEnv n), (env_shape x), (env_shape y).
    assert (Ha : shape_at (ShapeEnv n) a = Some (env_shape x)) by (cbn; unfold under; now rewrite Hx).
    assert (Hb' : shape_at (ShapeEnv n) b = Some (env_shape y)) by (cbn; unfold under; now rewrite Hy).
    repeat split; auto.
    - rewrite Ha, Hb'. exact Ne.
    - intros k' P. key_cases k'; cbn in P; try (exfalso; intuition (try lia; discriminate));
        [apply A1|exact O2|exact O3|exact O4|exact O5|].
      cbn [shape_at]. apply agree_under. intros x' y' Hx' Hy'. destruct P as [P|[_ [P|[_ P]]]]; try lia.
      specialize (Hb n' x' y' P Hx' Hy'). apply merge_env_ok in Hb. exact Hb.
    - now apply report_env. }
  pose proof (envs_agree a b f S2 O6) as A6. clear O6.
  apply merge_map_err in H; [|exact S4]. destruct H as (n & x & y & e0 & Hx & Hy & He & -> & Hb).
  apply target_err with (n := n) in He. destruct He as (i & s & s' & L & H1 & H2 & N & -> & Hj & Hh).
  assert (Pl : place (key_no n i) = (4, n, i)) by (destruct i as [|[|[|i]]]; [reflexivity..|lia]).
  assert (Ha : shape_at (key_no n i) a = Some s) by now rewrite shape_no_at, Hx.
  assert (Hb' : shape_at (key_no n i) b = Some s') by now rewrite shape_no_at, Hy.
  exists (key_no n i), s, s'. repeat split; auto.
  - rewrite Ha, Hb'. exact N.
  - intros k' P. rewrite precedes_eq, Pl in P.
    assert (T : forall n' j, j < 3 -> precedes_place (4, n', j) (4, n, i) ->
                agree (shape_at (key_no n' j) a) (shape_at (key_no n' j) b)).
    { intros n' j Lj [Q|[_ [Q|[-> Q]]]]; [lia| |].
      - rewrite !shape_no_at by exact Lj.
        destruct (bget n' (c_target a)) as [x'|] eqn:Hx'; [|exact I].
        destruct (bget n' (c_target b)) as [y'|] eqn:Hy'; [|now destruct (shape_no j x')].
        specialize (Hb n' x' y' Q Hx' Hy'). apply merge_target_ok in Hb.
        destruct Hb as (B1 & B2 & B3). destruct j as [|[|j]]; assumption.
      - rewrite !shape_no_at, Hx, Hy by exact Lj. now apply Hj. }
    key_cases k'; cbn [place] in P;
        [apply A1|exact O2|exact O3|exact O4|..|exact O5| |apply A6].
    + apply (T n' 1); [lia|exact P].
    + apply (T n' 2); [lia|exact P].
    + apply (T n' 0); [lia|exact P].
  - apply report_target with (i := i) (x := x); auto.
Qed.

Lemma clash_iff a b f e :
  cfg_sorted b -> (merge_config a b f = Err e <-> clash_report a b f e).
Proof.
  intros S. split; [now apply clash_forward|].
  intros (k & s & s' & Hc & Ha & Hb & Hr).
  destruct (merge_config a b f) as [c|e'|p] eqn:E.
  - exfalso. destruct Hc as [Hc _]. apply Hc. apply (proj1 (merge_ok_iff a b f S)). now rewrite E.
  - apply clash_forward in E; [|exact S]. destruct E as (k' & t & t' & Kc & Ka & Kb & Kr).
    rewrite (first_clash_unique _ _ _ _ Kc Hc) in *. rewrite Ha in Ka. rewrite Hb in Kb.
    injection Ka as <-. injection Kb as <-. f_equal. eapply report_unique; eauto.
  - exfalso. pose proof (merge_config_panic a b f) as K. rewrite E in K. discriminate.
Qed.

(** ** Loading *)
Lemma load_file_ends f earlier base p e : load_file f p = Err e -> ends_at f earlier base p e.
Proof.
  unfold load_file. destruct (fs_read f p) as [k| |t] eqn:R.
  - intros [= <-]. now apply ends_read.
  - intros [= <-]. apply ends_parse. now left.
  - destruct (de_config t) eqn:D; [discriminate|]. intros [= <-]. apply ends_parse. right. eauto.
Qed.

Lemma load_ends f ps e :
  load_files f ps = Err e <->
  exists pre p post base, ps = pre ++ p :: post /\ load_files f pre = Ok base /\ ends_at f pre base p e.
Proof.
  split.
  - intros H. destruct (first_failure f ps e H) as (pre & p & post & -> & K1 & K2).
    apply is_ok_iff in K1. destruct K1 as [base Hb]. exists pre, p, post, base. repeat split; auto.
    destruct pre as [|p0 pre].
    + cbn in K2. destruct (load_file f p) eqn:E; cbn in K2; [discriminate| |discriminate].
      injection K2 as <-. now apply load_file_ends.
    + rewrite load_files_snoc, Hb in K2. cbn [bind] in K2.
      destruct (load_file f p) as [c'|e'|pn] eqn:E; cbn [bind] in K2; [| |discriminate].
      2:{ injection K2 as <-. now apply load_file_ends. }
      apply load_file_ok in E. destruct E as (c & Hc & ->).
      destruct (merge_config base (sp_config p c) false) as [r|e'|pn] eqn:Em;
        cbn [with_context map_err] in K2; [discriminate| |discriminate].
      injection K2 as <-. apply ends_merge with (more := pre) (c := c); [reflexivity|exact Hc|].
      apply clash_iff; [|exact Em]. apply sp_sorted. eapply contents_sorted. exact Hc.
  - intros (pre & p & post & base & -> & Hb & He).
    apply load_files_err_ext; [now rewrite Hb|].
    assert (F : forall e', load_file f p = Err e' -> load_files f (pre ++ [p]) = Err e').
    { intros e' E. destruct pre as [|p0 pre]; [cbn; now rewrite E|]. rewrite load_files_snoc, Hb. cbn [bind]. now rewrite E. }
    destruct He as [k R|R|closest more c e' -> Hc Hr].
    + apply F. unfold load_file. now rewrite R.
    + apply F. unfold load_file. destruct R as [R|(t & R & D)]; rewrite R; [reflexivity|]. now rewrite D.
    + rewrite load_files_snoc; unfold path, str in *; rewrite Hb. cbn [bind].
      assert (E : load_file f p = Ok (sp_config p c)) by (apply load_file_ok; eauto).
      rewrite E. cbn [bind].
      apply clash_iff in Hr; [|apply sp_sorted; eapply contents_sorted; exact Hc]. rewrite Hr. reflexivity.
Qed.
