(** On Unix the machine of [Model.StdPath] computes the functions of [Model.Path]. *)
From Verif.Model Require Import Base Str Path StdPath.
From Verif.Spec Require Import StrSpec PathSpec.
From Verif.Proof Require Import StrFacts PathFacts StdPathProof.

Lemma unix_sane : sane unix.
Proof. constructor; [reflexivity|reflexivity|discriminate]. Qed.

Lemma idle_junk w : idle false w = junk w.
Proof. unfold idle, sing, junk. destruct (is_empty w); [reflexivity|]. destruct (str_eqb w (B ".")); [reflexivity|]. now destruct (str_eqb w (B "..")). Qed.
Lemma drop_idle_junk q : drop_junk (map snd q) = map snd (drop_idle false q).
Proof. induction q as [|[k x] q IH]; [reflexivity|]. cbn. rewrite idle_junk. now destruct (junk x). Qed.
Lemma drop_last q w : drop_junk (map snd q ++ [w])
  = match drop_idle false q with [] => if idle false w then [] else [w] | l => map snd l ++ [w] end.
Proof.
  induction q as [|[k x] q IH]; cbn [map app drop_junk drop_idle snd].
  - rewrite idle_junk. now destruct (junk w).
  - rewrite idle_junk. destruct (junk x); [exact IH|reflexivity].
Qed.
Lemma slash_sep k : is_slash k = true -> k = slash.
Proof. apply Ascii.eqb_eq. Qed.
Lemma body_join w r : seps is_slash r -> join_with slash (w :: map snd r) = body w r.
Proof.
  intros S. revert w. induction S as [|[k x] r [K _] _ IH]; intros w.
  - unfold body. cbn. now rewrite app_nil_r.
  - apply slash_sep in K. cbn [fst] in K. subst k. cbn [map snd].
    change (join_with slash (w :: x :: map snd r)) with (w ++ slash :: join_with slash (x :: map snd r)). now rewrite IH.
Qed.
Lemma seps_sub f a b : (forall x, In x a -> In x b) -> seps f b -> seps f a.
Proof. unfold seps. rewrite !Forall_forall. auto. Qed.
Lemma join_trim w q : seps is_slash q ->
  join_with slash (rev (drop_junk (map snd q ++ [w]))) = trimmed false w (rev q).
Proof.
  intros S. rewrite drop_last. unfold trimmed. rewrite rev_involutive.
  destruct (drop_idle false q) as [|t l] eqn:D; [now destruct (idle false w)|].
  rewrite rev_app_distr, <- map_rev. cbn [rev app map]. apply body_join.
  apply (seps_sub _ _ q); [|exact S]. intros x I. apply (drop_idle_incl false). rewrite D. now apply in_rev.
Qed.
Lemma join_tail r : seps is_slash r -> r <> [] -> slash :: join_with slash (map snd r) = tail r.
Proof.
  intros S N. destruct S as [|[k x] r [K _] S]; [easy|]. apply slash_sep in K. cbn [fst] in K. subst k.
  cbn [map snd]. rewrite body_join by assumption. reflexivity.
Qed.
Lemma nosep_in w : nosep is_slash w -> ~ In slash w.
Proof. unfold nosep. rewrite Forall_forall. intros H I. specialize (H _ I). discriminate H. Qed.
Lemma split_body_on w r : nosep is_slash w -> seps is_slash r -> split_on slash (body w r) = w :: map snd r.
Proof.
  intros N S. revert w N. induction S as [|[k x] r [K Nx] _ IH]; intros w N.
  - unfold body. cbn. rewrite app_nil_r. apply split_on_none. now apply nosep_in.
  - apply slash_sep in K. cbn [fst snd] in *. subst k.
    change (body w ((slash, x) :: r)) with (w ++ slash :: body x r). rewrite split_on_app_sep by now apply nosep_in.
    cbn [map snd]. now rewrite IH.
Qed.

Definition start_of (st : start_kind) : start := match st with ByRoot _ => SRoot | ByDot => SCur | _ => SNone end.
Definition words (st : start_kind) (w : str) (r : list (ascii * str)) : list str :=
  match st with
  | ByDot => map snd r
  | Plainly => match w with [] => [] | _ => w :: map snd r end
  | _ => w :: map snd r
  end.
Definition shape (st : start_kind) (w : str) (r : list (ascii * str)) : Prop :=
  match st with
  | ByRoot k => k = slash
  | ByDot => w = []
  | Plainly => w <> B "." /\ (w = [] -> r = [])
  | ByPrefix => False
  end.
Lemma unix_dissect p : exists st w r, p = start_text st ++ body w r /\ shape st w r
  /\ nosep is_slash w /\ seps is_slash r
  /\ start_ok unix (comps_of unix p) st /\ body_ok (comps_of unix p) st w
  /\ stable unix (comps_of unix p) (start_text st) w /\ pre_text unix p = [].
Proof.
  destruct (dissect unix unix_sane p) as (st & w & r & P & So & Bo & Nw & Sr & St).
  change (pre_text unix p) with (@nil ascii) in *. cbn [app] in *. exists st, w, r.
  split; [exact P|]. split; [|do 5 (split; [assumption|]); reflexivity].
  destruct st; cbn [start_ok body_ok] in *.
  - destruct So as [_ K]. now apply slash_sep in K.
  - destruct So as (_ & x & E & _). discriminate E.
  - exact Bo.
  - split; [exact Bo|]. intros ->. destruct So as [R _]. destruct r as [|[k x] r]; [reflexivity|]. exfalso.
    inversion Sr as [|? ? [K _] _]; subst. cbn [fst] in K. change (is_slash k = true) in K.
    unfold comps_of in R. cbn in R. unfold physical_root in R. cbn in R. change (is_slash k = false) in R. congruence.
Qed.
Lemma unix_decompose st w r : shape st w r -> nosep is_slash w -> seps is_slash r ->
  decompose (start_text st ++ body w r) = (start_of st, words st w r).
Proof.
  intros Sh Nw Sr. unfold decompose. destruct st; cbn [shape start_text start_of words] in *.
  - subst k. change ([slash] ++ body w r) with ([] ++ slash :: body w r). rewrite split_on_app_sep by easy.
    rewrite (split_body_on w r Nw Sr). reflexivity.
  - contradiction.
  - subst w. change (B "." ++ body [] r) with (body (B ".") r). rewrite (split_body_on (B ".") r); [|constructor; [reflexivity|constructor]|assumption]. reflexivity.
  - destruct Sh as [D E]. cbn [app]. rewrite (split_body_on w r Nw Sr). destruct w as [|a w].
    + rewrite (E eq_refl). reflexivity.
    + cbn [is_empty]. apply str_eqb_neq in D. now rewrite D.
Qed.

Lemma unix_parent p : std_parent unix p = parent p.
Proof.
  destruct (unix_dissect p) as (st & w & r & P & Sh & Nw & Sr & So & Bo & St & Pt).
  rewrite (parent_closed unix unix_sane p st w r); auto.
  rewrite Pt. cbn [app is_none os_prefix unix]. unfold parent. rewrite P at 2. rewrite (unix_decompose st w r Sh Nw Sr).
  change (prefix_verbatim (comps_of unix p)) with false. clear P So Bo St Pt p.
  unfold up.
  assert (Rev : rev (w :: map snd r) = map snd (rev r) ++ [w]) by (cbn [rev]; now rewrite map_rev).
  assert (Sub : forall t q, drop_idle false (rev r) = t :: q -> seps is_slash q).
  { intros t q D. apply (seps_sub _ _ r); [|exact Sr]. intros x I. apply in_rev, (drop_idle_incl false). rewrite D. now right. }
  destruct st as [k| | |]; cbn [shape start_of words start_text] in *.
  - subst k. rewrite Rev, drop_last. destruct (drop_idle false (rev r)) as [|t q] eqn:D.
    + destruct (idle false w); reflexivity.
    + cbn [map app recompose]. rewrite join_trim by (eapply Sub; reflexivity). reflexivity.
  - contradiction.
  - subst w. rewrite <- map_rev, drop_idle_junk. destruct (drop_idle false (rev r)) as [|t q] eqn:D; [reflexivity|].
    cbn [map]. rewrite drop_idle_junk, <- map_rev. unfold trimmed. rewrite rev_involutive.
    specialize (Sub _ _ eq_refl). destruct (drop_idle false q) as [|t' q'] eqn:D'; [reflexivity|].
    assert (S' : seps is_slash (rev (t' :: q'))).
    { apply (seps_sub _ _ q); [|exact Sub]. intros x I. apply (drop_idle_incl false). rewrite D'. now apply in_rev. }
    assert (N : rev (t' :: q') <> []) by (intros E; apply (f_equal (@length _)) in E; rewrite rev_length in E; discriminate E).
    destruct (rev (t' :: q')) as [|a l] eqn:L; [easy|]. cbn [recompose map].
    change (B "./" ++ join_with slash (snd a :: map snd l)) with (B "." ++ slash :: join_with slash (map snd (a :: l))).
    now rewrite (join_tail (a :: l) S' N).
  - destruct Sh as [D E]. destruct w as [|a w].
    + rewrite (E eq_refl). reflexivity.
    + rewrite Rev, drop_last.
      assert (I : idle false (a :: w) = false) by (rewrite idle_junk; unfold junk; cbn [is_empty orb]; now apply str_eqb_neq).
      destruct (drop_idle false (rev r)) as [|t q] eqn:Dr.
      * rewrite I. reflexivity.
      * cbn [map app recompose]. rewrite join_trim by (eapply Sub; reflexivity). reflexivity.
Qed.
Lemma unix_ancestors p : std_ancestors unix p = ancestors p.
Proof.
  unfold std_ancestors, ancestors. generalize (length p). intros n. revert p. induction n as [|n IH]; intros p; [reflexivity|].
  cbn [std_ancestors_fuel ancestors_fuel]. rewrite unix_parent. destruct (parent p); [now rewrite IH|reflexivity].
Qed.

Definition as_part (c : component) : part :=
  match c with RootDir => Root | CurDir => Cur | ParentDir => Up | Normal w => Name w end.
Lemma singles_comps l : singles false l = map as_part (flat_map comp_of l).
Proof.
  induction l as [|w l IH]; [reflexivity|]. unfold singles in *. cbn [flat_map]. rewrite map_app, IH. f_equal.
  unfold sing, comp_of, junk. destruct (is_empty w); [reflexivity|]. destruct (str_eqb w (B ".")); [reflexivity|].
  now destruct (str_eqb w (B "..")).
Qed.
Lemma unix_parts p : parts unix p = map as_part (components p).
Proof.
  destruct (unix_dissect p) as (st & w & r & P & Sh & Nw & Sr & So & Bo & St & Pt).
  rewrite (parts_front unix unix_sane p st w r); auto.
  assert (D : decompose p = (start_of st, words st w r)) by (rewrite P; now apply unix_decompose).
  unfold components. rewrite D, map_app, <- singles_comps.
  change (prefix_verbatim (comps_of unix p)) with false. unfold pre_parts_raw. cbn [cs_prefix comps_of os_prefix unix app].
  destruct st; cbn [shape start_of words start_parts cs_prefix comps_of os_prefix unix map app as_part] in *.
  - reflexivity.
  - contradiction.
  - subst w. reflexivity.
  - destruct w; [|reflexivity]. rewrite (proj2 Sh eq_refl). reflexivity.
Qed.
Lemma bare_as_part l : map bare (map as_part l) = map as_part l.
Proof. rewrite map_map. apply map_ext. now intros []. Qed.
Lemma no_pre_bare l : Forall (fun q => match q with Pre _ _ => False | _ => True end) l -> map bare l = l.
Proof. induction 1 as [|q l H _ IH]; [reflexivity|]. cbn. rewrite IH. now destruct q. Qed.
Lemma unix_parts_back p : map bare (parts_back unix p) = rev (map as_part (components p)).
Proof.
  destruct (unix_dissect p) as (st & w & r & P & Sh & Nw & Sr & So & Bo & St & Pt).
  rewrite (parts_both unix unix_sane p st w r); auto.
  now rewrite unix_parts, bare_as_part.
Qed.
Lemma part_eqb_bare a b : part_eqb (bare a) (bare b) = part_eqb a b.
Proof. destruct a, b; reflexivity. Qed.
Lemma list_eqb_bare a b : list_eqb part_eqb (map bare a) (map bare b) = list_eqb part_eqb a b.
Proof.
  revert b; induction a as [|x a IH]; destruct b as [|y b]; cbn; auto. now rewrite part_eqb_bare, IH.
Qed.
Lemma prefix_eqb_eq a b : prefix_eqb a b = true <-> a = b.
Proof.
  destruct a, b; cbn; try (split; [discriminate|intros [=]]);
    try (rewrite str_eqb_eq; split; [now intros ->|now intros [= ->]]);
    try (rewrite Ascii.eqb_eq; split; [now intros ->|now intros [= ->]]);
    rewrite andb_true_iff, !str_eqb_eq; split; [now intros [-> ->]|now intros [= -> ->]|now intros [-> ->]|now intros [= -> ->]].
Qed.
Lemma part_eqb_eq a b : part_eqb a b = true <-> bare a = bare b.
Proof.
  destruct a, b; cbn; try (split; [discriminate|intros [=]]); try (split; reflexivity).
  - rewrite prefix_eqb_eq. split; [now intros ->|now intros [= ->]].
  - rewrite str_eqb_eq. split; [now intros ->|now intros [= ->]].
Qed.
Lemma parts_eqb_eq a b : list_eqb part_eqb a b = true <-> map bare a = map bare b.
Proof.
  revert b; induction a as [|x a IH]; destruct b as [|y b]; cbn; try (split; [discriminate|intros [=]]); [now split|].
  rewrite andb_true_iff, part_eqb_eq, IH. split; [now intros [-> ->]|intros [= -> ->]; auto].
Qed.
Lemma as_part_inj a b : map as_part a = map as_part b -> a = b.
Proof.
  revert b; induction a as [|x a IH]; destruct b as [|y b]; cbn; try discriminate; [reflexivity|].
  intros [= E F]. f_equal; [|auto]. destruct x, y; inversion E; reflexivity.
Qed.
Lemma unix_eqb p q : std_eqb unix p q = path_eqb p q.
Proof.
  apply Bool.eq_true_iff_eq. unfold std_eqb, path_eqb.
  rewrite orb_true_iff, andb_true_iff, str_eqb_eq, parts_eqb_eq, comps_eqb_eq, !unix_parts_back.
  split.
  - intros [[_ ->]|E]; [reflexivity|]. apply (f_equal (@rev _)) in E. rewrite !rev_involutive in E. now apply as_part_inj.
  - intros ->. now right.
Qed.
Lemma unix_absolute p : std_is_absolute unix p = is_absolute p.
Proof. unfold std_is_absolute, std_has_root, cs_has_root. cbn. unfold physical_root. cbn. rewrite orb_false_r, andb_true_r. now destruct p. Qed.
Lemma unix_has_root p : std_has_root unix p = is_absolute p.
Proof. rewrite <- unix_absolute. unfold std_is_absolute. cbn. now rewrite andb_true_r. Qed.
Lemma unix_join base p : std_join unix base p = join base p.
Proof.
  unfold std_join, join. rewrite unix_absolute, unix_has_root. cbn [os_prefix unix is_some orb cs_prefix comps_of os_main].
  rewrite orb_false_r. destruct (is_absolute p); [reflexivity|]. change (prefix_verbatim (comps_of unix base)) with false. cbn [andb].
  unfold last_is_sep, ends_with_slash. destruct base as [|a base]; [reflexivity|]. cbn [is_empty].
  destruct (rev (a :: base)) as [|z l] eqn:E.
  - apply (f_equal (@length _)) in E. rewrite rev_length in E. discriminate E.
  - change (os_sep unix z) with (Ascii.eqb z slash). now destruct (Ascii.eqb z slash).
Qed.
Lemma unix_pop p : std_pop unix p = pop p.
Proof.
  unfold std_pop, pop. rewrite unix_parent. destruct (parent p) as [q|] eqn:E; [|reflexivity].
  destruct (proj1 (parent_some_iff p q E)) as [rest ->]. apply firstn_app_len. reflexivity.
Qed.
(** The last part. *)
Lemma next_back_first p : option_map bare (fst (next_back unix (comps_of unix p))) = option_map as_part (hd_error (rev (components p))).
Proof.
  assert (H := unix_parts_back p). unfold parts_back in H. replace (length p + 4) with (S (length p + 3)) in H by lia. cbn [collect] in H.
  destruct (next_back unix (comps_of unix p)) as [[q|] c]; cbn [fst option_map] in *; rewrite <- map_rev in H;
    destruct (rev (components p)); cbn in *; try discriminate H; [|reflexivity]. now injection H as -> _.
Qed.
Lemma last_component p : hd_error (rev (components p))
  = match drop_junk (rev (snd (decompose p))) with
    | w :: _ => Some (if str_eqb w (B "..") then ParentDir else Normal w)
    | [] => match fst (decompose p) with SRoot => Some RootDir | SCur => Some CurDir | SNone => None end
    end.
Proof.
  unfold components. destruct (decompose p) as [st ws]. cbn [fst snd]. rewrite rev_app_distr.
  induction ws as [|w ws IH] using rev_ind; [now destruct st|].
  rewrite rev_app_distr, flat_map_app. cbn [rev app drop_junk flat_map]. rewrite app_nil_r, rev_app_distr.
  unfold comp_of at 1. destruct (junk w); [exact IH|]. now destruct (str_eqb w (B "..")).
Qed.
Lemma unix_file_name p : std_file_name unix p = file_name p.
Proof.
  unfold std_file_name, file_name. assert (H := next_back_first p). rewrite last_component in H.
  destruct (next_back unix (comps_of unix p)) as [[q|] c]; cbn [fst option_map] in H.
  - destruct (drop_junk (rev (snd (decompose p)))) as [|w l].
    + destruct (fst (decompose p)); try discriminate H; injection H as H; now destruct q.
    + destruct (str_eqb w (B "..")); destruct q; cbn [bare as_part option_map] in H; try discriminate H; try reflexivity. now injection H as ->.
  - destruct (drop_junk (rev (snd (decompose p)))) as [|w l]; [reflexivity|]. now destruct (str_eqb w (B "..")).
Qed.
(** The last dot. *)
Lemma split_once_position c s : split_once c s
  = match position (fun x => Ascii.eqb x c) s with Some i => Some (firstn i s, skipn (S i) s) | None => None end.
Proof.
  induction s as [|a s IH]; [reflexivity|]. cbn [split_once position]. destruct (Ascii.eqb a c); [reflexivity|].
  rewrite IH. now destruct (position _ s).
Qed.
Lemma rsplit_dots a b : ~ In "."%char b -> rsplit_dot (a ++ "."%char :: b) = Some (a, b).
Proof.
  intros N. unfold rsplit_dot. rewrite rev_app_distr. cbn [rev]. rewrite <- app_assoc. cbn [app].
  rewrite split_once_position, position_app; [|apply Forall_forall; intros x I; apply in_rev in I; apply Ascii.eqb_neq; intros ->; now apply N|apply Ascii.eqb_refl].
  rewrite (firstn_app_len _ _ _ eq_refl).
  replace (rev b ++ "."%char :: rev a) with ((rev b ++ ["."%char]) ++ rev a) by now rewrite <- app_assoc.
  rewrite skipn_app_len by (rewrite app_length; cbn; lia). now rewrite !rev_involutive.
Qed.
Lemma rsplit_no_dot w : ~ In "."%char w -> rsplit_dot w = None.
Proof.
  intros N. unfold rsplit_dot. rewrite split_once_position, position_none; [reflexivity|].
  apply Forall_forall. intros x I. apply in_rev in I. apply Ascii.eqb_neq. intros ->. now apply N.
Qed.
Lemma last_dot w : (~ In "."%char w /\ rposition is_dot w = None)
  \/ exists a b, w = a ++ "."%char :: b /\ ~ In "."%char b /\ rposition is_dot w = Some (length a).
Proof.
  assert (D : forall b, ~ In "."%char b -> nosep is_dot b).
  { intros b N. apply Forall_forall. intros x I. apply Ascii.eqb_neq. intros ->. now apply N. }
  destruct (in_dec ascii_dec "."%char w) as [I|N].
  - right. induction w as [|c w IH]; [easy|]. destruct (in_dec ascii_dec "."%char w) as [I'|N'].
    + destruct (IH I') as (a & b & -> & N & E). exists (c :: a), b. split; [reflexivity|]. split; [exact N|]. cbn. now rewrite E.
    + destruct I as [->|I]; [|contradiction]. exists [], w. split; [reflexivity|]. split; [exact N'|]. cbn. now rewrite (rposition_none _ w (D w N')).
  - left. split; [exact N|]. apply rposition_none. auto.
Qed.
Lemma file_name_not_dots p w : file_name p = Some w -> str_eqb w (B "..") = false.
Proof. unfold file_name. destruct (drop_junk _) as [|x l]; [discriminate|]. destruct (str_eqb x (B "..")) eqn:E; [discriminate|]. now intros [= <-]. Qed.
Lemma unix_file_stem p : std_file_stem unix p = file_stem p.
Proof.
  unfold std_file_stem, file_stem. rewrite unix_file_name. destruct (file_name p) as [w|] eqn:E; [|reflexivity].
  apply file_name_not_dots in E. unfold rsplit_at_dot. rewrite E.
  destruct (last_dot w) as [[N ->]|(a & b & -> & N & ->)].
  - now rewrite (rsplit_no_dot w N).
  - rewrite (rsplit_dots a b N), (firstn_app_len a _ _ eq_refl). now destruct a.
Qed.
Lemma unix_extension p : std_extension unix p = extension p.
Proof.
  unfold std_extension, extension. rewrite unix_file_name. destruct (file_name p) as [w|] eqn:E; [|reflexivity].
  apply file_name_not_dots in E. unfold rsplit_at_dot. rewrite E.
  destruct (last_dot w) as [[N ->]|(a & b & -> & N & ->)].
  - now rewrite (rsplit_no_dot w N).
  - rewrite (rsplit_dots a b N). destruct a as [|c a]; [reflexivity|]. cbn [length Nat.eqb is_empty]. f_equal.
    replace ((c :: a) ++ "."%char :: b) with ((c :: a ++ ["."%char]) ++ b) by (cbn; now rewrite <- app_assoc).
    apply skipn_app_len. cbn. rewrite app_length. cbn. lia.
Qed.
