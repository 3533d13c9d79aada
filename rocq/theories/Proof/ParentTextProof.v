(** The text of a parent, on every system: no shorter text has its parts. *)
From Verif.Model Require Import Base Str Path StdPath.
From Verif.Proof Require Import StrFacts StdPathProof StdUnixProof StdParentProof.

Lemma last_cons {A} (x : A) l d : last (x :: l) d = last l x.
Proof. revert x d. induction l as [|y l IH]; intros x d; [reflexivity|]. change (last (x :: y :: l) d) with (last (y :: l) d). now rewrite !IH. Qed.
Lemma sing_inj v a b y : sing v a = Some y -> sing v b = Some y -> a = b.
Proof.
  unfold sing. destruct (is_empty a), (is_empty b); try discriminate.
  destruct (str_eqb a (B ".")) eqn:Ea, (str_eqb b (B ".")) eqn:Eb.
  - apply str_eqb_eq in Ea, Eb. congruence.
  - destruct v; [|discriminate]. intros [= <-]. destruct (str_eqb b (B "..")); discriminate.
  - destruct v; [|discriminate]. destruct (str_eqb a (B "..")); intros [= <-]; discriminate.
  - destruct (str_eqb a (B "..")) eqn:Fa, (str_eqb b (B "..")) eqn:Fb; try congruence.
    + apply str_eqb_eq in Fa, Fb. congruence.
Qed.
Lemma idle_prefix v a t : idle v (a ++ t) = true -> t <> [] -> idle v a = true.
Proof.
  unfold idle, sing. intros H N. destruct a as [|x a]; [reflexivity|]. cbn [app is_empty] in *.
  destruct (str_eqb (x :: a ++ t) (B ".")) eqn:E.
  - apply str_eqb_eq in E. injection E as -> E. apply app_eq_nil in E as [_ E]. contradiction.
  - destruct (str_eqb (x :: a ++ t) (B "..")); discriminate.
Qed.
Lemma one_single v w : length (singles v [w]) <= 1.
Proof. unfold singles. cbn. destruct (sing v w); cbn; lia. Qed.
Lemma idle_singles v w : idle v w = true -> singles v [w] = [].
Proof. unfold idle, singles. cbn. now destruct (sing v w). Qed.
Lemma busy_singles v w : idle v w = false -> exists y, sing v w = Some y /\ singles v [w] = [y].
Proof. unfold idle, singles. cbn. destruct (sing v w) as [y|]; [|discriminate]. intros _. now exists y. Qed.
Lemma busy_last v l d : idle v (last l d) = false -> singles v (d :: l) <> [].
Proof.
  revert d. induction l as [|x l IH]; intros d H.
  - destruct (busy_singles v d H) as (y & _ & ->). discriminate.
  - rewrite last_cons in H. apply IH in H. change (d :: x :: l) with ([d] ++ x :: l). rewrite singles_app. intros E. now apply app_eq_nil in E as [_ E].
Qed.

(** Where two texts part. *)
Lemma clear_prefix f a b k s t : nosep f a -> nosep f b -> f k = true -> b ++ k :: s = a ++ t -> exists u, b = a ++ u.
Proof.
  intros Na. revert b. induction Na as [|c a C Na IH]; intros b Nb K E; [now exists b|].
  destruct b as [|d b]; cbn [app] in E; injection E as -> E; [congruence|]. inversion Nb; subst. destruct (IH b ltac:(assumption) K E) as (u & ->). now exists u.
Qed.
Lemma clear_same f a b k k' s t : nosep f a -> nosep f b -> f k = true -> f k' = true -> b ++ k :: s = a ++ k' :: t -> a = b /\ k = k' /\ s = t.
Proof.
  intros Na. revert b. induction Na as [|c a C Na IH]; intros b Nb K K' E.
  - destruct b as [|d b]; cbn [app] in E; injection E as -> E; [auto|]. inversion Nb; subst. congruence.
  - destruct b as [|d b]; cbn [app] in E; injection E as -> E; [congruence|]. inversion Nb; subst. destruct (IH b ltac:(assumption) K K' E) as (-> & -> & ->). auto.
Qed.

Lemma body_shortest f v w r w2 r2 t : nosep f w -> seps f r -> nosep f w2 -> seps f r2 ->
  body w r = body w2 r2 ++ t -> t <> [] -> idle v (last (map snd r) w) = false ->
  singles v (w2 :: map snd r2) <> singles v (w :: map snd r).
Proof.
  intros Nw Sr Nw2 Sr2. revert w r Nw Sr w2 Nw2 t.
  induction Sr2 as [|[k2 x2] r2 [K2 N2] Sr2 IH]; intros w r Nw Sr w2 Nw2 t E Nt I; cbn [fst snd] in *.
  - unfold body at 2 in E. cbn [tail flat_map] in E. rewrite app_nil_r in E. cbn [map].
    destruct Sr as [|[k x] r [K N] Sr]; cbn [fst snd] in *.
    + unfold body in E. cbn [tail flat_map] in E. rewrite app_nil_r in E. subst w. cbn [map last] in *.
      destruct (busy_singles v _ I) as (y & Y & ->). destruct (idle v w2) eqn:I2; [now rewrite (idle_singles v w2 I2)|].
      destruct (busy_singles v w2 I2) as (y2 & Y2 & ->). intros [= ->].
      assert (X := sing_inj v _ _ _ Y Y2). apply Nt. apply (app_inv_head w2). now rewrite app_nil_r.
    + change (body w ((k, x) :: r)) with (w ++ k :: body x r) in E. destruct (clear_prefix f w2 w k _ t Nw2 Nw K E) as (u & ->).
      cbn [map] in I. cbn [snd] in I. rewrite last_cons in I. assert (Z := busy_last v _ _ I).
      cbn [map snd]. change (singles v ((w2 ++ u) :: x :: map snd r)) with (singles v ([w2 ++ u] ++ (x :: map snd r))). rewrite singles_app.
      intros Eq. apply (f_equal (@length _)) in Eq. rewrite app_length in Eq. assert (O := one_single v w2).
      assert (1 <= length (singles v (x :: map snd r))) by (destruct (singles v (x :: map snd r)); [easy|cbn; lia]).
      destruct (idle v (w2 ++ u)) eqn:Iu.
      * destruct u as [|a u].
        -- rewrite app_nil_r in *. rewrite (idle_singles v w2 Iu) in *. cbn [length] in Eq. lia.
        -- rewrite (idle_singles v w2 (idle_prefix v w2 _ Iu ltac:(discriminate))) in Eq. cbn [length] in Eq. lia.
      * destruct (busy_singles v _ Iu) as (y & _ & Ey). match type of Eq with _ = length ?a + _ => replace a with [y] in Eq by (symmetry; exact Ey) end. cbn [length] in Eq. lia.
  - change (body w2 ((k2, x2) :: r2)) with (w2 ++ k2 :: body x2 r2) in E. rewrite <- app_assoc in E. cbn [app] in E.
    destruct Sr as [|[k x] r [K N] Sr]; cbn [fst snd] in *.
    + exfalso. unfold body in E. cbn [tail flat_map] in E. rewrite app_nil_r in E. subst w. unfold nosep in Nw. rewrite Forall_app in Nw. destruct Nw as [_ Nw].
      inversion Nw; subst. congruence.
    + change (body w ((k, x) :: r)) with (w ++ k :: body x r) in E. destruct (clear_same f w2 w k k2 _ _ Nw2 Nw K K2 E) as (<- & <- & Eb).
      cbn [map snd] in *. rewrite last_cons in I. assert (Q := IH x r N Sr x2 N2 t Eb Nt I).
      change (singles v (w2 :: ?l)) with (singles v ([w2] ++ l)).
      change (singles v (w2 :: x2 :: map snd r2)) with (singles v ([w2] ++ (x2 :: map snd r2))).
      change (singles v (w2 :: x :: map snd r)) with (singles v ([w2] ++ (x :: map snd r))).
      rewrite !singles_app. intros Eq. apply Q. now apply app_inv_head in Eq.
Qed.
(** What is left after trimming ends in a part. *)
Lemma trimmed_busy v w r : exists w' r' rest, trimmed v w r = body w' r' /\ body w r = body w' r' ++ rest
  /\ (forall x, In x r' -> In x r)
  /\ (w' = [] /\ r' = [] \/ w' = w /\ idle v (last (map snd r') w') = false).
Proof.
  unfold trimmed. destruct (drop_idle_split v (rev r)) as (a & E & S).
  assert (Er : r = rev (drop_idle v (rev r)) ++ rev a) by (rewrite <- rev_app_distr, <- E; symmetry; apply rev_involutive).
  destruct (drop_idle v (rev r)) as [|[k x] q] eqn:D.
  - destruct (idle v w) eqn:I.
    + exists [], [], (body w r). split; [reflexivity|]. split; [reflexivity|]. split; [easy|]. now left.
    + exists w, [], (tail r). split; [unfold body; cbn; now rewrite app_nil_r|]. split; [unfold body; cbn; now rewrite app_nil_r|]. split; [easy|].
      right. split; [reflexivity|exact I].
  - exists w, (rev ((k, x) :: q)), (tail (rev a)). split; [reflexivity|]. split; [|split].
    + rewrite Er at 1. unfold body. now rewrite tail_app, app_assoc.
    + intros z I. rewrite Er. apply in_app_iff. auto.
    + right. split; [reflexivity|]. cbn [rev]. rewrite map_app. cbn [map snd]. rewrite last_last. exact (drop_idle_head _ _ _ _ _ D).
Qed.

Lemma app_split {A} (a b c d : list A) : a ++ b = c ++ d -> length a <= length c -> exists y, c = a ++ y /\ b = y ++ d.
Proof.
  revert c. induction a as [|x a IH]; intros c E L; [now exists c|]. destruct c as [|z c]; [cbn in L; lia|]. cbn [app length] in *.
  injection E as <- E. destruct (IH c E ltac:(lia)) as (y & -> & ->). now exists y.
Qed.
Section Text.
Context (os : system) (Std : steady os).
Let Sane : sane os := steady_sane os Std.

(** The parts of a beginning of a path. *)
Lemma shape p st w r w' r' rest : p = pre_text os p ++ start_text st ++ body w r ->
  start_ok os (comps_of os p) st -> body_ok (comps_of os p) st w ->
  body w r = body w' r' ++ rest -> (w' = w \/ w' = [] /\ r' = []) ->
  nosep (cs_sep os (comps_of os p)) w' -> seps (cs_sep os (comps_of os p)) r' ->
  map bare (parts os (pre_text os p ++ start_text st ++ body w' r'))
  = pre_parts (comps_of os p) ++ start_parts (comps_of os p) st ++ singles (prefix_verbatim (comps_of os p)) (w' :: map snd r').
Proof.
  intros P So Bo Eb W N S. destruct (shorter os Std p st w r w' r' rest P So Bo Eb W) as (Q1 & Q2 & Q3 & Q4).
  set (c := comps_of os p) in *. set (q := pre_text os p ++ start_text st ++ body w' r') in *.
  assert (Cq : cs_prefix (comps_of os q) = cs_prefix c) by exact Q1.
  assert (Sq : cs_sep os (comps_of os q) = cs_sep os c) by (unfold cs_sep, prefix_verbatim; now rewrite Cq).
  assert (Vq : prefix_verbatim (comps_of os q) = prefix_verbatim c) by (unfold prefix_verbatim; now rewrite Cq).
  assert (Hp : pre_parts (comps_of os q) = pre_parts c) by (unfold pre_parts; now rewrite Cq).
  assert (Hs : start_parts (comps_of os q) st = start_parts c st) by (unfold start_parts; now rewrite Cq, Vq).
  rewrite <- Hp, <- Hs, <- Vq. apply (parts_of os Std); auto.
  - unfold q at 1. now rewrite Q2.
  - now rewrite Sq.
  - now rewrite Sq.
Qed.
Lemma no_parts : os_prefix os [] = None -> map bare (parts os []) = [].
Proof.
  intros E0. assert (R0 : cs_root (comps_of os []) = false) by (unfold comps_of; cbn; unfold physical_root; rewrite E0; reflexivity).
  rewrite (parts_of os Std [] Plainly [] []).
  - unfold pre_parts. change (cs_prefix (comps_of os [])) with (os_prefix os []). rewrite E0. reflexivity.
  - unfold pre_text, prefix_len. cbn. now rewrite E0.
  - split; [exact R0|]. change (cs_prefix (comps_of os [])) with (os_prefix os []). rewrite E0. discriminate.
  - discriminate.
  - constructor.
  - constructor.
Qed.
Definition ends_movable (l : list part) : Prop := exists a x, l = a ++ [x] /\ movable x.
Lemma head_movable c st : ends_movable (pre_parts c ++ start_parts c st) -> st = ByDot /\ cs_prefix c = None.
Proof.
  intros (l & z & Ez & M). unfold pre_parts, start_parts in Ez.
  destruct st; destruct (cs_prefix c) as [y|] eqn:Pc; try (destruct (prefix_verbatim c)); cbn [app] in Ez;
  try (now destruct l);
  first [apply (app_inj_tail [] l) in Ez as [<- <-] | apply (app_inj_tail [Pre [] y] l) in Ez as [<- <-]
        | apply (app_inj_tail [Pre [] y] l) in Ez as [_ <-]]; first [contradiction | auto].
Qed.
Lemma singles_movable v l : singles v l <> [] -> ends_movable (singles v l).
Proof.
  intros N. destruct (exists_last N) as (a & x & E). exists a, x. split; [exact E|].
  assert (I : In x (singles v l)) by (rewrite E; apply in_app_iff; right; now left).
  unfold singles in I. apply in_flat_map in I as (w & _ & I). destruct (sing v w) as [y|] eqn:Y; [|easy]. destruct I as [<-|[]]. exact (sing_movable v w y Y).
Qed.
Lemma ends_app a b : b <> [] -> ends_movable (a ++ b) <-> ends_movable b.
Proof.
  intros N. destruct (exists_last N) as (b' & x & ->). split.
  - intros (l & y & E & M). rewrite app_assoc in E. apply app_inj_tail in E as [_ ->]. now exists b', y.
  - intros (l & y & E & M). apply app_inj_tail in E as [_ ->]. exists (a ++ b'), y. now rewrite app_assoc.
Qed.
Lemma parts_prefix p x l : map bare (parts os p) = Pre [] x :: l -> os_prefix os p = Some x.
Proof.
  intros E. destruct (dissect os Sane p) as (st & w & r & P & So & Bo & Nw & Sr & St). rewrite (parts_of os Std p st w r P So Bo Nw Sr) in E.
  unfold pre_parts in E. change (cs_prefix (comps_of os p)) with (os_prefix os p) in E. destruct (os_prefix os p) as [y|] eqn:Px.
  - cbn [app] in E. now injection E as ->.
  - exfalso. cbn [app] in E. assert (I : In (Pre [] x) (start_parts (comps_of os p) st ++ singles (prefix_verbatim (comps_of os p)) (w :: map snd r))) by (rewrite E; now left).
    apply in_app_iff in I as [I|I].
    + unfold start_parts in I. destruct st; try (destruct (prefix_verbatim _)); try (destruct (cs_prefix _)); cbn in I; intuition discriminate.
    + unfold singles in I. apply in_flat_map in I as (u & _ & I). destruct (sing _ u) as [y|] eqn:Y; [|easy]. destruct I as [->|[]].
      exact (sing_movable _ _ _ Y).
Qed.

Lemma busy_minimal p st w r r1 rest q' t : p = pre_text os p ++ start_text st ++ body w r ->
  start_ok os (comps_of os p) st -> body_ok (comps_of os p) st w ->
  nosep (cs_sep os (comps_of os p)) w -> seps (cs_sep os (comps_of os p)) r1 -> body w r = body w r1 ++ rest ->
  idle (prefix_verbatim (comps_of os p)) (last (map snd r1) w) = false ->
  let q := pre_text os p ++ start_text st ++ body w r1 in
  q = q' ++ t -> map bare (parts os q') = map bare (parts os q) -> t = [].
Proof.
  intros P So Bo Nw Sr1 Eb I q Eq Em. destruct t as [|t0 t]; [reflexivity|exfalso]. set (tt := t0 :: t) in *.
  assert (Nt : tt <> []) by discriminate. clearbody tt. clear t0 t.
  set (c := comps_of os p) in *. set (v := prefix_verbatim c) in *.
  assert (Sq := shape p st w r w r1 rest P So Bo Eb (or_introl eq_refl) Nw Sr1). fold q c v in Sq.
  assert (Ns : singles v (w :: map snd r1) <> []) by (apply busy_last; exact I).
  assert (Ep : p = q' ++ tt ++ rest) by (rewrite app_assoc, <- Eq; unfold q; rewrite <- !app_assoc, <- Eb; exact P).
  assert (Lp : length (pre_text os p) <= length q').
  { rewrite (pre_len os Sane). unfold prefix_len. cbn. destruct (os_prefix os p) as [x|] eqn:Px; [|lia].
    assert (Ex : map bare (parts os q') = Pre [] x :: start_parts c st ++ singles v (w :: map snd r1)).
    { rewrite Em, Sq. unfold pre_parts. change (cs_prefix c) with (os_prefix os p). now rewrite Px. }
    apply parts_prefix in Ex. exact (sane_len os Sane _ _ Ex). }
  assert (Sm := same_prefix os Std q' (tt ++ rest)). rewrite <- Ep in Sm. specialize (Sm Lp) as [Pe Te].
  assert (Hd : length (pre_text os p ++ start_text st) <= length q').
  { destruct (le_lt_dec (length (pre_text os p ++ start_text st)) (length q')) as [L|L]; [exact L|exfalso].
    assert (Lq : length q' = length (pre_text os p)) by (rewrite app_length in L; destruct st; cbn in L; lia).
    destruct (dissect os Sane q') as (st' & w' & r' & P' & So' & Bo' & Nw' & Sr' & _).
    assert (Z := f_equal (@length _) P'). rewrite Te, !app_length in Z.
    assert (length (start_text st') = 0 /\ length (body w' r') = 0) as [Z1 Z2] by lia.
    assert (w' = [] /\ r' = []) as [-> ->]. { unfold body in Z2. rewrite app_length in Z2. destruct w'; [|cbn in Z2; lia]. destruct r'; [auto|cbn in Z2; lia]. }
    rewrite (parts_of os Std q' st' [] [] P' So' Bo' Nw' Sr'), Sq in Em. cbn [map] in Em. change (singles _ [[]]) with (@nil part) in Em. rewrite app_nil_r in Em.
    assert (M : ends_movable (pre_parts c ++ start_parts c st ++ singles v (w :: map snd r1))).
    { rewrite app_assoc. apply ends_app; [exact Ns|]. now apply singles_movable. }
    rewrite <- Em in M. apply head_movable in M as [-> _]. discriminate Z1. }
  assert (exists y, q' = pre_text os p ++ start_text st ++ y /\ body w r1 = y ++ tt) as (y & Ey & Eby).
  { unfold q in Eq. rewrite app_assoc in Eq. destruct (app_split _ _ _ _ Eq Hd) as (y & -> & Ey). exists y. now rewrite <- app_assoc. }
  destruct (split_body (cs_sep os c) y) as (w2 & r2 & -> & N2 & S2).
  assert (Ebr : body w r = body w2 r2 ++ (tt ++ rest)) by (rewrite Eb, Eby; now rewrite <- app_assoc).
  assert (Bs := body_shortest (cs_sep os c) v w r1 w2 r2 tt Nw Sr1 N2 S2 Eby Nt I).
  assert (Done : (w2 = w \/ w2 = [] /\ r2 = []) -> False).
  { intros W. assert (X := shape p st w r w2 r2 _ P So Bo Ebr W N2 S2). rewrite <- Ey in X. fold c v in X.
    rewrite X, Sq in Em. apply app_inv_head, app_inv_head in Em. contradiction. }
  assert (Cs : w2 = w \/ r2 = [] /\ exists a u, w = w2 ++ a :: u).
  { destruct r2 as [|[k2 x2] r2].
    - assert (Pre : exists u, w = w2 ++ u).
      { unfold body at 2 in Eby. cbn [tail flat_map] in Eby. rewrite app_nil_r in Eby. destruct Sr1 as [|[k x] r1' [K N] Sr1].
        - unfold body in Eby. cbn [tail flat_map] in Eby. rewrite app_nil_r in Eby. now exists tt.
        - change (body w ((k, x) :: r1')) with (w ++ k :: body x r1') in Eby. exact (clear_prefix _ w2 w k _ tt N2 Nw K Eby). }
      destruct Pre as ([|a u] & E); [left; now rewrite app_nil_r in E|right]. split; [reflexivity|]. now exists a, u.
    - left. inversion S2 as [|? ? [K2 _] _]; subst. cbn [fst] in K2.
      change (body w2 ((k2, x2) :: r2)) with (w2 ++ k2 :: body x2 r2) in Eby. rewrite <- app_assoc in Eby. cbn [app] in Eby.
      destruct Sr1 as [|[k x] r1' [K N] Sr1].
      + exfalso. unfold body in Eby. cbn [tail flat_map] in Eby. rewrite app_nil_r in Eby. rewrite Eby in Nw. unfold nosep in Nw. rewrite Forall_app in Nw.
        destruct Nw as [_ Nw]. inversion Nw; subst. congruence.
      + change (body w ((k, x) :: r1')) with (w ++ k :: body x r1') in Eby. now destruct (clear_same _ w2 w k k2 _ _ N2 Nw K K2 Eby). }
  destruct Cs as [W|(-> & a & u & Ew)]; [now apply Done; left|]. clear Done.
  assert (Ebw : body w r = body w2 ((a, u) :: r)) by (rewrite Ew; unfold body; cbn; now rewrite <- !app_assoc).
  assert (Go : body_ok c st w2 -> False).
  { intros Bo2. assert (P2 := P). rewrite Ebw in P2. assert (X := shape p st w2 ((a, u) :: r) w2 [] (tail ((a, u) :: r)) P2 So Bo2).
    assert (X1 : body w2 ((a, u) :: r) = body w2 [] ++ tail ((a, u) :: r)) by (unfold body at 2; cbn [tail flat_map]; now rewrite app_nil_r).
    specialize (X X1 (or_introl eq_refl) N2 S2). rewrite <- Ey in X. fold c v in X. rewrite X, Sq in Em. apply app_inv_head, app_inv_head in Em. contradiction. }
  destruct st; cbn [body_ok] in *; try (now apply Go).
  - rewrite Bo in Ew. now destruct w2.
  - destruct (str_eqb w2 (B ".")) eqn:D.
    + apply str_eqb_eq in D. subst w2.
      assert (P2 : p = pre_text os p ++ start_text ByDot ++ body [] ((a, u) :: r)) by (rewrite P at 1; rewrite Ebw; reflexivity).
      assert (X := shape p ByDot [] ((a, u) :: r) [] [] _ P2 So eq_refl eq_refl (or_introl eq_refl) (Forall_nil _) S2).
      change (pre_text os p ++ start_text ByDot ++ body [] []) with (pre_text os p ++ start_text Plainly ++ body (B ".") []) in X.
      rewrite <- Ey in X. fold c v in X. rewrite X, Sq in Em. apply app_inv_head in Em. cbn [start_parts app] in Em.
      assert (Y : exists y, singles v (w :: map snd r1) = y :: singles v (map snd r1) /\ y <> Cur).
      { assert (Z : exists y, sing v w = Some y /\ y <> Cur).
        { rewrite Ew. unfold sing. change (B "." ++ a :: u) with ("."%char :: a :: u). cbn [is_empty].
          destruct (str_eqb _ (B ".")) eqn:F; [apply str_eqb_eq in F; discriminate F|].
          destruct (str_eqb _ (B "..")); eexists; (split; [reflexivity|discriminate]). }
        destruct Z as (y & Z & Ny). exists y. split; [|exact Ny]. unfold singles. cbn [flat_map]. now rewrite Z. }
      destruct Y as (y & Ey1 & Ny). rewrite Ey1 in Em. destruct (cs_prefix c); cbn [app map] in Em; change (singles v [[]]) with (@nil part) in Em; [discriminate Em|].
      cbn [app] in Em. injection Em as <- _. now apply Ny.
    + apply Go. intros ->. now rewrite str_eqb_refl in D.
Qed.

(** The text of a parent: if it ends in a part, no shorter text has its parts; otherwise it is all that is in front
    of the first piece. *)
Lemma parent_text p q : std_parent os p = Some q ->
  (ends_movable (map bare (parts os q)) -> forall q' t, q = q' ++ t -> map bare (parts os q') = map bare (parts os q) -> t = [])
  /\ (~ ends_movable (map bare (parts os q)) -> exists st w r, p = pre_text os p ++ start_text st ++ body w r
       /\ start_ok os (comps_of os p) st /\ body_ok (comps_of os p) st w
       /\ nosep (cs_sep os (comps_of os p)) w /\ seps (cs_sep os (comps_of os p)) r
       /\ (q = pre_text os p ++ start_text st /\ (st = ByDot -> os_prefix os p <> None) \/ st = ByDot /\ os_prefix os p = None /\ q = [])).
Proof.
  intros H. destruct (dissect os Sane p) as (st & w & r & P & So & Bo & Nw & Sr & St).
  rewrite (parent_closed os Sane p st w r P So Nw Sr St) in H. set (c := comps_of os p) in *. set (v := prefix_verbatim c) in *.
  assert (Head : forall rest, body w r = rest -> q = pre_text os p ++ start_text st ->
    (ends_movable (map bare (parts os q)) -> forall q' t, q = q' ++ t -> map bare (parts os q') = map bare (parts os q) -> t = [])
    /\ (~ ends_movable (map bare (parts os q)) -> exists st w r, p = pre_text os p ++ start_text st ++ body w r
       /\ start_ok os c st /\ body_ok c st w /\ nosep (cs_sep os c) w /\ seps (cs_sep os c) r
       /\ (q = pre_text os p ++ start_text st /\ (st = ByDot -> os_prefix os p <> None) \/ st = ByDot /\ os_prefix os p = None /\ q = []))).
  { intros rest Eb Eq. assert (X := shape p st w r [] [] (body w r) P So Bo eq_refl (or_intror (conj eq_refl eq_refl)) (Forall_nil _) (Forall_nil _)).
    change (body [] []) with (@nil ascii) in X. rewrite app_nil_r, <- Eq in X. cbn [map] in X. change (singles _ [[]]) with (@nil part) in X. rewrite app_nil_r in X. fold c in X.
    split.
    - intros M q' t E Em. rewrite X in M. apply head_movable in M as [-> Pc]. change (cs_prefix c) with (os_prefix os p) in Pc.
      assert (Pn : pre_text os p = []) by (unfold pre_text, prefix_len; cbn; now rewrite Pc). rewrite Pn in Eq. cbn [app start_text] in Eq.
      destruct q' as [|a q'].
      + exfalso. rewrite X, no_parts in Em by exact (steady_none os Std [] p Pc). unfold pre_parts, start_parts in Em.
        change (cs_prefix c) with (os_prefix os p) in Em. rewrite Pc in Em. discriminate Em.
      + rewrite Eq in E. change (B ".") with ["."%char] in E. cbn [app] in E. injection E as _ E. symmetry in E. now apply app_eq_nil in E as [_ ->].
    - intros M. exists st, w, r. repeat (split; [assumption|]). left. split; [exact Eq|]. intros -> Pc. apply M. rewrite X.
      unfold pre_parts, start_parts. change (cs_prefix c) with (os_prefix os p). rewrite Pc. now exists [], Cur. }
  unfold up in H. destruct (drop_idle_split v (rev r)) as (a & E & S).
  assert (Er : r = rev (drop_idle v (rev r)) ++ rev a) by (rewrite <- rev_app_distr, <- E; symmetry; apply rev_involutive).
  destruct (drop_idle v (rev r)) as [|[k x] l] eqn:D.
  - destruct (idle v w) eqn:I.
    + destruct st; try discriminate H. destruct (os_prefix os p) as [y|] eqn:Pc; [discriminate H|]. cbn [is_none] in H. injection H as <-. split.
      * intros _ q' t Eq _. symmetry in Eq. now apply app_eq_nil in Eq as [_ ->].
      * intros _. exists ByDot, w, r. repeat (split; [assumption|]). right. auto.
    + injection H as <-. now apply (Head (body w r)).
  - injection H as Eq. destruct (trimmed_busy v w (rev l)) as (w' & r' & rest & T & Eb & Sub & [(-> & ->)|(-> & I)]).
    + apply (Head (body w r)); [reflexivity|]. rewrite <- Eq, T. change (body [] []) with (@nil ascii). now rewrite app_nil_r.
    + cbn [rev] in Er. rewrite <- app_assoc in Er. cbn [app] in Er.
      assert (Eb' : body w r = body w r' ++ rest ++ tail ((k, x) :: rev a)).
      { rewrite Er at 1. unfold body at 1. rewrite tail_app, app_assoc. fold (body w (rev l)). rewrite Eb. now rewrite <- app_assoc. }
      assert (Sr' : seps (cs_sep os c) r').
      { apply (seps_sub _ _ r); [|exact Sr]. intros z Iz. rewrite Er. apply in_app_iff. left. auto. }
      rewrite T, <- app_assoc in Eq. split.
      * intros _ q' t E2 Em. rewrite <- Eq in E2, Em. exact (busy_minimal p st w r r' _ q' t P So Bo Nw Sr' Eb' I E2 Em).
      * intros M. exfalso. apply M. rewrite <- Eq, (shape p st w r w r' _ P So Bo Eb' (or_introl eq_refl) Nw Sr'). fold c v.
        assert (N : singles v (w :: map snd r') <> []) by now apply busy_last.
        rewrite app_assoc. apply ends_app; [exact N|]. now apply singles_movable.
Qed.
End Text.
