(** A parent lacks the last part, on every system. *)
From Verif.Model Require Import Base Str Path StdPath.
From Verif.Proof Require Import StrFacts StdPathProof StdUnixProof.

(** Prefixes do not depend on what follows. *)
Record steady (os : system) : Prop := {
  steady_sane : sane os;
  steady_some : forall p r x, os_prefix os (p ++ r) = Some x -> px_len x <= length p -> os_prefix os p = Some x;
  steady_none : forall p r, os_prefix os (p ++ r) = None -> os_prefix os p = None
}.
Lemma unix_steady : steady unix.
Proof. constructor; [exact unix_sane|discriminate|reflexivity]. Qed.

Section Parent.
Context (os : system) (Std : steady os).
Let Sane : sane os := steady_sane os Std.

Lemma same_prefix q r : length (pre_text os (q ++ r)) <= length q ->
  os_prefix os q = os_prefix os (q ++ r) /\ pre_text os q = pre_text os (q ++ r).
Proof.
  intros L. rewrite pre_len in L by exact Sane. unfold prefix_len in L. cbn in L.
  destruct (os_prefix os (q ++ r)) as [x|] eqn:E.
  - assert (E' := steady_some os Std q r x E L). split; [exact E'|].
    unfold pre_text, prefix_len. cbn. rewrite E, E'. now rewrite firstn_app, (proj2 (Nat.sub_0_le _ _) L), app_nil_r.
  - assert (E' := steady_none os Std q r E). split; [exact E'|]. unfold pre_text, prefix_len. cbn. now rewrite E, E'.
Qed.

(** The first bytes of a path with as many parts. *)
Lemma shorter p st w r w' r' rest : p = pre_text os p ++ start_text st ++ body w r ->
  start_ok os (comps_of os p) st -> body_ok (comps_of os p) st w ->
  body w r = body w' r' ++ rest -> (w' = w \/ w' = [] /\ r' = []) ->
  let q := pre_text os p ++ start_text st ++ body w' r' in
  os_prefix os q = os_prefix os p /\ pre_text os q = pre_text os p
  /\ start_ok os (comps_of os q) st /\ body_ok (comps_of os q) st w'.
Proof.
  intros P So Bo Eb W q.
  assert (Ep : p = q ++ rest) by (rewrite P; unfold q; now rewrite Eb, <- !app_assoc).
  assert (Sm := same_prefix q rest). rewrite <- Ep in Sm. specialize (Sm ltac:(unfold q; rewrite app_length; lia)) as [Pe Te].
  split; [exact Pe|]. split; [exact Te|]. split.
  - assert (Sk : forall s, skipn (prefix_len (comps_of os p)) (pre_text os p ++ s) = s)
      by (intros s; apply skipn_app_len; symmetry; apply (pre_len os Sane)).
    assert (Rq : cs_root (comps_of os q) = match start_text st ++ body w' r' with [] => false | c :: _ => os_sep os c end).
    { unfold comps_of. cbn. unfold physical_root. rewrite Pe. change (match os_prefix os p with Some x => px_len x | None => 0 end) with (prefix_len (comps_of os p)).
      unfold q. now rewrite Sk. }
    assert (Rp : cs_root (comps_of os p) = match start_text st ++ body w r with [] => false | c :: _ => os_sep os c end).
    { unfold comps_of. cbn. unfold physical_root. change (match os_prefix os p with Some x => px_len x | None => 0 end) with (prefix_len (comps_of os p)).
      rewrite P at 2. now rewrite Sk. }
    assert (Cp : cs_prefix (comps_of os q) = cs_prefix (comps_of os p)) by exact Pe.
    assert (Less : cs_root (comps_of os p) = false -> start_text st = [] -> cs_root (comps_of os q) = false).
    { intros R T. rewrite Rq. rewrite Rp, Eb in R. rewrite T in *. cbn [app] in *. destruct (body w' r'); [reflexivity|exact R]. }
    destruct st; cbn [start_ok] in *.
    + split; [|exact (proj2 So)]. rewrite Rq. cbn. exact (proj2 So).
    + rewrite Cp. destruct So as [R X]. auto.
    + rewrite Cp. destruct So as [R X]. split; [|exact X]. rewrite Rq. cbn. apply (sane_dot os Sane).
    + rewrite Cp. destruct So as [R X]. auto.
  - destruct st; cbn [body_ok] in *; auto; destruct W as [->|[-> _]]; auto. discriminate.
Qed.

Lemma tail_prefix a b : exists t, tail (a ++ b) = tail a ++ t.
Proof. exists (tail b). apply tail_app. Qed.
Lemma drop_idle_split v q : exists a, q = a ++ drop_idle v q /\ singles v (map snd a) = [].
Proof.
  induction q as [|[k x] q (a & E & S)]; [now exists []|]. cbn [drop_idle]. unfold idle.
  destruct (sing v x) eqn:X; cbn [is_none].
  - exists []. split; reflexivity.
  - exists ((k, x) :: a). split; [cbn; congruence|]. cbn. now rewrite X.
Qed.

(** What is left after trimming: a beginning of the body with the same parts. *)
Lemma trimmed_ok v w r : seps (fun c => true) [] -> exists w' r' rest, trimmed v w r = body w' r'
  /\ body w r = body w' r' ++ rest /\ (w' = w \/ w' = [] /\ r' = [])
  /\ (forall x, In x r' -> In x r) /\ singles v (w' :: map snd r') = singles v (w :: map snd r).
Proof.
  intros _. unfold trimmed. destruct (drop_idle_split v (rev r)) as (a & E & S).
  assert (Er : r = rev (drop_idle v (rev r)) ++ rev a) by (rewrite <- rev_app_distr, <- E; symmetry; apply rev_involutive).
  destruct (drop_idle v (rev r)) as [|t q] eqn:D.
  - cbn [rev app] in Er.
    assert (Z : singles v (map snd r) = []) by (rewrite Er, map_rev, (singles_rev v), S; reflexivity).
    destruct (idle v w) eqn:I.
    + exists [], [], (body w r). split; [reflexivity|]. split; [reflexivity|]. split; [auto|]. split; [easy|].
      change (w :: map snd r) with ([w] ++ map snd r). rewrite (singles_app v), Z. unfold idle in I. unfold singles. cbn.
      now destruct (sing v w).
    + exists w, [], (tail r). unfold body. change (tail []) with (@nil ascii). rewrite app_nil_r. split; [reflexivity|]. split; [reflexivity|]. split; [auto|]. split; [easy|].
      change (w :: map snd r) with ([w] ++ map snd r). rewrite (singles_app v), Z. now rewrite app_nil_r.
  - set (l := rev (t :: q)) in *. exists w, l, (tail (rev a)). split; [reflexivity|]. split.
    + rewrite Er at 1. unfold body. now rewrite tail_app, app_assoc.
    + split; [auto|]. split.
      * intros x I. rewrite Er. apply in_app_iff. auto.
      * rewrite Er. change (w :: map snd (l ++ rev a)) with ([w] ++ map snd (l ++ rev a)).
        rewrite map_app, !(singles_app v), (map_rev snd a), (singles_rev v (map snd a)), S. cbn [rev]. rewrite app_nil_r. 
        change (w :: map snd l) with ([w] ++ map snd l). now rewrite (singles_app v).
Qed.

Lemma parts_of p st w r : p = pre_text os p ++ start_text st ++ body w r -> start_ok os (comps_of os p) st ->
  body_ok (comps_of os p) st w -> nosep (cs_sep os (comps_of os p)) w -> seps (cs_sep os (comps_of os p)) r ->
  map bare (parts os p) = pre_parts (comps_of os p) ++ start_parts (comps_of os p) st
                           ++ singles (prefix_verbatim (comps_of os p)) (w :: map snd r).
Proof.
  intros P So Bo Nw Sr. rewrite (parts_front os Sane p st w r); auto. rewrite !map_app, (bare_singles (prefix_verbatim (comps_of os p))). f_equal.
  - unfold pre_parts_raw, pre_parts. now destruct (cs_prefix (comps_of os p)).
  - f_equal. unfold start_parts. destruct st; try reflexivity; [destruct (prefix_verbatim _)|destruct (cs_prefix _)]; reflexivity.
Qed.

(** The parent: the path without its last part, and without what is no part at its end. *)
Definition movable (x : part) : Prop := match x with Name _ | Up | Cur => True | _ => False end.
Lemma sing_movable v w x : sing v w = Some x -> movable x.
Proof. unfold sing. repeat match goal with |- context [if ?b then _ else _] => destruct b end; intros [= <-]; exact I. Qed.
Lemma parent_parts p :
  match std_parent os p with
  | Some q => (exists rest, rest <> [] /\ p = q ++ rest) /\ exists x, movable x /\ map bare (parts os p) = map bare (parts os q) ++ [x]
  | None => forall l x, map bare (parts os p) = l ++ [x] -> ~ movable x
  end.
Proof.
  destruct (dissect os Sane p) as (st & w & r & P & So & Bo & Nw & Sr & St).
  rewrite (parent_closed os Sane p st w r P So Nw Sr St).
  assert (Pp := parts_of p st w r P So Bo Nw Sr). set (c := comps_of os p) in *. set (v := prefix_verbatim c) in *.
  unfold up. fold v. destruct (drop_idle_split v (rev r)) as (a & E & S).
  assert (Er : r = rev (drop_idle v (rev r)) ++ rev a) by (rewrite <- rev_app_distr, <- E; symmetry; apply rev_involutive).
  assert (Go : forall w' r' rest, body w r = body w' r' ++ rest -> (w' = w \/ w' = [] /\ r' = []) -> (forall x, In x r' -> In x r) ->
    map bare (parts os (pre_text os p ++ start_text st ++ body w' r')) = pre_parts c ++ start_parts c st ++ singles v (w' :: map snd r')).
  { intros w' r' rest Eb W I. destruct (shorter p st w r w' r' rest P So Bo Eb W) as (Q1 & Q2 & Q3 & Q4).
    set (q := pre_text os p ++ start_text st ++ body w' r') in *.
    assert (Cq : cs_prefix (comps_of os q) = cs_prefix c) by exact Q1.
    assert (Sq : cs_sep os (comps_of os q) = cs_sep os c) by (unfold cs_sep, prefix_verbatim; now rewrite Cq).
    assert (Vq : prefix_verbatim (comps_of os q) = v) by (unfold v, prefix_verbatim; now rewrite Cq).
    assert (Hp : pre_parts (comps_of os q) = pre_parts c) by (unfold pre_parts; now rewrite Cq).
    assert (Hs : start_parts (comps_of os q) st = start_parts c st) by (unfold start_parts; now rewrite Cq, Vq).
    rewrite <- Hp, <- Hs, <- Vq. apply parts_of; auto.
    - unfold q at 1. now rewrite Q2.
    - rewrite Sq. destruct W as [->|[-> _]]; [exact Nw|constructor].
    - rewrite Sq. apply (seps_sub _ _ r); auto. }
  destruct (drop_idle v (rev r)) as [|[k x] q] eqn:D.
  - cbn [rev app] in Er.
    assert (Z : singles v (map snd r) = []) by (rewrite Er, map_rev, (singles_rev v), S; reflexivity).
    assert (Sw : singles v (w :: map snd r) = match sing v w with Some y => [y] | None => [] end).
    { change (w :: map snd r) with ([w] ++ map snd r). rewrite (singles_app v), Z, app_nil_r. unfold singles. cbn. now rewrite app_nil_r. }
    rewrite Sw in Pp. unfold idle. destruct (sing v w) as [y|] eqn:Y; cbn [is_none].
    + split.
      * exists (body w r). split.
        { intros Eb. destruct w; [discriminate Y|discriminate Eb]. }
        now rewrite <- app_assoc.
      * exists y. split; [now apply (sing_movable v w)|].
        assert (G := Go [] [] (body w r) eq_refl (or_intror (conj eq_refl eq_refl)) ltac:(easy)).
        change (body [] []) with (@nil ascii) in G. rewrite app_nil_r in G. rewrite G, Pp. cbn [map].
        change (singles v [[]]) with (@nil part). rewrite app_nil_r. now rewrite <- app_assoc.
    + assert (N : forall l z, pre_parts c ++ start_parts c st ++ [] = l ++ [z] ->
        movable z -> st = ByDot /\ cs_prefix c = None /\ l = [] /\ z = Cur).
      { intros l z Ez M. rewrite app_nil_r in Ez. unfold pre_parts, start_parts in Ez.
        destruct st; destruct (cs_prefix c) as [y|] eqn:Pc; try (destruct (prefix_verbatim c)); cbn [app] in Ez;
        try (now destruct l);
        first [apply (app_inj_tail [] l) in Ez as [<- <-] | apply (app_inj_tail [Pre [] y] l) in Ez as [<- <-]];
        first [contradiction | auto]. }
      assert (Dn : st = ByDot -> cs_prefix c = None -> std_parent os p = std_parent os p /\ is_none (os_prefix os p) = true)
        by (intros _ Pc; change (cs_prefix c) with (os_prefix os p) in Pc; rewrite Pc; auto).
      destruct st; try (intros l z Ez M; rewrite Pp in Ez; destruct (N l z Ez M) as (F & _); discriminate F).
      destruct (os_prefix os p) as [y|] eqn:Pc; cbn [is_none].
      { intros l z Ez M. rewrite Pp in Ez. destruct (N l z Ez M) as (_ & F & _). change (cs_prefix c) with (os_prefix os p) in F. congruence. }
      assert (Pn : pre_text os p = []) by (unfold pre_text, prefix_len; cbn; now rewrite Pc).
      split.
      * exists p. split; [|reflexivity]. intros F. rewrite P, Pn in F. discriminate F.
      * exists Cur. split; [exact I|]. rewrite Pp. unfold pre_parts, start_parts. change (cs_prefix c) with (os_prefix os p). rewrite Pc. cbn [app].
        replace (map bare (parts os [])) with (@nil part); [reflexivity|].
        assert (E0 : os_prefix os [] = None) by (apply (steady_none os Std [] p); exact Pc).
        assert (R0 : cs_root (comps_of os []) = false) by (unfold comps_of; cbn; unfold physical_root; rewrite E0; reflexivity).
        symmetry. rewrite (parts_of [] Plainly [] []).
        -- unfold pre_parts. change (cs_prefix (comps_of os [])) with (os_prefix os []). rewrite E0. reflexivity.
        -- unfold pre_text, prefix_len. cbn. now rewrite E0.
        -- split; [exact R0|]. change (cs_prefix (comps_of os [])) with (os_prefix os []). rewrite E0. discriminate.
        -- discriminate.
        -- constructor.
        -- constructor.
  - assert (Ix := drop_idle_head _ _ _ _ _ D). unfold idle in Ix. destruct (sing v x) as [y|] eqn:Y; [|discriminate Ix].
    cbn [rev] in Er. rewrite <- app_assoc in Er. cbn [app] in Er.
    destruct (trimmed_ok v w (rev q) (Forall_nil _)) as (w' & r' & rest & T & Eb & W & I & Si). rewrite T.
    assert (Eb' : body w r = body w' r' ++ rest ++ tail ((k, x) :: rev a)).
    { rewrite Er at 1. unfold body at 1. rewrite tail_app, app_assoc. fold (body w (rev q)). rewrite Eb. now rewrite <- app_assoc. }
    split.
    + exists (rest ++ tail ((k, x) :: rev a)). split; [cbn; now destruct rest|].
      rewrite P at 1. rewrite Eb'. now rewrite <- !app_assoc.
    + exists y. split; [now apply (sing_movable v x)|]. rewrite <- app_assoc. rewrite (Go w' r' _ Eb' W).
      * rewrite Pp, Si. rewrite <- !app_assoc. do 2 f_equal.
        rewrite Er at 1. change (w :: map snd (rev q ++ (k, x) :: rev a)) with ([w] ++ map snd (rev q ++ (k, x) :: rev a)).
        change (w :: map snd (rev q)) with ([w] ++ map snd (rev q)).
        rewrite map_app. cbn [map snd]. change (x :: map snd (rev a)) with ([x] ++ map snd (rev a)).
        rewrite !(singles_app v), (map_rev snd a), (singles_rev v (map snd a)), S. cbn [rev]. rewrite app_nil_r, <- app_assoc. do 2 f_equal.
        unfold singles. cbn. rewrite Y. reflexivity.
      * intros z Iz. rewrite Er. apply in_app_iff. left. auto.
Qed.
Lemma parent_is_shorter p q : std_parent os p = Some q -> length q < length p.
Proof.
  intros E. assert (H := parent_parts p). rewrite E in H. destruct H as [(rest & N & ->) _]. rewrite app_length. destruct rest; [easy|cbn; lia].
Qed.
Lemma std_eqb_parts p q : std_eqb os p q = true <-> map bare (parts os p) = map bare (parts os q).
Proof.
  assert (Rp : forall s, map bare (parts_back os s) = rev (map bare (parts os s))).
  { intros s. destruct (dissect os Sane s) as (st & w & r & P & So & Bo & Nw & Sr & St). now apply (parts_both os Sane s st w r). }
  unfold std_eqb. rewrite orb_true_iff, andb_true_iff, str_eqb_eq, parts_eqb_eq, !Rp. split.
  - intros [[_ ->]|E]; [reflexivity|]. apply (f_equal (@rev _)) in E. now rewrite !rev_involutive in E.
  - intros ->. now right.
Qed.
End Parent.
