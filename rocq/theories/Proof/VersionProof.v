(** Reading versions and the host from the output of [-vV]. *)
From Verif.Model Require Import Base Str Error EasyTypes Process Resolve.
From Verif.Spec Require Import StrSpec EnvSpec QuerySpec.
From Verif.Proof Require Import StrFacts EnvTextProof.

(** ** Lines *)
Lemma strip_cr_cases l : (exists x, l = x ++ [cr] /\ strip_cr l = x) \/ ((forall x, l <> x ++ [cr]) /\ strip_cr l = l).
Proof.
  unfold strip_cr. destruct (strip_suffix [cr] l) as [r|] eqn:E.
  - apply strip_suffix_some in E. left. eauto.
  - right. split; [|reflexivity]. intros x Hx. apply strip_suffix_some in Hx. congruence.
Qed.

Section Label.
Context (p : str) (p_end : forall x, p <> x ++ [cr]) (p_nil : p <> []).

Lemma not_cr_app r x : p ++ r = x ++ [cr] -> exists y, r = y ++ [cr].
Proof.
  intros H. destruct (exists_last (l := r)) as (y & c & ->).
  - intros ->. rewrite app_nil_r in H. now apply p_end in H.
  - rewrite app_assoc in H. apply app_inj_tail in H as [_ ->]. eauto.
Qed.
Lemma strip_prefix_cr l r : strip_prefix p (strip_cr l) = Some r <->
  l = p ++ r ++ [cr] \/ (l = p ++ r /\ forall x, r <> x ++ [cr]).
Proof.
  rewrite strip_prefix_some. destruct (strip_cr_cases l) as [(x & -> & ->)|[N ->]]; split.
  - intros ->. left. now rewrite app_assoc.
  - intros [H|[H K]].
    + rewrite app_assoc in H. now apply app_inj_tail in H as [-> _].
    + symmetry in H. apply not_cr_app in H as (y & ->). now specialize (K y).
  - intros ->. right. split; [reflexivity|]. intros x ->. apply (N (p ++ x)). now rewrite app_assoc.
  - intros [->|[-> K]]; [|reflexivity]. exfalso. apply (N (p ++ r)). now rewrite app_assoc.
Qed.
Lemma strip_prefix_cr_none l : strip_prefix p (strip_cr l) = None <-> forall x, l <> p ++ x.
Proof.
  split.
  - intros H x ->. destruct (strip_cr_cases (p ++ x)) as [(y & E & K)|[N K]]; rewrite K in H.
    + destruct (not_cr_app x y E) as (z & ->). rewrite app_assoc in E. apply app_inj_tail in E as [<- _].
      now rewrite strip_prefix_app in H.
    + now rewrite strip_prefix_app in H.
  - intros H. destruct (strip_prefix p (strip_cr l)) as [r|] eqn:E; [|reflexivity].
    apply strip_prefix_cr in E as [->|[-> _]]; now apply H in E || (exfalso; eapply H; reflexivity).
Qed.

Definition at_line (ps : list str) (r : str) : Prop :=
  exists before line after, ps = before ++ line :: after
    /\ (forall l x, In l before -> l <> p ++ x)
    /\ match after with
       | [] => line = p ++ r
       | _ => line = p ++ r ++ [cr] \/ (line = p ++ r /\ forall x, r <> x ++ [cr])
       end.

Lemma find_prefix_lines ps r : find_prefix p (lines_of ps) = Some r <-> at_line ps r.
Proof.
  induction ps as [|l ps IH].
  - split; [discriminate|]. intros ([|? ?] & line & after & [=] & _).
  - destruct ps as [|l' ps].
    + cbn [lines_of]. split.
      * destruct (is_empty l); [discriminate|]. cbn [find_prefix].
        destruct (strip_prefix p l) as [r'|] eqn:E; [|discriminate]. intros [= ->].
        apply strip_prefix_some in E. exists [], l, []. split; [reflexivity|]. split; [intros ? ? []|assumption].
      * intros (before & line & after & E & _ & H).
        destruct before as [|x before]; [|destruct before; discriminate E].
        injection E as <- <-. subst l. assert (is_empty (p ++ r) = false) as ->.
        { apply is_empty_false. intros N. apply app_eq_nil in N as [N _]. now apply p_nil. }
        cbn [find_prefix]. now rewrite strip_prefix_app.
    + change (lines_of (l :: l' :: ps)) with (strip_cr l :: lines_of (l' :: ps)). cbn [find_prefix].
      destruct (strip_prefix p (strip_cr l)) as [r'|] eqn:E.
      * split.
        -- intros [= ->]. apply strip_prefix_cr in E. exists [], l, (l' :: ps). split; [reflexivity|]. split; [intros ? ? []|assumption].
        -- intros (before & line & after & Eq & N & H). destruct before as [|x before].
           ++ injection Eq as <- <-. apply strip_prefix_cr in H. congruence.
           ++ exfalso. injection Eq as <- Eq. apply strip_prefix_cr in E as [E|[E _]]; now apply (N l _ (or_introl eq_refl)) in E.
      * rewrite IH. rewrite strip_prefix_cr_none in E. split.
        -- intros (before & line & after & -> & N & H). exists (l :: before), line, after.
           repeat split; auto. intros l0 x [<-|I]; auto.
        -- intros (before & line & after & Eq & N & H). destruct before as [|x before].
           ++ exfalso. injection Eq as <- <-. destruct H as [H|[H _]]; now apply E in H.
           ++ injection Eq as <- Eq. exists before, line, after. repeat split; auto. intros l0 y I. apply N. now right.
Qed.

Lemma find_prefix_labelled out r : find_prefix p (lines out) = Some r <-> labelled p out r.
Proof.
  unfold lines. rewrite find_prefix_lines. unfold at_line, labelled.
  change line_feed with nl. change carriage_return with cr. split.
  - intros (before & line & after & E & N & H). exists before, line, after. rewrite <- E.
    split; [apply intercalate_split|]. split; [|auto]. apply Forall_forall. intros x. apply split_on_free.
  - intros (before & line & after & E & F & N & H). exists before, line, after. split; [|auto].
    rewrite <- E. apply split_intercalate; [now destruct before|exact F].
Qed.
End Label.

Lemma release_label out r : find_prefix (B "release: ") (lines out) = Some r <-> labelled (B "release: ") out r.
Proof.
  apply find_prefix_labelled; [|discriminate]. intros x E. apply (f_equal (@rev ascii)) in E. rewrite rev_unit in E.
  discriminate E.
Qed.
Lemma host_label out r : find_prefix (B "host: ") (lines out) = Some r <-> labelled (B "host: ") out r.
Proof.
  apply find_prefix_labelled; [|discriminate]. intros x E. apply (f_equal (@rev ascii)) in E. rewrite rev_unit in E.
  discriminate E.
Qed.

(** ** Numbers *)
Lemma decimal_chars s n c : decimal s n -> In c s -> c <> "."%char /\ c <> "-"%char.
Proof.
  assert (K : forall d, (d < 10)%N -> EnvSpec.digit d <> "."%char /\ EnvSpec.digit d <> "-"%char).
  { intros d Hd. assert (E : (d = 0 \/ d = 1 \/ d = 2 \/ d = 3 \/ d = 4 \/ d = 5 \/ d = 6 \/ d = 7 \/ d = 8 \/ d = 9)%N) by lia.
    repeat (destruct E as [->|E]; [now vm_compute|]). subst d. now vm_compute. }
  induction 1 as [d Hd|s n d H IH Hd].
  - intros [<-|[]]. auto.
  - intros I. apply in_app_or in I as [I|[<-|[]]]; auto.
Qed.
Lemma number_chars s n : number s n -> ~ In "."%char s /\ ~ In "-"%char s.
Proof.
  intros ((ds & D & H) & _).
  assert (K : forall c, In c s -> c = "+"%char \/ In c ds).
  { intros c I. destruct H as [->| ->]; [now right|]. destruct I as [<-|I]; auto. }
  split; intros I; destruct (K _ I) as [E|J]; try discriminate E; now apply (decimal_chars _ _ _ D) in J as [A B].
Qed.

Lemma splitn2 v y z : splitn 2 "." v = [y; z] -> v = y ++ "."%char :: z /\ ~ In "."%char y.
Proof.
  cbn [splitn]. destruct (split_once "." v) as [[y' z']|] eqn:E; [|discriminate].
  intros [= -> ->]. apply split_once_some in E. tauto.
Qed.
Lemma splitn1 v y : splitn 2 "." v = [y] -> v = y /\ ~ In "."%char y.
Proof.
  cbn [splitn]. destruct (split_once "." v) as [[y' z']|] eqn:E; [discriminate|].
  intros [= ->]. now apply split_once_none in E.
Qed.
Lemma splitn3_cons v x l : l <> [] -> splitn 3 "." v = x :: l -> exists r, v = x ++ "."%char :: r /\ splitn 2 "." r = l.
Proof.
  intros N. change (splitn 3 "." v) with (match split_once "." v with None => [v] | Some (a, b) => a :: splitn 2 "." b end).
  destruct (split_once "." v) as [[x' r]|] eqn:E.
  - intros [= -> <-]. apply split_once_some in E as [-> _]. eauto.
  - intros [= _ <-]. now destruct N.
Qed.

(** The text after [release:]. *)
Definition cut_channel (release : str) : str * str :=
  match split_once "-"%char release with Some p => p | None => (release, []) end.
Definition parse_release (release : str) : option (N * N * option N * bool) :=
  let (version, channel) := cut_channel release in
  let nightly := (str_eqb channel (B "nightly") || str_eqb channel (B "dev"))%bool in
  match splitn 3 "."%char version with
  | [a; b] => match parse_u32 a, parse_u32 b with Some a, Some b => Some (a, b, None, nightly) | _, _ => None end
  | [a; b; c] =>
      match parse_u32 a, parse_u32 b, parse_u32 c with
      | Some a, Some b, Some c => Some (a, b, Some c, nightly)
      | _, _, _ => None
      end
  | _ => None
  end.
Lemma parse_version_release vv : parse_version vv =
  match find_prefix (B "release: ") (lines vv) with None => None | Some r => parse_release r end.
Proof. reflexivity. Qed.

Lemma channel_nightly ch :
  (str_eqb ch (B "nightly") || str_eqb ch (B "dev"))%bool = true
  <-> "-"%char :: ch = B "-nightly" \/ "-"%char :: ch = B "-dev".
Proof.
  rewrite orb_true_iff, !str_eqb_eq. split.
  - intros [->| ->]; [now left|now right].
  - intros [H|H]; [left|right]; now injection H as ->.
Qed.

Lemma parse_release_iff r a b c n : parse_release r = Some (a, b, c, n) <-> release_text r a b c n.
Proof.
  split.
  - unfold parse_release.
    assert (K : exists v ch chan, cut_channel r = (v, chan)
                /\ r = v ++ ch /\ (ch = [] \/ exists c, ch = "-"%char :: c)
                /\ ((str_eqb chan (B "nightly") || str_eqb chan (B "dev"))%bool = true <-> ch = B "-nightly" \/ ch = B "-dev")).
    { unfold cut_channel. destruct (split_once "-" r) as [[v chan]|] eqn:E.
      - apply split_once_some in E as [-> _]. exists v, ("-"%char :: chan), chan. split; [reflexivity|]. split; [reflexivity|].
        split; [eauto|apply channel_nightly].
      - exists r, [], []. rewrite app_nil_r. repeat split; auto; try discriminate. now intros [|]. }
    destruct K as (v & ch & chan & -> & -> & Hch & Hn). cbv zeta.
    generalize dependent (str_eqb chan (B "nightly") || str_eqb chan (B "dev"))%bool. intros nightly Hn.
    destruct (splitn 3 "." v) as [|x [|y [|z [|? ?]]]] eqn:Es; try discriminate.
    + destruct (parse_u32 x) as [a'|] eqn:Ea; [|discriminate]. destruct (parse_u32 y) as [b'|] eqn:Eb; [|discriminate].
      intros [= <- <- <- <-]. apply splitn3_cons in Es as (s & -> & Es); [|discriminate]. apply splitn1 in Es as [-> _].
      exists x, y, [], ch. rewrite <- app_assoc. cbn [app]. apply parse_u32_iff in Ea, Eb. unfold number. auto 10.
    + destruct (parse_u32 x) as [a'|] eqn:Ea; [|discriminate]. destruct (parse_u32 y) as [b'|] eqn:Eb; [|discriminate].
      destruct (parse_u32 z) as [c'|] eqn:Ec; [|discriminate].
      intros [= <- <- <- <-]. apply splitn3_cons in Es as (s & -> & Es); [|discriminate]. apply splitn2 in Es as [-> _].
      exists x, y, ("."%char :: z), ch. rewrite <- !app_assoc. cbn [app]. rewrite <- app_assoc. cbn [app].
      apply parse_u32_iff in Ea, Eb, Ec.
      unfold number. split; [reflexivity|]. split; [assumption|]. split; [assumption|]. split; [eauto|auto].
  - intros (x & y & p & ch & -> & Ha & Hb & Hp & Hch & Hn). unfold parse_release.
    set (v := x ++ "."%char :: y ++ p).
    destruct (number_chars _ _ Ha) as [Xa Xb]. destruct (number_chars _ _ Hb) as [Ya Yb].
    assert (Nv : ~ In "-"%char v).
    { intros I. apply in_app_or in I as [I|[I|I]]; [auto|discriminate I|].
      apply in_app_or in I as [I|I]; [auto|]. destruct c as [c|]; [|subst p; destruct I].
      destruct Hp as (d & -> & Hd). destruct I as [I|I]; [discriminate I|]. now apply number_chars in Hd. }
    assert (K : exists chan, cut_channel (x ++ "."%char :: y ++ p ++ ch) = (v, chan)
                /\ ((str_eqb chan (B "nightly") || str_eqb chan (B "dev"))%bool = true <-> ch = B "-nightly" \/ ch = B "-dev")).
    { assert (E : x ++ "."%char :: y ++ p ++ ch = v ++ ch) by (unfold v; rewrite <- app_assoc; cbn [app]; now rewrite <- app_assoc).
      rewrite E. unfold cut_channel. destruct Hch as [->|(chan & ->)].
      - rewrite app_nil_r. rewrite (proj2 (split_once_none "-" v) Nv). exists []. split; [reflexivity|]. split; [discriminate|now intros [|]].
      - rewrite (split_once_app "-" v chan Nv). exists chan. split; [reflexivity|]. apply channel_nightly. }
    destruct K as (chan & -> & Hn'). cbv zeta.
    assert ((str_eqb chan (B "nightly") || str_eqb chan (B "dev"))%bool = n) as -> by (apply eq_iff_eq_true; tauto).
    change (splitn 3 "." v) with (match split_once "." v with None => [v] | Some (a, b) => a :: splitn 2 "." b end).
    unfold v. rewrite split_once_app by assumption.
    change (splitn 2 "." (y ++ p)) with (match split_once "." (y ++ p) with None => [y ++ p] | Some (a, b) => [a; b] end).
    apply parse_u32_iff in Ha, Hb. destruct c as [c|].
    + destruct Hp as (d & -> & Hd). rewrite split_once_app by assumption. apply parse_u32_iff in Hd. now rewrite Ha, Hb, Hd.
    + subst p. rewrite app_nil_r, (proj2 (split_once_none "." y) Ya). now rewrite Ha, Hb.
Qed.

Lemma rustc_version_iff vc v : rustc_version_of vc = Ok v <-> says_rustc (fst vc) v.
Proof.
  unfold rustc_version_of, says_rustc. rewrite parse_version_release. split.
  - destruct (find_prefix (B "release: ") (lines (fst vc))) as [r|] eqn:E; [|discriminate].
    destruct (parse_release r) as [[[[a b] c] n]|] eqn:P; [|discriminate]. intros [= <-].
    exists r. split; [now apply release_label|]. now apply parse_release_iff.
  - intros (r & L & T). apply release_label in L. apply parse_release_iff in T. rewrite L, T. now destruct v.
Qed.
Lemma cargo_version_iff vc v : cargo_version_of vc = Ok v <-> says_cargo (fst vc) v.
Proof.
  unfold cargo_version_of, says_cargo. rewrite parse_version_release. split.
  - destruct (find_prefix (B "release: ") (lines (fst vc))) as [r|] eqn:E; [|discriminate].
    destruct (parse_release r) as [[[[a b] [c|]] n]|] eqn:P; [|discriminate|discriminate]. intros [= <-].
    exists r. split; [now apply release_label|]. now apply parse_release_iff.
  - intros (r & L & T). apply release_label in L. apply parse_release_iff in T. rewrite L, T. now destruct v.
Qed.
Lemma host_iff vc h : host_of vc = Ok h <-> says_host (fst vc) h.
Proof.
  unfold host_of, says_host. rewrite <- host_label.
  destruct (find_prefix (B "host: ") (lines (fst vc))) as [r|]; split; [congruence|congruence|discriminate|discriminate].
Qed.
Lemma rustc_version_no_panic vc p : rustc_version_of vc <> Panic p.
Proof. unfold rustc_version_of. destruct (parse_version (fst vc)) as [[[[? ?] ?] ?]|]; discriminate. Qed.
Lemma cargo_version_no_panic vc p : cargo_version_of vc <> Panic p.
Proof. unfold cargo_version_of. destruct (parse_version (fst vc)) as [[[[? ?] [?|]] ?]|]; discriminate. Qed.
Lemma host_no_panic vc p : host_of vc <> Panic p.
Proof. unfold host_of. destruct (find_prefix (B "host: ") (lines (fst vc))); discriminate. Qed.
