(** The text of the parent of a path on Windows. *)
From Verif.Model Require Import Base Str Path StdPath OsPaths.
From Verif.Spec Require Import StrSpec WinSpec WinAnySpec WinParentSpec.
From Verif.Proof Require Import StrFacts StdPathProof StdParentProof ParentTextProof WinPrefixProof WinDirProof WinUseProof WinAnyProof.
From Verif.Spec Require Import WinSpec WinAnySpec WinParentSpec.

Lemma begun_text p q : begun p q -> q = match parse_prefix p with
  | Some x => firstn (px_len x) p ++ match skipn (px_len x) p with
                                     | [] => []
                                     | k :: _ => if win_sep k then [k] else concat (first_dot (skipn (px_len x) p))
                                     end
  | None => match p with k :: _ => if win_sep k then [k] else [] | [] => [] end
  end.
Proof.
  intros H. destruct H as [p s u k t S K E|p c u t S L E|k t N K|p N L].
  - apply starts_iff in S as [S T]. rewrite S, <- T. rewrite (proj2 (sep_separates k) K). f_equal. apply (app_inv_tail (k :: t)). rewrite <- E, T. symmetry. apply firstn_skipn.
  - apply starts_iff in S as [S T]. rewrite S, <- T. assert (u = firstn (px_len (px_of (AtDrive c))) p) as <-.
    { apply (app_inv_tail t). rewrite <- E, T. symmetry. apply firstn_skipn. }
    destruct t as [|k t]; [reflexivity|]. rewrite (proj2 (not_sep k)); [reflexivity|]. intros K. apply L. now exists k, t.
  - apply no_start in N. now rewrite N, (proj2 (sep_separates k) K).
  - apply no_start in N. rewrite N. destruct p as [|k t]; [reflexivity|]. rewrite (proj2 (not_sep k)); [reflexivity|]. intros K. apply L. now exists k, t.
Qed.
Definition parent_text_gen := ParentTextProof.parent_text windows windows_steady.
Lemma begun_functional p q q' : begun p q -> begun p q' -> q = q'.
Proof. intros H H'. apply begun_text in H, H'. congruence. Qed.
Lemma parent_text_functional p q q' : parent_text p q -> parent_text p q' -> q = q'.
Proof.
  intros H H'.
  assert (Two : forall (l : list str) x w y, l ++ [x; w] <> [y]) by (intros [|a [|b l]] x w y; discriminate).
  destruct H as [v r w q R G|v r l x w q t R E Q M], H' as [v' r' w' q' R' G'|v' r' l' x' w' q' t' R' E' Q' M'];
    destruct (reads_unique _ _ _ _ _ _ _ R R') as (-> & -> & X).
  - now apply (begun_functional p).
  - symmetry in X. now apply Two in X.
  - now apply Two in X.
  - change [x; w] with ([x] ++ [w]) in X. change [x'; w'] with ([x'] ++ [w']) in X. rewrite !app_assoc in X. apply app_inj_tail in X as [X _]. rewrite X in Q, M.
    rewrite E in E'. destruct (le_lt_dec (length q) (length q')) as [L|L].
    + destruct (app_split _ _ _ _ E' L) as (y & Ey & _). rewrite (M' _ _ Ey Q), app_nil_r in Ey. now symmetry.
    + destruct (app_split _ _ _ _ (eq_sym E') ltac:(lia)) as (y & Ey & _). rewrite (M _ _ Ey Q'), app_nil_r in Ey. exact Ey.
Qed.

Lemma parent_is_text p q : std_parent windows p = Some q -> parent_text p q.
Proof.
  intros H. destruct (parent_text_gen p q H) as [Short Front].
  destruct (reads_total p) as (v & r & ws & R). destruct (reads_parent p v r ws R) as [P0 P1].
  destruct ws as [|w ws _] using rev_ind; [rewrite P0 in H by reflexivity; discriminate H|].
  destruct (P1 ws w eq_refl) as (q0 & rest & E & _ & Ep & Q). rewrite H in E. injection E as <-. assert (Qp := reads_parts _ _ _ _ Q).
  destruct ws as [|x l _] using rev_ind.
  - apply parent_first with v r w; [exact R|]. destruct Front as (st & b & bs & P & So & Bo & Nb & Sb & Eq).
    { intros (l & z & Ez & M). rewrite Qp in Ez. unfold all_parts in Ez. cbn [map] in Ez. rewrite app_nil_r in Ez. destruct v as [s|], r; cbn [app] in Ez.
      + apply (app_inj_tail [Pre [] (px_of s)] _ Root) in Ez as [_ <-]. exact M.
      + apply (app_inj_tail [] _ (Pre [] (px_of s))) in Ez as [_ <-]. exact M.
      + apply (app_inj_tail [] _ Root) in Ez as [_ <-]. exact M.
      + now destruct l. }
    assert (Pt : forall t, t = skipn (prefix_len (comps_of windows p)) p -> p = pre_text windows p ++ t /\ t = start_text st ++ body b bs).
    { intros t ->. assert (X : p = pre_text windows p ++ skipn (prefix_len (comps_of windows p)) p) by (symmetry; apply firstn_skipn).
      split; [exact X|]. apply (app_inv_head (pre_text windows p)). now rewrite <- X, <- P. }
    assert (Led : forall s t, starts p s t -> leads t -> begun p q).
    { intros s t S (k & u & -> & K). destruct (starts_of _ _ _ S) as [Px T]. destruct (Pt _ T) as [E1 E2]. assert (Rt : cs_root (comps_of windows p) = win_sep k) by exact (of_root p _ T). rewrite (proj2 (sep_separates k) K) in Rt.
      destruct st; cbn [start_ok] in So; try (destruct So as [So _]; congruence). cbn [start_text app] in E2. injection E2 as <- E2.
      destruct Eq as [[-> _]|(F & _)]; [|discriminate F]. now apply begun_root with s u. }
    inversion R as [p' c t S L|p' c t S L|p' s t S D L|p' s S L|p' s k t S L|p' N L|p' N L]; subst p'; try subst v; try subst r.
    + destruct (starts_of _ _ _ S) as [Px T]. destruct (Pt _ T) as [E1 E2]. 
      destruct Eq as [[-> Nd]|(_ & F & _)]; [|rewrite F in Px; discriminate Px].
      assert (Cs : cs_sep windows (comps_of windows p) = win_sep).
      { unfold cs_sep, prefix_verbatim. change (cs_prefix (comps_of windows p)) with (os_prefix windows p). rewrite Px. reflexivity. }
      assert (Fd : start_text st = concat (first_dot t)).
      { destruct st; cbn [start_ok start_text body_ok] in *.
        - exfalso. apply L. cbn [app] in E2. exists k, (body b bs). split; [exact E2|]. now apply sep_separates.
        - exfalso. destruct So as (_ & x & Px' & I). change (cs_prefix (comps_of windows p)) with (os_prefix windows p) in Px'. rewrite Px in Px'. injection Px' as <-. discriminate I.
        - subst b. change (B "." ++ body [] bs) with (body (B ".") bs) in E2. rewrite Cs in Sb. unfold first_dot. rewrite E2, cut_body; [reflexivity| |exact Sb].
          repeat constructor.
        - rewrite Cs in Nb, Sb. unfold first_dot. cbn [app] in E2. rewrite E2, cut_body by assumption. destruct b as [|a b]; [reflexivity|].
          destruct (counts (a :: b)) eqn:C; [reflexivity|]. exfalso. apply Bo.
          destruct b as [|a' b]; cbn in C; destruct a as [[] [] [] [] [] [] [] []]; try discriminate C; reflexivity. }
      rewrite Fd. now apply begun_drive with c.
    + now apply (Led (AtDrive c) t).
    + apply (Led s t S). destruct (starts_ended _ _ _ S D) as [->|X]; [|exact X]. discriminate.
    + apply (Led s (k :: t) S). destruct (starts_ended _ _ _ S) as [F|X]; [now destruct s|discriminate F|exact X].
    + destruct (none_of _ N) as [Px T]. destruct (Pt _ T) as [E1 E2].
      assert (q = []) as ->; [|now apply begun_here].
      destruct Eq as [[-> Nd]|(_ & _ & ->)]; [|reflexivity]. assert (pre_text windows p = []) as ->; [unfold pre_text, prefix_len; cbn; cbn in Px; now rewrite Px|].
      destruct st; cbn [start_ok start_text] in *; try reflexivity.
      * exfalso. apply L. cbn [app] in E2. exists k, (body b bs). split; [exact E2|]. now apply sep_separates.
      * exfalso. now apply Nd.
    + destruct (none_of _ N) as [Px T]. destruct (Pt _ T) as [E1 E2]. destruct L as (k & u & Ek & K). assert (Rt : cs_root (comps_of windows p) = match p with [] => false | k :: _ => win_sep k end) by exact (of_root p _ T). rewrite Ek in Rt at 2. rewrite (proj2 (sep_separates k) K) in Rt.
      destruct st; cbn [start_ok] in So; try (destruct So as [So _]; congruence). cbn [start_text app] in E2. rewrite Ek in E2. injection E2 as <- E2.
      destruct Eq as [[-> _]|(F & _)]; [|discriminate F]. assert (pre_text windows p = []) as ->; [unfold pre_text, prefix_len; cbn; cbn in Px; now rewrite Px|].
      subst p. now apply begun_top.
  - rewrite <- app_assoc in R. apply parent_further with v r l x w rest; [exact R|exact Ep|exact Q|].
    intros q' t' Eq R'. apply (Short) with q'; [|exact Eq|].
    + exists (all_parts v r l), (any_part x). rewrite Qp, all_parts_snoc. split; [reflexivity|]. apply any_part_movable.
    + rewrite (reads_parts _ _ _ _ R'). now rewrite Qp.
Qed.
Lemma parent_text_iff p q : std_parent windows p = Some q <-> parent_text p q.
Proof.
  split; [apply parent_is_text|]. intros H. destruct (reads_total p) as (v & r & ws & R). destruct (reads_parent p v r ws R) as [_ P1].
  assert (exists l w, ws = l ++ [w]) as (l & w & E).
  { destruct H as [v' r' w q R' _|v' r' l x w q t R' _ _ _]; destruct (reads_unique _ _ _ _ _ _ _ R R') as (_ & _ & ->).
    - now exists [], w.
    - exists (l ++ [x]), w. now rewrite <- app_assoc. }
  destruct (P1 l w E) as (q' & rest & E' & _). rewrite E'. f_equal. apply (parent_text_functional p); [|exact H]. now apply parent_is_text.
Qed.
(** Popping: the parent, or the path itself where there is none. *)
Lemma pop_text p : (exists q, parent_text p q /\ std_pop windows p = q) \/ ((exists v r, reads p v r []) /\ std_pop windows p = p).
Proof.
  unfold std_pop. destruct (reads_total p) as (v & r & ws & R). destruct (reads_parent p v r ws R) as [P0 P1]. destruct ws as [|w ws _] using rev_ind.
  - right. rewrite (P0 eq_refl). split; [eauto|reflexivity].
  - left. destruct (P1 ws w eq_refl) as (q & rest & E & _ & Ep & _). exists q. split; [now apply parent_is_text|]. rewrite E, Ep.
    rewrite firstn_app, Nat.sub_diag, firstn_all, firstn_O, app_nil_r. reflexivity.
Qed.
