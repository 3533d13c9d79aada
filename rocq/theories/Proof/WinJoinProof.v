(** The very text of two joined paths on Windows. *)
From Verif.Model Require Import Base Str Path StdPath OsPaths.
From Verif.Spec Require Import StrSpec WinSpec WinAnySpec WinJoinSpec.
From Verif.Proof Require Import StrFacts StdPathProof StdUnixProof StdParentProof WinPrefixProof WinDirProof WinUseProof WinAnyProof.

Lemma head_text h s t : starts (h ++ t) s t -> pre_text windows (h ++ t) = h.
Proof. intros S. apply (app_inv_tail t). symmetry. apply of_text. exact (proj2 (starts_of _ _ _ S)). Qed.
Lemma nowhere_reads q : nowhere q -> ~ leads q -> exists ws, reads q None false ws.
Proof. intros N L. eexists. now apply reads_here. Qed.
Lemma nowhere_top q : nowhere q -> leads q -> exists ws, reads q None true ws.
Proof. intros N L. eexists. now apply reads_top. Qed.
Lemma short_form base : ~ in_long_form base -> prefix_verbatim (comps_of windows base) = false.
Proof.
  intros N. destruct (reads_total base) as (v & r & ws & H). unfold prefix_verbatim. cbn [cs_prefix comps_of].
  rewrite (reads_prefix _ _ _ _ H). destruct v as [s|]; [|reflexivity]. cbn [option_map].
  destruct (px_verbatim (px_of s)) eqn:E; [|reflexivity]. apply px_long in E. destruct (reads_start _ _ _ _ H) as (t & S). elim N. exists s, t. auto.
Qed.
Lemma sealed_iff base :
  match cs_prefix (comps_of windows base) with
  | Some x => if (Nat.ltb 0 (px_len x) && Nat.eqb (px_len x) (length base) && px_drive x)%bool then false else negb (last_is_sep windows base)
  | None => negb (last_is_sep windows base)
  end = false <-> sealed base.
Proof.
  assert (L : last_is_sep windows base = true -> sealed base).
  { unfold last_is_sep. destruct base as [|c l _] using rev_ind; [constructor|]. rewrite rev_app_distr. cbn. intros K. apply sep_separates in K. now constructor. }
  cbn [cs_prefix comps_of]. split.
  - destruct (os_prefix windows base) as [x|] eqn:P; [|rewrite negb_false_iff; exact L].
    destruct (Nat.ltb 0 (px_len x) && Nat.eqb (px_len x) (length base) && px_drive x)%bool eqn:E; [|rewrite negb_false_iff; exact L].
    intros _. apply andb_prop in E as [E D]. apply andb_prop in E as [_ E]. apply Nat.eqb_eq in E.
    destruct (reads_total base) as (v & r & ws & H). assert (Q := reads_prefix _ _ _ _ H). rewrite P in Q. destruct v as [s|]; [|discriminate Q].
    injection Q as ->. apply px_is_drive in D. destruct (reads_start _ _ _ _ H) as (t & S).
    destruct S; try contradiction. cbn in E. destruct t; [now constructor|discriminate E].
  - intros S. assert (K : last_is_sep windows base = true \/ exists c, is_letter c /\ base = [c; ":"%char]).
    { destruct S as [|u k K|c Lc]; [now left|left|right; eauto]. unfold last_is_sep. rewrite rev_app_distr. cbn. now apply sep_separates. }
    destruct K as [-> |(c & Lc & ->)].
    + destruct (os_prefix windows base) as [x|]; [|reflexivity]. now destruct (_ && _)%bool.
    + assert (H := starts_drive c [] Lc). apply starts_of in H as [-> _]. reflexivity.
Qed.
Lemma joined_is base q x : joined base q x -> std_join windows base q = x.
Proof.
  intros J. destruct J as [base q s t S|h s t q S L N Lq|base q Nb N Lq|base q F N Lq Se|base q F N Lq Se|h s t r ws q rq wq S L Nq H Q C|h s t ws q wq S L Nq H Q C].
  - destruct (starts_of _ _ _ S) as [P _]. unfold std_join. rewrite P. cbn [option_map is_some]. now rewrite orb_true_r.
  - destruct (nowhere_top q N Lq) as (wq & Q). destruct (none_plain _ _ _ Q) as (Pq & Aq & Rq). unfold std_join. rewrite Pq, Aq, Rq, (verbatim_of _ _ _ S). cbn [is_some orb].
    assert (V : px_verbatim (px_of s) = false) by (destruct (px_verbatim (px_of s)) eqn:E; [now apply px_long in E|reflexivity]). rewrite V. cbn [andb].
    change (firstn (prefix_remaining (comps_of windows (h ++ t))) (h ++ t)) with (pre_text windows (h ++ t)). now rewrite (head_text h s t S).
  - destruct (nowhere_top q N Lq) as (wq & Q). destruct (none_plain _ _ _ Q) as (Pq & Aq & Rq). unfold std_join. rewrite Pq, Aq, Rq. cbn [is_some orb].
    rewrite short_form by (intros (s & t & S & _); exact (Nb s t S)). cbn [andb].
    destruct (none_of _ Nb) as [P _]. change (firstn (prefix_remaining (comps_of windows base)) base) with (pre_text windows base).
    unfold pre_text, prefix_len. cbn [cs_prefix comps_of]. rewrite P. reflexivity.
  - destruct (nowhere_reads q N Lq) as (wq & Q). destruct (none_plain _ _ _ Q) as (Pq & Aq & Rq). unfold std_join. rewrite Pq, Aq, Rq. cbn [is_some orb].
    assert ((prefix_verbatim (comps_of windows base) && negb (is_empty q))%bool = false) as ->.
    { destruct F as [F| ->]; [now rewrite short_form|apply andb_false_r]. }
    apply sealed_iff in Se. rewrite Se. reflexivity.
  - destruct (nowhere_reads q N Lq) as (wq & Q). destruct (none_plain _ _ _ Q) as (Pq & Aq & Rq). unfold std_join. rewrite Pq, Aq, Rq. cbn [is_some orb].
    assert ((prefix_verbatim (comps_of windows base) && negb (is_empty q))%bool = false) as ->.
    { destruct F as [F| ->]; [now rewrite short_form|apply andb_false_r]. }
    destruct (match cs_prefix (comps_of windows base) with Some _ => _ | None => _ end) eqn:E; [reflexivity|]. apply sealed_iff in E. contradiction.
  - rewrite (join_long_text _ s r ws q rq wq H L Q Nq), (head_text h s t S).
    assert ((r || rq || nonempty (onto (if rq then [] else ws) wq))%bool = true) as ->; [|reflexivity].
    destruct r, rq; try reflexivity. destruct C as [C|[C|C]]; try discriminate. now destruct (onto ws wq).
  - rewrite (join_long_text _ s false ws q false wq H L Q Nq), (head_text h s t S), C. cbn. apply app_nil_r.
Qed.
Lemma joined_total base q : exists x, joined base q x.
Proof.
  destruct (reads_total q) as (v & rq & wq & Q). destruct v as [s|].
  { destruct (reads_start _ _ _ _ Q) as (t & S). eexists. exact (joined_volume _ _ _ _ S). }
  assert (N : nowhere q) by (inversion Q; assumption).
  destruct (reads_total base) as (v & r & ws & H). destruct v as [s|].
  - destruct (reads_start _ _ _ _ H) as (t & S). destruct (starts_of _ _ _ S) as [_ T]. assert (E := of_text base t T).
    destruct (px_verbatim (px_of s)) eqn:V.
    + apply px_long in V. destruct q as [|c q].
      * assert (Lq : ~ leads []) by (intros (? & ? & [=] & _)).
        destruct (match cs_prefix (comps_of windows base) with Some x => if (Nat.ltb 0 (px_len x) && Nat.eqb (px_len x) (length base) && px_drive x)%bool then false else negb (last_is_sep windows base) | None => negb (last_is_sep windows base) end) eqn:K.
        -- eexists. apply joined_below; auto. intros Se. apply sealed_iff in Se. congruence.
        -- eexists. apply joined_sealed; auto. now apply sealed_iff.
      * rewrite E in *. set (h := pre_text windows base) in *. clearbody h.
        assert (D : (r = true \/ rq = true \/ onto ws wq <> []) \/ (r = false /\ rq = false /\ onto ws wq = [])).
        { destruct r; [auto|]. destruct rq; [auto|]. destruct (onto ws wq); [auto|]. left. right. right. discriminate. }
        destruct D as [D|(-> & -> & D)]; eexists; [eapply joined_long|eapply joined_bare]; eauto; discriminate.
    + assert (L : ~ long s) by (intros L; apply px_long in L; congruence).
      assert (F : ~ in_long_form base).
      { intros (s' & t' & S' & L'). apply L. assert (X := proj1 (starts_of _ _ _ S)). rewrite (proj1 (starts_of _ _ _ S')) in X. cbn in X. injection X as X. apply px_of_inj in X. now subst. }
      destruct (leads_dec q) as [Lq|Lq].
      * rewrite E in *. set (h := pre_text windows base) in *. clearbody h. eexists. eapply joined_root; eauto.
      * destruct (match cs_prefix (comps_of windows base) with Some x => if (Nat.ltb 0 (px_len x) && Nat.eqb (px_len x) (length base) && px_drive x)%bool then false else negb (last_is_sep windows base) | None => negb (last_is_sep windows base) end) eqn:K.
        -- eexists. apply joined_below; auto. intros Se. apply sealed_iff in Se. congruence.
        -- eexists. apply joined_sealed; auto. now apply sealed_iff.
  - assert (Nb : nowhere base) by (inversion H; assumption).
    assert (F : ~ in_long_form base) by (intros (s & t & S & _); exact (Nb s t S)).
    destruct (leads_dec q) as [Lq|Lq].
    * eexists. now apply joined_top.
    * destruct (match cs_prefix (comps_of windows base) with Some x => if (Nat.ltb 0 (px_len x) && Nat.eqb (px_len x) (length base) && px_drive x)%bool then false else negb (last_is_sep windows base) | None => negb (last_is_sep windows base) end) eqn:K.
      -- eexists. apply joined_below; auto. intros Se. apply sealed_iff in Se. congruence.
      -- eexists. apply joined_sealed; auto. now apply sealed_iff.
Qed.
