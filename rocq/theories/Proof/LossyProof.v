(** Lossy conversion to text. *)
From Verif.Model Require Import Base Str.
From Verif.Spec Require Import StrSpec Utf8Spec.
From Verif.Proof Require Import StrFacts Utf8Proof.

Inductive pshape : str -> Prop :=
| ps2 a : in_range 194 244 (nb a) = true -> pshape [a]
| ps3 a b : in_range 224 239 (nb a) = true -> second3 a b = true -> pshape [a; b]
| ps4 a b : in_range 240 244 (nb a) = true -> second4 a b = true -> pshape [a; b]
| ps5 a b c : in_range 240 244 (nb a) = true -> second4 a b = true -> cont c = true -> pshape [a; b; c].


Lemma some_second3 a : exists b, second3 a b = true.
Proof.
  destruct (N.eqb_spec (nb a) 224) as [E|E].
  - exists (ascii_of_N 160). apply second3_iff. rewrite nb_of by lia. lia.
  - exists (ascii_of_N 128). apply second3_iff. rewrite nb_of by lia. lia.
Qed.
Lemma some_second4 a : exists b, second4 a b = true.
Proof.
  destruct (N.eqb_spec (nb a) 240) as [E|E].
  - exists (ascii_of_N 144). apply second4_iff. rewrite nb_of by lia. lia.
  - exists (ascii_of_N 128). apply second4_iff. rewrite nb_of by lia. lia.
Qed.

Lemma cut_short_iff p : cut_short p <-> pshape p.
Proof.
  split.
  - intros (N & n & c & r & E & -> & R). assert (Sh : char_shape (p ++ r)) by (apply encodes_shape; eauto).
    destruct p as [|a p]; [easy|].
    assert (In_lead : forall q, char_shape ([a] ++ q) -> q <> [] -> in_range 194 244 (nb a) = true).
    { intros q Sq Q. inversion Sq; subst; [easy|rewrite in_range_iff in *; lia..]. }
    destruct p as [|b p]; [apply ps2; now apply (In_lead r)|].
    destruct p as [|d p].
    { inversion Sh as [x L Eq|x y A Bb Eq|x y z A Bb D Eq|x y z u A Bb D F Eq]; subst; [easy|now apply ps3|now apply ps4]. }
    destruct p as [|e p].
    { inversion Sh as [x L Eq|x y A Bb Eq|x y z A Bb D Eq|x y z u A Bb D F Eq]; subst; [easy|now apply ps5]. }
    exfalso. inversion Sh as [x L Eq|x y A Bb Eq|x y z A Bb D Eq|x y z u A Bb D F Eq].
    match goal with H : [] = _ ++ r |- _ => symmetry in H; apply app_eq_nil in H; destruct H; subst; easy end.
  - assert (K : forall p r, char_shape (p ++ r) -> p <> [] -> r <> [] -> cut_short p).
    { intros q r Sh Q R. split; [assumption|]. apply encodes_shape in Sh. destruct Sh as (n & E).
      exists n, (q ++ r), r. auto. }
    intros [a A|a b A Bb|a b A Bb|a b c A Bb C].
    + apply in_range_iff in A.
      destruct (N.le_gt_cases (nb a) 223); [|destruct (N.le_gt_cases (nb a) 239)].
      * apply (K [a] [ascii_of_N 128]); try discriminate. apply cs2; [apply in_range_iff; lia|reflexivity].
      * destruct (some_second3 a) as (b & Hb).
        apply (K [a] [b; ascii_of_N 128]); try discriminate. apply cs3; [apply in_range_iff; lia|assumption|reflexivity].
      * destruct (some_second4 a) as (b & Hb).
        apply (K [a] [b; ascii_of_N 128; ascii_of_N 128]); try discriminate.
        apply cs4; [apply in_range_iff; lia|assumption|reflexivity|reflexivity].
    + apply (K [a; b] [ascii_of_N 128]); try discriminate. now apply cs3.
    + apply (K [a; b] [ascii_of_N 128; ascii_of_N 128]); try discriminate. now apply cs4.
    + apply (K [a; b; c] [ascii_of_N 128]); try discriminate. now apply cs4.
Qed.
Lemma starts_iff s : starts_with_char s <-> exists c r, char_shape c /\ s = c ++ r.
Proof.
  split.
  - intros (n & c & r & E & ->). exists c, r. split; [apply encodes_shape; eauto|reflexivity].
  - intros (c & r & Sh & ->). apply encodes_shape in Sh. destruct Sh as (n & E). exists n, c, r. auto.
Qed.

(** The code is prefix free. *)
Lemma shape_prefix c c' r r' : char_shape c -> char_shape c' -> c ++ r = c' ++ r' -> c = c' /\ r = r'.
Proof.
  intros H H' E.
  destruct H as [x L|x y A Bb|x y z A Bb D|x y z u A Bb D F];
    destruct H' as [x' L'|x' y' A' Bb'|x' y' z' A' Bb' D'|x' y' z' u' A' Bb' D' F'];
    cbn in E; injection E; intros; subst; auto; exfalso; rewrite ?in_range_iff in *; lia.
Qed.
Lemma to_replace_unique p s p' s' : p ++ s = p' ++ s' -> to_replace p s -> to_replace p' s' -> p = p' /\ s = s'.
Proof.
  assert (K : forall p s p' s' : str, p ++ s = p' ++ s' -> length p < length p' ->
                exists q, q <> [] /\ p' = p ++ q /\ s = q ++ s').
  { clear. induction p as [|a p IH]; intros s p' s' E L; cbn in *.
    - exists p'. split; [now destruct p'|auto].
    - destruct p' as [|b p']; cbn in L; [lia|]. injection E as -> E.
      destruct (IH s p' s' E ltac:(lia)) as (q & Q & -> & ->). exists q. auto. }
  assert (J : forall p s p' s', p ++ s = p' ++ s' -> to_replace p s -> to_replace p' s' -> ~ length p < length p').
  { clear - K. intros p s p' s' E (N & H) (N' & H') L. destruct (K p s p' s' E L) as (q & Q & -> & ->).
    destruct H' as [(C' & _)|(L1 & _)].
    - destruct H as [(C & M)|(_ & M)]; [now apply (M q s')|]. apply (M (p ++ q) s'); [apply app_assoc|assumption].
    - destruct p as [|a p]; [|cbn in *; rewrite app_length in *; destruct q; [easy|cbn in *; lia]].
      destruct H as [(C & _)|(L0 & _)]; [now destruct C|discriminate]. }
  intros E H H'. assert (Len : length p = length p').
  { destruct (Nat.lt_trichotomy (length p) (length p')) as [L|[L|L]]; [|assumption|]; exfalso.
    - now apply (J p s p' s').
    - now apply (J p' s' p s). }
  clear - E Len. revert p' E Len. induction p as [|a p IH]; intros [|b p'] E Len; cbn in *; try discriminate; [auto|].
  injection E as -> E. destruct (IH p' E ltac:(lia)) as (-> & ->). auto.
Qed.

Lemma repaired_unique s t : repaired s t -> forall t', repaired s t' -> t = t'.
Proof.
  induction 1 as [|n c s t E H IH|p s t R H IH]; intros t' H'.
  - inversion H' as [|n c s t E H Eq|p s t R H Eq]; subst; [reflexivity| |].
    + destruct c; [|discriminate]. assert (Sh : char_shape []) by (apply encodes_shape; eauto). inversion Sh.
    + destruct p; [|discriminate]. destruct R as (_ & [((C & _) & _)|(L & _)]); [now destruct C|discriminate].
  - remember (c ++ s) as u eqn:Eu. destruct H' as [|n' c' s' t' E' H'|p' s' t' R' H'].
    + destruct c; [|discriminate]. assert (Sh : char_shape []) by (apply encodes_shape; eauto). inversion Sh.
    + destruct (shape_prefix c' c s' s) as (-> & ->); [apply encodes_shape; eauto..|assumption|]. f_equal. now apply IH.
    + exfalso. apply (proj1 R'). rewrite Eu. exists n, c, s. auto.
  - remember (p ++ s) as u eqn:Eu. destruct H' as [|n' c' s' t' E' H'|p' s' t' R' H'].
    + destruct p; [|discriminate]. destruct R as (_ & [((C & _) & _)|(L & _)]); [now destruct C|discriminate].
    + exfalso. apply (proj1 R). rewrite <- Eu. exists n', c', s'. auto.
    + destruct (to_replace_unique p' s' p s Eu R' R) as (-> & ->). f_equal. now apply IH.
Qed.

(** What the function replaces. *)
Lemma replace_lead a s :
  (forall c r, char_shape c -> a :: s <> c ++ r) ->
  (forall q r, s = q ++ r -> q <> [] -> ~ pshape (a :: q)) -> to_replace [a] s.
Proof.
  intros NC NP. split.
  - intros H. apply starts_iff in H. destruct H as (c & r & Sh & E). now apply (NC c r).
  - destruct (in_range 194 244 (nb a)) eqn:A.
    + left. split; [apply cut_short_iff; now constructor|]. intros q r E Q C. apply cut_short_iff in C. now apply (NP q r).
    + right. split; [reflexivity|]. intros q r E C. apply cut_short_iff in C.
      destruct q as [|b q]; [inversion C|]. injection E as -> E. destruct q as [|c q].
      * inversion C; subst; congruence.
      * apply (NP (c :: q) r); [assumption|discriminate|assumption].
Qed.
Lemma replace_more p s :
  pshape p -> (forall c r, char_shape c -> p ++ s <> c ++ r) ->
  (forall q r, s = q ++ r -> q <> [] -> ~ pshape (p ++ q)) -> to_replace p s.
Proof.
  intros Sh NC NP. split.
  - intros H. apply starts_iff in H. destruct H as (c & r & Sc & E). now apply (NC c r).
  - left. split; [now apply cut_short_iff|]. intros q r E Q C. apply cut_short_iff in C. now apply (NP q r).
Qed.

Ltac crush :=
  subst; repeat match goal with
  | H : [] <> [] |- _ => now destruct H
  | H : _ :: _ = _ :: _ |- _ => injection H; clear H; intros; subst
  | H : [] = _ ++ _ |- _ => symmetry in H; apply app_eq_nil in H; destruct H; subst
  | H : _ = [] ++ _ |- _ => cbn [app] in H
  | H : _ = (_ :: _) ++ _ |- _ => cbn [app] in H
  | H : (_ :: _) ++ _ = _ |- _ => cbn [app] in H
  | H : [] = _ :: _ |- _ => discriminate H
  | H : _ :: _ = [] |- _ => discriminate H
  | H : ?x = true, H' : ?x = false |- _ => congruence
  end; try (rewrite ?in_range_iff, ?range_false in *; exfalso; lia); try congruence.
Ltac no_char := let Sh := fresh in let E := fresh in
  intros ? ? Sh E; cbn [app] in E; destruct Sh; crush.
Ltac no_more := let E := fresh in let Q := fresh in let Sh := fresh in
  intros ? ? E Q Sh; inversion Sh; subst; crush.

Lemma lossy_repaired s : repaired s (lossy s).
Proof.
  induction s as [s IH] using strong_len_ind. destruct s as [|a t1]; [constructor|]. cbn [lossy].
  assert (CH : forall c s t, char_shape c -> repaired s t -> repaired (c ++ s) (c ++ t)).
  { intros c s t Sh H. apply encodes_shape in Sh. destruct Sh as (n & E). econstructor; eassumption. }
  assert (RP : forall p s, to_replace p s -> length s < S (length t1) -> repaired (p ++ s) (replacement ++ lossy s)).
  { intros p s H L. apply (repaired_bytes p s (lossy s) H). now apply IH. }
  destruct (N.ltb_spec (nb a) 128) as [A1|A1].
  { apply (CH [a]); [now constructor|]. apply IH. cbn. lia. }
  destruct (in_range 194 223 (nb a)) eqn:A2.
  { destruct t1 as [|b t2].
    - apply (RP [a] []); [|cbn; lia]. apply replace_lead; [no_char|no_more].
    - destruct (cont b) eqn:Cb.
      + apply (CH [a; b]); [now apply cs2|]. apply IH. cbn. lia.
      + apply (RP [a] (b :: t2)); [|cbn; lia]. apply replace_lead; [no_char|no_more]. }
  destruct (in_range 224 239 (nb a)) eqn:A3.
  { destruct t1 as [|b t2]; [apply (RP [a] []); [|cbn; lia]; apply replace_lead; [no_char|no_more]|].
    destruct (second3 a b) eqn:Cb.
    - destruct t2 as [|c t3].
      + apply (RP [a; b] []); [|cbn; lia]. apply replace_more; [now apply ps3|no_char|no_more].
      + destruct (cont c) eqn:Cc.
        * apply (CH [a; b; c]); [now apply cs3|]. apply IH. cbn. lia.
        * apply (RP [a; b] (c :: t3)); [|cbn; lia]. apply replace_more; [now apply ps3|no_char|no_more].
    - apply (RP [a] (b :: t2)); [|cbn; lia]. apply replace_lead; [no_char|no_more]. }
  destruct (in_range 240 244 (nb a)) eqn:A4.
  { destruct t1 as [|b t2]; [apply (RP [a] []); [|cbn; lia]; apply replace_lead; [no_char|no_more]|].
    destruct (second4 a b) eqn:Cb.
    - destruct t2 as [|c t3].
      + apply (RP [a; b] []); [|cbn; lia]. apply replace_more; [now apply ps4|no_char|no_more].
      + destruct (cont c) eqn:Cc.
        * destruct t3 as [|d t4].
          -- apply (RP [a; b; c] []); [|cbn; lia]. apply replace_more; [now apply ps5|no_char|no_more].
          -- destruct (cont d) eqn:Cd.
             ++ apply (CH [a; b; c; d]); [now apply cs4|]. apply IH. cbn. lia.
             ++ apply (RP [a; b; c] (d :: t4)); [|cbn; lia]. apply replace_more; [now apply ps5|no_char|no_more].
        * apply (RP [a; b] (c :: t3)); [|cbn; lia]. apply replace_more; [now apply ps4|no_char|no_more].
    - apply (RP [a] (b :: t2)); [|cbn; lia]. apply replace_lead; [no_char|no_more]. }
  apply (RP [a] t1); [|cbn; lia]. apply replace_lead; [no_char|no_more].
Qed.
Lemma lossy_iff s t : lossy s = t <-> repaired s t.
Proof.
  split; [intros <-; apply lossy_repaired|]. intros H. exact (repaired_unique _ _ (lossy_repaired s) _ H).
Qed.
Lemma repaired_utf8 s t : repaired s t -> utf8 t.
Proof.
  induction 1 as [|n c s t E _ IH|p s t _ _ IH]; [constructor|econstructor; eassumption|].
  apply (utf8_cons 65533); [|assumption].
  apply (encodes3 65533 15 63 61); lia.
Qed.
Lemma lossy_same s : lossy s = s <-> utf8 s.
Proof.
  split.
  - intros E. rewrite <- E. apply (repaired_utf8 s), lossy_repaired.
  - intros U. apply lossy_valid, utf8_valid_iff, U.
Qed.
