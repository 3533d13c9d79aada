(** Formatting macro calls: the loops over indices are what Spec/CodegenFileSpec.v describes. *)
From Coq Require Import Lia ZArith.
From Verif.Model Require Import Base Str Path CodegenFile.
From Verif.Spec Require Import StrSpec PathSpec TripleSpec CodegenFileSpec.
From Verif.Proof Require Import StrFacts PathFacts TripleProof RootProof CfgOutputProof.
Local Open Scope nat_scope.

Definition paren (c : ascii) : Prop := c = "("%char \/ c = ")"%char.

Lemma begins_iff w s : starts_with w s = true <-> begins w s.
Proof. apply starts_with_iff. Qed.
Lemma begins_dec w s : begins w s \/ ~ begins w s.
Proof.
  destruct (starts_with w s) eqn:E; [left; now apply begins_iff|right].
  intros H. apply begins_iff in H. congruence.
Qed.
Lemma begins_not w s : ~ begins w s -> starts_with w s = false.
Proof. intros H. destruct (starts_with w s) eqn:E; [apply begins_iff in E; contradiction|reflexivity]. Qed.
Lemma begins_yes w s : starts_with w (w ++ s) = true.
Proof. apply begins_iff. now exists s. Qed.

(** ** What the two loops do, over what is left of the text *)
Definition untouched (c : ascii) (s : str) : Prop := forall w w', tightened w w' -> ~ begins w (c :: s).
Inductive inner : nat -> str -> str -> str -> Prop :=
| inner_end d : inner d [] [] []
| inner_open d s o r : inner (S d) s o r -> inner d ("("%char :: s) ("("%char :: o) r
| inner_close d s o r : inner d s o r -> inner (S d) (")"%char :: s) (")"%char :: o) r
| inner_stop s : inner 0 (")"%char :: s) [] (")"%char :: s)
| inner_word d w w' s o r : tightened w w' -> inner d s o r -> inner d (w ++ s) (w' ++ o) r
| inner_char d c s o r : ~ paren c -> untouched c s -> inner d s o r -> inner d (c :: s) (c :: o) r.
Inductive outer : str -> str -> Prop :=
| outer_end : outer [] []
| outer_char c s s' : ~ begins (B "!(") (c :: s) -> outer s s' -> outer (c :: s) (c :: s')
| outer_call s o r r' : inner 0 s o r -> outer r r' -> outer (B "!(" ++ s) (B "!(" ++ o ++ r').

Lemma touched_dec c s : untouched c s \/ exists w w' t, tightened w w' /\ c :: s = w ++ t.
Proof.
  destruct (begins_dec (B "crate ::") (c :: s)) as [(t & H)|H1]; [right; exists (B "crate ::"), (B "crate::"), t; split; [left; auto|exact H]|].
  destruct (begins_dec (B " < ") (c :: s)) as [(t & H)|H2]; [right; exists (B " < "), (B "<"), t; split; [right; left; auto|exact H]|].
  destruct (begins_dec (B " >") (c :: s)) as [(t & H)|H3]; [right; exists (B " >"), (B ">"), t; split; [right; right; auto|exact H]|].
  left. intros w w' [[-> _]|[[-> _]|[-> _]]]; assumption.
Qed.
Lemma tightened_length w w' : tightened w w' -> length w' <= length w /\ 1 <= length w'.
Proof. intros [[-> ->]|[[-> ->]|[-> ->]]]; cbn; lia. Qed.
Lemma inner_total d s : exists o r, inner d s o r.
Proof.
  remember (length s) as n eqn:E. assert (L : length s <= n) by lia. clear E.
  revert d s L. induction n as [|n IH]; intros d s L.
  - destruct s; [|cbn in L; lia]. exists [], []. constructor.
  - destruct s as [|c s]; [exists [], []; constructor|]. cbn in L.
    destruct (Ascii.eqb c "(") eqn:E1; [apply Ascii.eqb_eq in E1; subst c|].
    { destruct (IH (S d) s) as (o & r & H); [lia|]. do 2 eexists. apply inner_open, H. }
    destruct (Ascii.eqb c ")") eqn:E2; [apply Ascii.eqb_eq in E2; subst c|].
    { destruct d as [|d]; [do 2 eexists; apply inner_stop|].
      destruct (IH d s) as (o & r & H); [lia|]. do 2 eexists. apply inner_close, H. }
    apply Ascii.eqb_neq in E1, E2.
    destruct (touched_dec c s) as [U|(w & w' & t & T & H)].
    + destruct (IH d s) as (o & r & H); [lia|]. do 2 eexists. apply inner_char; [intros [?|?]; contradiction|exact U|exact H].
    + destruct (tightened_length _ _ T) as [T1 T2]. assert (length (c :: s) = length w + length t) by (rewrite H; apply app_length). cbn in H0.
      destruct (IH d t) as (o & r & K); [lia|]. rewrite H. do 2 eexists. eapply inner_word; eassumption.
Qed.
Lemma inner_rest d s o r : inner d s o r -> (r = [] \/ exists t, r = ")"%char :: t) /\ length r <= length s.
Proof.
  induction 1; cbn; try (split; [tauto|lia]); try (split; [eauto|lia]); try (split; [tauto|rewrite ?app_length; lia]).
Qed.
Lemma outer_total s : exists s', outer s s'.
Proof.
  remember (length s) as n eqn:E. assert (L : length s <= n) by lia. clear E.
  revert s L. induction n as [|n IH]; intros s L.
  - destruct s; [|cbn in L; lia]. exists []. constructor.
  - destruct s as [|c s]; [exists []; constructor|].
    destruct (begins_dec (B "!(") (c :: s)) as [(t & H)|H].
    + destruct (inner_total 0 t) as (o & r & K). assert (R := proj2 (inner_rest _ _ _ _ K)).
      rewrite H in L |- *. change (B "!(" ++ t) with ("!"%char :: "("%char :: t) in L. cbn in L. destruct (IH r) as (r' & K'); [lia|].
      eexists. eapply outer_call; eassumption.
    + cbn in L. destruct (IH s) as (s' & K); [lia|]. eexists. apply outer_char; eassumption.
Qed.

(** ** The loops do that *)
Lemma skipn_pre (a s : str) : skipn (length a) (a ++ s) = s.
Proof. rewrite skipn_app, skipn_all, Nat.sub_diag. reflexivity. Qed.
Lemma firstn_pre (a s : str) : firstn (length a) (a ++ s) = a.
Proof. rewrite firstn_app, firstn_all, Nat.sub_diag. cbn. apply app_nil_r. Qed.
Lemma bytes_from_pre {E} (a s : str) : bytes_from (E := E) (a ++ s) (length a) = Ok s.
Proof. unfold bytes_from. rewrite skipn_pre. destruct (Nat.leb_spec (length a) (length (a ++ s))); [reflexivity|rewrite app_length in *; lia]. Qed.
Lemma nth_pre (a s : str) : nth_error (a ++ s) (length a) = match s with [] => None | c :: _ => Some c end.
Proof. rewrite nth_error_app2, Nat.sub_diag by lia. now destruct s. Qed.
Lemma replace_no {E} (a s needle new : str) : ~ begins needle s -> replace (E := E) (a ++ s) (length a) needle new = Ok (a ++ s, length a).
Proof. intros H. unfold replace. rewrite bytes_from_pre. cbn. now rewrite begins_not. Qed.
Lemma replace_yes {E} (a s needle new : str) :
  replace (E := E) (a ++ needle ++ s) (length a) needle new = Ok (a ++ new ++ s, length a + length new - 1).
Proof.
  unfold replace. rewrite bytes_from_pre. cbn. rewrite begins_yes, firstn_pre.
  replace (length a + length needle) with (length (a ++ needle)) by apply app_length. now rewrite (app_assoc a needle s), skipn_pre.
Qed.

Definition in_range_of (d : nat) (s : str) : Prop := (Z.of_nat (d + length s) < 2147483648)%Z.

Lemma inner_run {E} pr d s o r : inner d s o r -> in_range_of d s -> forall fuel pre, length s < fuel ->
  in_macro (E := E) pr fuel (pre ++ s) (length pre) (Z.of_nat d) = Ok (pre ++ o ++ r, length pre + length o).
Proof.
  intros I. induction I; intros R fuel pre L; (destruct fuel as [|fuel]; [lia|]); cbn [in_macro]; rewrite nth_pre.
  - now rewrite Nat.add_0_r.
  - cbn [length] in *. rewrite Ascii.eqb_refl. unfold in_range_of in *. cbn [length] in R.
    assert (C : @count_up E pr (Z.of_nat d) = Ok (Z.of_nat (S d))).
    { unfold count_up, i32_top. destruct (Z.eqb_spec (Z.of_nat d) 2147483647); [lia|]. f_equal. lia. }
    rewrite C. cbn [bind].
    replace (pre ++ "("%char :: s) with ((pre ++ ["("%char]) ++ s) by now rewrite <- app_assoc.
    replace (length pre + 1) with (length (pre ++ ["("%char])) by (rewrite app_length; reflexivity).
    rewrite IHI by (lia). rewrite <- app_assoc, app_length. cbn. f_equal. f_equal. lia.
  - cbn [length] in *. change (Ascii.eqb ")" "(") with false. rewrite Ascii.eqb_refl. unfold in_range_of in *. cbn [length] in R.
    destruct (Z.eqb_spec (Z.of_nat (S d)) 0); [lia|].
    assert (C : @count_down E pr (Z.of_nat (S d)) = Ok (Z.of_nat d)).
    { unfold count_down, i32_top. destruct (Z.eqb_spec (Z.of_nat (S d)) (- 2147483647 - 1)); [lia|]. replace (Z.of_nat (S d) - 1)%Z with (Z.of_nat d) by lia. reflexivity. }
    rewrite C. cbn [bind].
    replace (pre ++ ")"%char :: s) with ((pre ++ [")"%char]) ++ s) by now rewrite <- app_assoc.
    replace (length pre + 1) with (length (pre ++ [")"%char])) by (rewrite app_length; reflexivity).
    rewrite IHI by (lia). rewrite <- app_assoc, app_length. cbn. f_equal. f_equal. lia.
  - change (Ascii.eqb ")" "(") with false. rewrite Ascii.eqb_refl. cbn. now rewrite Nat.add_0_r.
  - assert (W := tightened_length _ _ H). rewrite app_length in L. unfold in_range_of in *. rewrite app_length in R.
    assert (N : forall needle c t, ~ begins needle (c :: t) <-> starts_with needle (c :: t) = false).
    { intros. split; [apply begins_not|]. intros S B. apply begins_iff in B. congruence. }
    assert (Go : forall last pre' , w' = pre' ++ [last] ->
      (exists c t, w = c :: t /\ Ascii.eqb c "(" = false /\ Ascii.eqb c ")" = false) /\
      (r1 <- replace (E := E) (pre ++ w ++ s) (length pre) (B "crate ::") (B "crate::") ;; let '(bytes, i) := r1 in
       r2 <- replace bytes i (B " < ") (B "<") ;; let '(bytes, i) := r2 in
       replace bytes i (B " >") (B ">")) = Ok (pre ++ w' ++ s, length (pre ++ pre'))).
    { intros last pre' P. destruct H as [[-> ->]|[[-> ->]|[-> ->]]].
      - split; [do 2 eexists; split; [reflexivity|split; reflexivity]|]. rewrite replace_yes. cbn [bind].
        assert (pre' = B "crate:") as -> by (apply app_inj_tail in P as [<- _] || (change (B "crate::") with (B "crate:" ++ [":"%char]) in P; apply app_inj_tail in P as [<- _]); reflexivity).
        replace (length pre + length (B "crate::") - 1) with (length (pre ++ B "crate:")) by (rewrite app_length; cbn; lia).
        replace (pre ++ B "crate::" ++ s) with ((pre ++ B "crate:") ++ ":"%char :: s) by (rewrite <- app_assoc; reflexivity).
        rewrite replace_no by (intros (t & [= ])). cbn [bind]. rewrite replace_no by (intros (t & [= ])). reflexivity.
      - split; [do 2 eexists; split; [reflexivity|split; reflexivity]|].
        assert (pre' = []) as -> by (change (B "<") with ([] ++ ["<"%char]) in P; apply app_inj_tail in P as [<- _]; reflexivity).
        rewrite replace_no by (intros (t & [= ])). cbn [bind]. rewrite replace_yes. cbn [bind].
        replace (length pre + length (B "<") - 1) with (length pre) by (cbn; lia).
        rewrite replace_no by (intros (t & [= ])). now rewrite app_nil_r.
      - split; [do 2 eexists; split; [reflexivity|split; reflexivity]|].
        assert (pre' = []) as -> by (change (B ">") with ([] ++ [">"%char]) in P; apply app_inj_tail in P as [<- _]; reflexivity).
        rewrite replace_no by (intros (t & [= ])). cbn [bind]. rewrite replace_no by (intros (t & [= ])). cbn [bind].
        rewrite replace_yes. rewrite app_nil_r. f_equal. f_equal. cbn. lia. }
    destruct (exists_last (l := w')) as (pre' & last & P); [destruct w'; [cbn in W; lia|discriminate]|].
    destruct (Go last pre' P) as ((c & t & Ew & E1 & E2) & G). rewrite Ew. cbn [app]. rewrite E1, E2.
    rewrite Ew in G. cbn [app] in G.
    destruct (replace (pre ++ c :: t ++ s) (length pre) (B "crate ::") (B "crate::")) as [[b1 i1]| |]; try discriminate G. cbn [bind] in G |- *.
    destruct (replace b1 i1 (B " < ") (B "<")) as [[b2 i2]| |]; try discriminate G. cbn [bind] in G |- *.
    rewrite G. cbn [bind]. rewrite P.
    replace (length (pre ++ pre') + 1) with (length (pre ++ pre' ++ [last])) by (rewrite !app_length; cbn; lia).
    replace (pre ++ (pre' ++ [last]) ++ s) with ((pre ++ pre' ++ [last]) ++ s) by now rewrite <- !app_assoc.
    rewrite IHI; [|lia|lia]. rewrite !app_length. rewrite <- !app_assoc. f_equal. f_equal. lia.
  - assert (Ascii.eqb c "(" = false) as -> by (apply Ascii.eqb_neq; intros ->; apply H; left; reflexivity).
    assert (Ascii.eqb c ")" = false) as -> by (apply Ascii.eqb_neq; intros ->; apply H; right; reflexivity).
    rewrite replace_no by (apply (H0 _ (B "crate::")); left; auto). cbn [bind].
    rewrite replace_no by (apply (H0 _ (B "<")); right; left; auto). cbn [bind].
    rewrite replace_no by (apply (H0 _ (B ">")); right; right; auto). cbn [bind].
    cbn [length] in *. unfold in_range_of in *. cbn [length] in R.
    replace (pre ++ c :: s) with ((pre ++ [c]) ++ s) by now rewrite <- app_assoc.
    replace (length pre + 1) with (length (pre ++ [c])) by (rewrite app_length; reflexivity).
    rewrite IHI by lia. rewrite <- app_assoc, app_length. cbn. f_equal. f_equal. lia.
Qed.
Lemma outer_run {E} pr s s' : outer s s' -> in_range_of 0 s -> forall fuel pre, length s < fuel ->
  format_from (E := E) pr fuel (pre ++ s) (length pre) = Ok (pre ++ s').
Proof.
  intros O. unfold in_range_of. cbn [plus]. induction O as [|c s s' B O IH|s o r r' I O IH]; intros R fuel pre L; (destruct fuel as [|fuel]; [lia|]); cbn [format_from].
  - rewrite app_nil_r. now rewrite Nat.ltb_irrefl.
  - destruct (Nat.ltb_spec (length pre) (length (pre ++ c :: s))); [|rewrite app_length in *; cbn in *; lia].
    rewrite bytes_from_pre. cbn [bind]. rewrite begins_not by assumption. cbn [length] in *.
    replace (pre ++ c :: s) with ((pre ++ [c]) ++ s) by now rewrite <- app_assoc.
    replace (length pre + 1) with (length (pre ++ [c])) by (rewrite app_length; reflexivity).
    rewrite IH by lia. now rewrite <- app_assoc.
  - rewrite app_length in L, R. change (length (B "!(")) with 2 in L, R.
    destruct (Nat.ltb_spec (length pre) (length (pre ++ B "!(" ++ s))); [|rewrite !app_length in *; change (length (B "!(")) with 2 in *; lia].
    rewrite bytes_from_pre. cbn [bind]. rewrite begins_yes.
    replace (length pre + 2) with (length (pre ++ B "!(")) by (rewrite app_length; reflexivity).
    rewrite app_assoc. change 0%Z with (Z.of_nat 0). rewrite (inner_run pr 0 s o r I) by (unfold in_range_of; cbn [plus]; lia). cbn [bind].
    assert (Q := proj2 (inner_rest _ _ _ _ I)).
    rewrite (app_assoc (pre ++ B "!(") o r).
    replace (length (pre ++ B "!(") + length o) with (length ((pre ++ B "!(") ++ o)) by apply app_length.
    rewrite IH by lia. now rewrite <- !app_assoc.
Qed.
Theorem format_run {E} pr s s' : outer s s' -> in_range_of 0 s -> format_macros (E := E) pr s = Ok s'.
Proof. intros O R. unfold format_macros. apply (outer_run pr s s' O R (S (length s)) []). lia. Qed.

(** ** Words do not reach over parentheses *)
Definition no_paren (w : str) : Prop := forall c, In c w -> ~ paren c.
Lemma tightened_words w w' : tightened w w' -> no_paren w /\ no_paren w'.
Proof.
  intros T. assert (forall l, forallb (fun c => negb (Ascii.eqb c "(" || Ascii.eqb c ")")) l = true -> no_paren l) as K.
  { intros l H c I [-> | ->]; rewrite forallb_forall in H; specialize (H _ I); discriminate H. }
  destruct T as [[-> ->]|[[-> ->]|[-> ->]]]; split; apply K; reflexivity.
Qed.
Lemma word_before w (u s t : str) p : no_paren w -> paren p -> w ++ u = s ++ p :: t -> exists v, s = w ++ v /\ u = v ++ p :: t.
Proof.
  intros N P. revert s. induction w as [|c w IH]; intros s H.
  - exists s. split; [reflexivity|exact H].
  - destruct s as [|a s]; cbn in H; injection H as -> H.
    + exfalso. apply (N p); [now left|exact P].
    + destruct (IH (fun x I => N x (or_intror I)) s H) as (v & -> & K). now exists v.
Qed.
Lemma untouched_before c s t p : paren p -> untouched c s <-> untouched c (s ++ p :: t).
Proof.
  intros P. split; intros U w w' T (u & H); assert (N := proj1 (tightened_words _ _ T)).
  - change (c :: s ++ p :: t) with ((c :: s) ++ p :: t) in H. symmetry in H. apply word_before in H as (v & H & _); [|assumption|assumption].
    apply (U _ _ T). now exists v.
  - apply (U _ _ T). exists (u ++ p :: t). rewrite app_assoc, <- H. reflexivity.
Qed.
Lemma paren_untouched p s : paren p -> untouched p s.
Proof.
  intros P w w' T (u & H). assert (N := proj1 (tightened_words _ _ T)). destruct w as [|a w].
  - destruct T as [[T _]|[[T _]|[T _]]]; discriminate T.
  - injection H as -> _. apply (N a); [now left|exact P].
Qed.

(** ** Scanning and balance *)
(** [d] parentheses are still to be closed. *)
Inductive scan : nat -> str -> Prop :=
| scan_nil : scan 0 []
| scan_open d s : scan (S d) s -> scan d ("("%char :: s)
| scan_close d s : scan d s -> scan (S d) (")"%char :: s)
| scan_char d c s : ~ paren c -> scan d s -> scan d (c :: s).

Lemma scan_balanced_app b d s : balanced b -> scan d s -> scan d (b ++ s).
Proof.
  intros B. revert d s. induction B as [|c b H H' B IH|b b' B IH B' IH']; intros d s S; cbn.
  - exact S.
  - apply scan_char; [intros [?|?]; contradiction|]. now apply IH.
  - apply scan_open. rewrite <- app_assoc. cbn. apply IH, scan_close, IH', S.
Qed.
Lemma scan_split n : forall d s, length s <= n -> scan d s ->
  match d with 0 => balanced s | S d => exists b t, balanced b /\ s = b ++ ")"%char :: t /\ scan d t end.
Proof.
  induction n as [|n IH]; intros d s L S.
  - destruct s; [|cbn in L; lia]. inversion S; subst. constructor.
  - inversion S as [|d0 s0 S0|d0 s0 S0|d0 c s0 P S0]; subst; cbn in L.
    + constructor.
    + destruct (IH (Datatypes.S d) s0) as (b & t & B & -> & St); [lia|assumption|].
      rewrite app_length in L. cbn in L. assert (K := IH d t ltac:(lia) St). destruct d as [|d].
      * now apply balanced_pair.
      * destruct K as (b' & t' & B' & -> & St'). exists ("("%char :: b ++ ")"%char :: b'), t'. split; [now apply balanced_pair|].
        split; [|assumption]. cbn. rewrite <- app_assoc. reflexivity.
    + exists [], s0. repeat split; [constructor|assumption].
    + assert (K := IH d s0 ltac:(lia) S0). assert (C : c <> "("%char /\ c <> ")"%char) by (split; intros ->; apply P; [left|right]; reflexivity).
      destruct d as [|d]; [now apply balanced_char|].
      destruct K as (b & t & B & -> & St). exists (c :: b), t. split; [now apply balanced_char|]. now split.
Qed.
Lemma scan_balanced s : scan 0 s <-> balanced s.
Proof.
  split; [exact (fun S => scan_split (length s) 0 s (le_n _) S)|].
  intros B. rewrite <- (app_nil_r s). apply scan_balanced_app; [exact B|constructor].
Qed.
Lemma scan_word w d s : no_paren w -> scan d s -> scan d (w ++ s).
Proof. induction w as [|c w IH]; intros N S; cbn; [exact S|]. apply scan_char; [apply N; now left|]. apply IH; [|exact S]. intros x I. apply N. now right. Qed.

(** ** From the loops to the description *)
Lemma inner_tight d s o r : inner d s o r -> exists body, s = body ++ r /\ tight body o /\ (r <> [] -> scan d body).
Proof.
  induction 1 as [d|d s o r I (b & -> & T & S)|d s o r I (b & -> & T & S)|s|d w w' s o r W I (b & -> & T & S)|d c s o r P U I (b & -> & T & S)].
  - exists []. repeat split; [constructor|contradiction].
  - exists ("("%char :: b). split; [reflexivity|]. split; [|intros R; apply scan_open, S, R].
    apply tight_char; [apply paren_untouched; now left|exact T].
  - exists (")"%char :: b). split; [reflexivity|]. split; [|intros R; apply scan_close, S, R].
    apply tight_char; [apply paren_untouched; now right|exact T].
  - exists []. repeat split; constructor.
  - exists (w ++ b). split; [now rewrite app_assoc|]. split; [now apply tight_word|].
    intros R. apply scan_word; [exact (proj1 (tightened_words _ _ W))|exact (S R)].
  - exists (c :: b). split; [reflexivity|]. split; [|intros R; now apply scan_char, S].
    apply tight_char; [|exact T]. destruct (inner_rest _ _ _ _ I) as [[->|(t & ->)] _]; [now rewrite app_nil_r in U|].
    apply (untouched_before c b t ")"%char); [now right|exact U].
Qed.

(** A word is read in one way. *)
Lemma tightened_unique w w' v v' s t : tightened w w' -> tightened v v' -> w ++ s = v ++ t -> w = v /\ w' = v' /\ s = t.
Proof.
  intros [[-> ->]|[[-> ->]|[-> ->]]] [[-> ->]|[[-> ->]|[-> ->]]] H; try discriminate H.
  all: apply app_inv_head in H; auto.
Qed.
Lemma tightened_cons w w' : tightened w w' -> exists c t, w = c :: t.
Proof. intros [[-> _]|[[-> _]|[-> _]]]; do 2 eexists; reflexivity. Qed.
Lemma tight_unique s o : tight s o -> forall o', tight s o' -> o = o'.
Proof.
  induction 1 as [|w w' s o W T IH|c s o U T IH]; intros o' T'.
  - inversion T' as [|v v' t x V X E|]; [reflexivity|]. destruct (tightened_cons _ _ V) as (c & u & ->). discriminate E.
  - inversion T' as [E|v v' t x V X E|c t x U X E].
    + destruct (tightened_cons _ _ W) as (c & u & ->). discriminate E.
    + destruct (tightened_unique _ _ _ _ _ _ V W E) as (-> & -> & ->). f_equal. now apply IH.
    + exfalso. apply (U _ _ W). now exists s.
  - inversion T' as [|v v' t x V X E|c' t x U' X E]; subst.
    + exfalso. apply (U _ _ V). now exists t.
    + f_equal. now apply IH.
Qed.
Lemma tight_total s : exists o, tight s o.
Proof.
  remember (length s) as n eqn:E. assert (L : length s <= n) by lia. clear E.
  revert s L. induction n as [|n IH]; intros s L.
  - destruct s; [|cbn in L; lia]. exists []. constructor.
  - destruct s as [|c s]; [exists []; constructor|]. destruct (touched_dec c s) as [U|(w & w' & t & T & H)].
    + destruct (IH s) as (o & H); [cbn in L; lia|]. exists (c :: o). now apply tight_char.
    + destruct (tightened_length _ _ T) as [T1 T2]. assert (length (c :: s) = length w + length t) by (rewrite H; apply app_length).
      destruct (IH t) as (o & K); [lia|]. rewrite H. exists (w' ++ o). now apply tight_word.
Qed.
(** Texts on both sides of a parenthesis. *)
Lemma tight_app_paren s p t o : paren p -> tight (s ++ p :: t) o ->
  exists o1 o2, o = o1 ++ p :: o2 /\ tight s o1 /\ tight t o2.
Proof.
  intros P T. destruct (tight_total s) as (o1 & T1). destruct (tight_total t) as (o2 & T2). exists o1, o2. split; [|split; assumption].
  apply (tight_unique _ _ T). clear T. induction T1 as [|w w' s o1 W T1 IH|c s o1 U T1 IH]; cbn.
  - apply tight_char; [now apply paren_untouched|exact T2].
  - rewrite <- !app_assoc. now apply tight_word.
  - apply tight_char; [|exact IH]. now apply (untouched_before c s t p).
Qed.
Lemma inner_balanced b o : tight b o -> balanced b -> forall d t o2 r, inner d (")"%char :: t) o2 r -> inner d (b ++ ")"%char :: t) (o ++ o2) r.
Proof.
  intros T B. apply scan_balanced in B.
  assert (G : forall s o, tight s o -> forall e, scan e s -> forall d t o2 r, inner d (")"%char :: t) o2 r -> inner (e + d) (s ++ ")"%char :: t) (o ++ o2) r).
  { clear. induction 1 as [|w w' s o W T IH|c s o U T IH]; intros e S d t o2 r I.
    - inversion S; subst. exact I.
    - rewrite <- !app_assoc. apply inner_word; [exact W|]. apply (IH e); [|exact I].
      assert (N := proj1 (tightened_words _ _ W)). clear - S N. revert N S. induction w as [|c w IHw]; intros N S; cbn in S; [exact S|].
      apply IHw; [intros x I; apply N; now right|].
      inversion S as [|d0 s0 S0|d0 s0 S0|d0 c0 s0 P S0]; subst; try (exfalso; refine (N _ (or_introl eq_refl) _); first [now left|now right]). exact S0.
    - cbn. inversion S as [|d0 s0 S0|d0 s0 S0|d0 c0 s0 P S0]; subst.
      + apply inner_open. exact (IH (Datatypes.S e) S0 d t o2 r I).
      + cbn. apply inner_close. exact (IH d0 S0 d t o2 r I).
      + apply inner_char; [exact P| |exact (IH e S0 d t o2 r I)]. apply (untouched_before c s t ")"%char); [now right|exact U]. }
  intros d t o2 r I. exact (G b o T 0 B d t o2 r I).
Qed.
Lemma inner_unclosed s o : tight s o -> (forall b t, s = b ++ B ")" ++ t -> ~ balanced b) -> inner 0 s o [].
Proof.
  intros T N. destruct (inner_total 0 s) as (o' & r & I). destruct (inner_rest _ _ _ _ I) as [R _].
  destruct (inner_tight _ _ _ _ I) as (b & E & T' & S). destruct R as [->|(t & ->)].
  - rewrite app_nil_r in E. subst b. now rewrite (tight_unique _ _ T _ T').
  - exfalso. apply (N b t E). apply scan_balanced, S. discriminate.
Qed.
Lemma inner_nil_unclosed s o : inner 0 s o [] -> forall b t, s = b ++ B ")" ++ t -> ~ balanced b.
Proof.
  intros I b t -> Bb. destruct (tight_total b) as (ob & Tb).
  assert (K := inner_balanced b ob Tb Bb 0 t [] (")"%char :: t) (inner_stop t)). rewrite app_nil_r in K.
  (* the loop gives one result *)
  assert (D : forall d s o r, inner d s o r -> forall o' r', inner d s o' r' -> o = o' /\ r = r').
  { clear. induction 1 as [d|d s o r I IH|d s o r I IH|s|d w w' s o r W I IH|d c s o r P U I IH]; intros o' r' I'.
    - inversion I' as [| | | |d0 v v' s0 o0 r0 V I0 E1 E2 E3|]; subst; [auto|]. destruct (tightened_cons _ _ V) as (? & ? & ->). discriminate E2.
    - inversion I' as [|d0 s0 o0 r0 I0| | |d0 v v' s0 o0 r0 V I0 E1 E2 E3|d0 c s0 o0 r0 P U I0]; subst.
      + destruct (IH _ _ I0) as [-> ->]. auto.
      + exfalso. apply (paren_untouched "("%char s (or_introl eq_refl) _ _ V). exists s0. symmetry. exact E2.
      + exfalso. apply P. now left.
    - inversion I' as [| |d0 s0 o0 r0 I0| |d0 v v' s0 o0 r0 V I0 E1 E2 E3|d0 c s0 o0 r0 P U I0]; subst.
      + destruct (IH _ _ I0) as [-> ->]. auto.
      + exfalso. apply (paren_untouched ")"%char s (or_intror eq_refl) _ _ V). exists s0. symmetry. exact E2.
      + exfalso. apply P. now right.
    - inversion I' as [| | | |d0 v v' s0 o0 r0 V I0 E1 E2 E3|d0 c s0 o0 r0 P U I0]; subst.
      + auto.
      + exfalso. apply (paren_untouched ")"%char s (or_intror eq_refl) _ _ V). exists s0. symmetry. exact E2.
      + exfalso. apply P. now right.
    - inversion I' as [d0 E1 E2 E3|d0 s0 o0 r0 I0 E1 E2|d0 s0 o0 r0 I0 E1 E2|s0 E1 E2|d0 v v' s0 o0 r0 V I0 E1 E2 E3|d0 c s0 o0 r0 P U I0 E1 E2].
      + destruct (tightened_cons _ _ W) as (? & ? & ->). discriminate E2.
      + exfalso. apply (paren_untouched "("%char s0 (or_introl eq_refl) _ _ W). exists s. exact E2.
      + exfalso. apply (paren_untouched ")"%char s0 (or_intror eq_refl) _ _ W). exists s. exact E2.
      + exfalso. apply (paren_untouched ")"%char s0 (or_intror eq_refl) _ _ W). exists s. exact E2.
      + destruct (tightened_unique _ _ _ _ _ _ V W E2) as (-> & -> & ->). destruct (IH _ _ I0) as [-> ->]. auto.
      + exfalso. apply (U _ _ W). exists s. exact E2.
    - inversion I' as [|d0 s0 o0 r0 I0| d0 s0 o0 r0 I0|s0|d0 v v' s0 o0 r0 V I0 E1 E2 E3|d0 c' s0 o0 r0 P' U' I0]; subst.
      + exfalso. apply P. now left.
      + exfalso. apply P. now right.
      + exfalso. apply P. now right.
      + exfalso. apply (U _ _ V). exists s0. symmetry. exact E2.
      + destruct (IH _ _ I0) as [-> ->]. auto. }
  destruct (D _ _ _ _ I _ _ K) as [_ H]. discriminate H.
Qed.

Lemma formatted_cons c s s' : ~ begins (B "!(") (c :: s) -> formatted s s' -> formatted (c :: s) (c :: s').
Proof.
  intros N F.
  assert (K : forall a rest, ~ begins (B "!(") (c :: a ++ rest) -> ~ within (B "!(") a -> ~ within (B "!(") (c :: a)).
  { intros a rest Nb Nw (x & y & H). destruct x as [|x0 x].
    - apply Nb. exists (y ++ rest). change (c :: a ++ rest) with ((c :: a) ++ rest). rewrite H. cbn [app]. now rewrite <- app_assoc.
    - injection H as _ H. apply Nw. now exists x, y. }
  destruct F as [s H|a body body' s s' H Bb T F|a body body' H Ub T].
  - apply formatted_plain. intros (x & y & E). destruct x as [|x0 x]; [apply N; now exists y|]. injection E as _ E. apply H. now exists x, y.
  - apply (formatted_call (c :: a) body body' s s'); [|assumption..]. exact (K _ _ N H).
  - apply (formatted_open (c :: a) body body'); [|assumption..]. exact (K _ _ N H).
Qed.
Lemma outer_formatted s s' : outer s s' -> formatted s s'.
Proof.
  remember (length s) as n eqn:E. assert (L : length s <= n) by lia. clear E.
  revert s s' L. induction n as [|n IH]; intros s s' L O.
  - destruct s; [|cbn in L; lia]. inversion O; subst. apply formatted_plain. intros (x & y & H). destruct x; discriminate H.
  - inversion O as [|c t t' N O'|t o r r' I O']; subst.
    + apply formatted_plain. intros (x & y & H). destruct x; discriminate H.
    + apply formatted_cons; [exact N|]. apply IH; [cbn in L; lia|exact O'].
    + destruct (inner_tight _ _ _ _ I) as (b & -> & T & S). destruct (inner_rest _ _ _ _ I) as [[->|(t & ->)] Len].
      * inversion O'; subst. rewrite !app_nil_r. rewrite app_nil_r in I. apply (formatted_open [] b o); [|exact (inner_nil_unclosed _ _ I)|exact T].
        intros (x & y & H). destruct x; discriminate H.
      * inversion O' as [|c u t' N O''|]; subst. apply (formatted_call [] b o t t'); [|apply scan_balanced, S; discriminate|exact T|].
        -- intros (x & y & H). destruct x; discriminate H.
        -- apply IH; [|exact O'']. rewrite !app_length in L. cbn in L. lia.
Qed.
Lemma outer_plain a s s' : ~ within (B "!(") a -> outer (B "!(" ++ s) s' -> outer (a ++ B "!(" ++ s) (a ++ s').
Proof.
  intros N O. induction a as [|c a IH]; [exact O|]. cbn [app]. apply outer_char.
  - intros (t & H). destruct a as [|a0 a].
    + cbn in H. injection H as _ H. discriminate H.
    + injection H as -> -> _. apply N. now exists [], a.
  - apply IH. intros (x & y & ->). apply N. now exists (c :: x), y.
Qed.
Lemma formatted_outer s s' : formatted s s' -> outer s s'.
Proof.
  induction 1 as [s H|a body body' s s' H Bb T F IH|a body body' H Ub T].
  - induction s as [|c s IH]; [constructor|]. apply outer_char.
    + intros (t & E). apply H. now exists [], t.
    + apply IH. intros (x & y & ->). apply H. now exists (c :: x), y.
  - apply outer_plain; [exact H|]. apply (outer_call (body ++ B ")" ++ s) body' (")"%char :: s) (")"%char :: s')).
    + assert (K := inner_balanced body body' T Bb 0 s [] (")"%char :: s) (inner_stop s)). rewrite app_nil_r in K. exact K.
    + apply outer_char; [|exact IH]. intros (t & E). discriminate E.
  - apply outer_plain; [exact H|]. assert (K := outer_call body body' [] [] (inner_unclosed _ _ T Ub) outer_end). rewrite app_nil_r in K. exact K.
Qed.

Theorem format_spec {E} pr s s' : (Z.of_nat (length s) < 2147483648)%Z ->
  format_macros (E := E) pr s = Ok s' <-> formatted s s'.
Proof.
  intros R. split.
  - intros F. destruct (outer_total s) as (t & O). assert (K := format_run (E := E) pr s t O R). rewrite K in F. injection F as <-.
    now apply outer_formatted.
  - intros F. apply format_run; [now apply formatted_outer|exact R].
Qed.
Lemma format_total {E} pr s : (Z.of_nat (length s) < 2147483648)%Z -> exists s', format_macros (E := E) pr s = Ok s'.
Proof. intros R. destruct (outer_total s) as (t & O). exists t. now apply format_run. Qed.

(** ** What follows *)
Lemma no_spaces_app a b : no_spaces (a ++ b) = no_spaces a ++ no_spaces b.
Proof. apply filter_app. Qed.
Lemma tight_spaces s o : tight s o -> no_spaces o = no_spaces s.
Proof.
  induction 1 as [|w w' s o W T IH|c s o U T IH].
  - reflexivity.
  - rewrite !no_spaces_app, IH. f_equal. destruct W as [[-> ->]|[[-> ->]|[-> ->]]]; reflexivity.
  - change (c :: o) with ([c] ++ o). change (c :: s) with ([c] ++ s). now rewrite !no_spaces_app, IH.
Qed.
Lemma formatted_spaces s s' : formatted s s' -> no_spaces s' = no_spaces s.
Proof.
  induction 1 as [s H|a body body' s s' H Bb T F IH|a body body' H Ub T]; [reflexivity| |].
  - now rewrite !no_spaces_app, IH, (tight_spaces _ _ T).
  - now rewrite !no_spaces_app, (tight_spaces _ _ T).
Qed.
Lemma tight_shorter s o : tight s o -> length o <= length s.
Proof.
  induction 1 as [|w w' s o W T IH|c s o U T IH]; [reflexivity| |cbn; lia].
  rewrite !app_length. assert (K := tightened_length _ _ W). lia.
Qed.
Lemma formatted_shorter s s' : formatted s s' -> length s' <= length s.
Proof.
  induction 1 as [s H|a body body' s s' H Bb T F IH|a body body' H Ub T]; [reflexivity| |]; rewrite !app_length; assert (K := tight_shorter _ _ T); lia.
Qed.

(** Formatting again, if no two spaces follow each other. *)
Definition plain_of (c : ascii) : Prop := c <> "c"%char /\ c <> "<"%char /\ c <> ">"%char.
Lemma tight_head s c o : tight s (c :: o) -> plain_of c -> exists t, s = c :: t /\ tight t o.
Proof.
  intros T (P1 & P2 & P3). inversion T as [|w w' t o' W T' E1 E2|c' t o' U T' E1 E2]; subst.
  - exfalso. destruct W as [[-> ->]|[[-> ->]|[-> ->]]]; injection E2 as E2 _; congruence.
  - now exists t.
Qed.
Lemma tight_begins w : Forall plain_of w -> forall s o, tight s (w ++ o) -> exists t, s = w ++ t /\ tight t o.
Proof.
  induction 1 as [|c w P F IH]; intros s o T; [now exists s|]. apply tight_head in T as (t & -> & T); [|exact P].
  apply IH in T as (u & -> & T). now exists u.
Qed.
Lemma not_within_tail c s w : ~ within w (c :: s) -> ~ within w s.
Proof. intros N (a & b & ->). apply N. now exists (c :: a), b. Qed.
Lemma not_within_app a s w : ~ within w (a ++ s) -> ~ within w a /\ ~ within w s.
Proof.
  intros N. split; intros (x & y & ->); apply N.
  - exists x, (y ++ s). now rewrite <- !app_assoc.
  - exists (a ++ x), y. now rewrite <- !app_assoc.
Qed.
Lemma tight_again s o : tight s o -> ~ within (B "  ") s -> tight o o.
Proof.
  induction 1 as [|w w' s o W T IH|c s o U T IH]; intros N.
  - constructor.
  - apply not_within_app in N as [_ N]. specialize (IH N). destruct W as [[-> ->]|[[-> ->]|[-> ->]]]; cbn [app B]; 
      change (B "crate::") with ["c"; "r"; "a"; "t"; "e"; ":"; ":"]%char; change (B "<") with ["<"%char]; change (B ">") with [">"%char]; cbn [app];
      repeat (apply tight_char; [intros w w' [[-> _]|[[-> _]|[-> _]]] (t & E); discriminate E|]); exact IH.
  - apply tight_char; [|exact (IH (not_within_tail _ _ _ N))].
    intros w w' W (t & E). destruct W as [[-> ->]|[[-> ->]|[-> ->]]].
    + injection E as -> ->. apply (tight_begins (B "rate ::")) in T as (u & -> & _).
      * apply (U (B "crate ::") (B "crate::")); [left; auto|now exists u].
      * repeat (constructor; [repeat split; discriminate|]). constructor.
    + injection E as -> ->. inversion T as [|w w' s0 o' W T' E1 E2|c s0 o' U' T' E1 E2]; subst.
      * destruct W as [[-> ->]|[[-> ->]|[-> ->]]]; try discriminate E2. apply N. exists [], (B "< " ++ s0). reflexivity.
      * apply tight_head in T' as (u & -> & _); [|repeat split; discriminate]. apply (U (B " < ") (B "<")); [right; left; auto|now exists u].
    + injection E as -> ->. inversion T as [|w w' s0 o' W T' E1 E2|c s0 o' U' T' E1 E2]; subst.
      * destruct W as [[-> ->]|[[-> ->]|[-> ->]]]; try discriminate E2. apply N. exists [], (B ">" ++ s0). reflexivity.
      * apply (U (B " >") (B ">")); [right; right; auto|now exists s0].
Qed.
Lemma scan_drop w d s : no_paren w -> scan d (w ++ s) -> scan d s.
Proof.
  induction w as [|c w IH]; intros N S; [exact S|]. apply IH; [intros x I; apply N; now right|].
  cbn in S. inversion S as [|d0 s0 S0|d0 s0 S0|d0 c0 s0 P S0]; subst; try (exfalso; refine (N _ (or_introl eq_refl) _); first [now left|now right]). exact S0.
Qed.
Lemma tight_scan s o : tight s o -> forall d, scan d s <-> scan d o.
Proof.
  induction 1 as [|w w' s o W T IH|c s o U T IH]; intros d; [tauto| |].
  - destruct (tightened_words _ _ W) as [N N']. split; intros S; apply scan_drop in S; try assumption; apply scan_word; try assumption; now apply IH.
  - split; intros S; inversion S as [|d0 s0 S0|d0 s0 S0|d0 c0 s0 P S0]; subst; constructor; try assumption; now apply IH.
Qed.
Lemma tight_balanced s o : tight s o -> balanced s <-> balanced o.
Proof. intros T. rewrite <- !scan_balanced. now apply tight_scan. Qed.
Lemma tight_paren_back s o : tight s o -> forall o1 p o2, paren p -> o = o1 ++ p :: o2 -> exists s1 s2, s = s1 ++ p :: s2 /\ tight s1 o1 /\ tight s2 o2.
Proof.
  induction 1 as [|w w' s o W T IH|c s o U T IH]; intros o1 p o2 P E.
  - destruct o1; discriminate E.
  - apply word_before in E as (v & -> & ->); [|exact (proj2 (tightened_words _ _ W))|exact P].
    destruct (IH v p o2 P eq_refl) as (s1 & s2 & -> & T1 & T2). exists (w ++ s1), s2. split; [now rewrite app_assoc|]. split; [now apply tight_word|exact T2].
  - destruct o1 as [|x o1]; injection E as -> E.
    + subst o2. exists [], s. repeat split; [constructor|exact T].
    + destruct (IH o1 p o2 P E) as (s1 & s2 & -> & T1 & T2). exists (x :: s1), s2. split; [reflexivity|]. split; [|exact T2].
      apply tight_char; [|exact T1]. now apply (untouched_before x s1 s2 p).
Qed.
Lemma formatted_again s s' : formatted s s' -> ~ within (B "  ") s -> formatted s' s'.
Proof.
  induction 1 as [s H|a body body' s s' H Bb T F IH|a body body' H Ub T]; intros N.
  - now apply formatted_plain.
  - apply not_within_app in N as [_ N]. apply not_within_app in N as [_ N]. apply not_within_app in N as [N1 N].
    apply not_within_app in N as [_ N]. apply formatted_call; [exact H|exact (proj1 (tight_balanced _ _ T) Bb)|exact (tight_again _ _ T N1)|exact (IH N)].
  - apply not_within_app in N as [_ N]. apply not_within_app in N as [_ N].
    apply formatted_open; [exact H| |exact (tight_again _ _ T N)].
    intros b t E Bal. destruct (tight_paren_back _ _ T b ")"%char t (or_intror eq_refl) E) as (s1 & s2 & -> & T1 & T2).
    apply (Ub s1 s2 eq_refl). now apply (tight_balanced _ _ T1).
Qed.

(** ** The files that are read *)
Lemma rs_name name : PathSpec.name_ok name -> PathSpec.name_ok (name ++ B ".rs").
Proof.
  intros (N1 & N2 & N3). split; [destruct name; discriminate|]. split.
  - intros E; destruct name as [|a [|b [|c name]]]; discriminate E.
  - intros I. apply in_app_iff in I as [I|I]; [contradiction|]. cbn in I. repeat (destruct I as [I|I]; [discriminate I|]). exact I.
Qed.
Lemma join_suffix root x w : w <> [] -> ~ In slash w -> is_absolute x = false -> (exists a, join root x = a ++ w) <-> (exists a, x = a ++ w).
Proof.
  intros W N A. unfold join. rewrite A. destruct root as [|r root]; [reflexivity|]. cbn [is_empty]. set (base := r :: root).
  assert (S : forall pre y a, pre ++ slash :: y = a ++ w -> exists b, y = b ++ w).
  { intros pre. induction pre as [|c pre IH]; intros y a E.
    - destruct a as [|a0 a]; [cbn in E; exfalso; apply N; rewrite <- E; now left|]. injection E as _ E. now exists a.
    - destruct a as [|a0 a]; [cbn in E; exfalso; apply N; rewrite <- E; right; apply in_app_iff; right; now left|]. injection E as _ E. exact (IH y a E). }
  destruct (ends_with_slash base) eqn:L.
  - split; intros (a & E); [|exists (base ++ a); now rewrite E, app_assoc].
    assert (exists b, base = b ++ [slash]) as (b & Eb).
    { unfold ends_with_slash in L. destruct (rev base) as [|c u] eqn:R; [discriminate L|]. apply Ascii.eqb_eq in L. exists (rev u).
      rewrite <- (rev_involutive base), R. cbn. now rewrite L. }
    rewrite Eb in E. apply (S b x a). rewrite <- E, <- app_assoc. reflexivity.
  - split; intros (a & E); [exact (S base x a E)|]. exists (base ++ slash :: a). rewrite E, <- app_assoc. reflexivity.
Qed.
Lemma file_module root name : PathSpec.name_ok name -> (forall a, name <> a ++ B "lib") ->
  module_of (join root (name ++ B ".rs")) = [name].
Proof.
  intros N Nl. assert (R := rs_name _ N). assert (Nn : name <> []) by exact (proj1 N).
  assert (A : is_absolute (name ++ B ".rs") = false).
  { destruct name as [|c name]; [contradiction|]. cbn. apply Ascii.eqb_neq. intros ->. destruct N as (_ & _ & N). apply N. now left. }
  unfold module_of.
  assert (ends_with (B "lib.rs") (join root (name ++ B ".rs")) = false) as ->.
  { destruct (ends_with _ _) eqn:E; [|reflexivity]. exfalso. unfold ends_with in E.
    destruct (strip_suffix (B "lib.rs") (join root (name ++ B ".rs"))) as [q|] eqn:Q; [|discriminate E]. apply strip_suffix_some in Q.
    destruct (proj1 (join_suffix root (name ++ B ".rs") (B "lib.rs") ltac:(discriminate) ltac:(cbn; intuition discriminate) A) (ex_intro _ q Q)) as (a & H).
    change (B "lib.rs") with (B "lib" ++ B ".rs") in H. rewrite app_assoc in H. apply app_inv_tail in H. exact (Nl a H). }
  assert (F : file_stem (join root (name ++ B ".rs")) = Some name).
  { apply file_stem_iff. exists (name ++ B ".rs"). split.
    - apply last_name_join. split; [exists Plain, []; now apply reads_as_name|]. intros E. destruct name as [|? [|? [|? ?]]]; discriminate E.
    - left. exists (B "rs"). split; [reflexivity|]. split; [cbn; intuition discriminate|exact Nn]. }
  now rewrite F.
Qed.
Lemma lib_module f : (exists a, f = a ++ B "lib.rs") -> module_of f = [].
Proof. intros (a & ->). unfold module_of, ends_with. rewrite (proj2 (strip_suffix_some (B "lib.rs") (a ++ B "lib.rs") a) eq_refl). reflexivity. Qed.

Lemma lines_written l : Forall (fun f => ~ In nl f) l -> lines (flat_map (fun f => f ++ [nl]) l) = map strip_cr l.
Proof.
  intros F. unfold lines. induction F as [|f l N F IH]; [reflexivity|]. cbn [flat_map map]. rewrite <- app_assoc. cbn [app].
  rewrite split_on_app_sep by exact N. destruct (split_on nl (flat_map (fun f => f ++ [nl]) l)) as [|p ps] eqn:E; [destruct (split_on_not_nil _ _ E)|].
  cbn [lines_of]. cbn [lines_of] in IH. f_equal. exact IH.
Qed.
Lemma listed_written ex l : Forall (fun f => f <> [] /\ ~ In nl f /\ is_trimmed f) l ->
  listed ex (flat_map (fun f => f ++ [nl]) l) = filter ex l.
Proof.
  intros F. unfold listed. rewrite lines_written by (eapply Forall_impl; [|exact F]; intros f H; apply H). rewrite map_map.
  induction F as [|f l (N & _ & T) F IH]; [reflexivity|]. cbn [map filter]. rewrite trim_strip_cr, (trim_id f T), IH.
  rewrite (proj2 (is_empty_false f) N). reflexivity.
Qed.

(** ** Writing *)
Lemma write_done d fn p c d' b : write_raw d fn p c = Ok (d', b) ->
  dk_content d' p = Some (header fn ++ c) /\ (forall q, q <> p -> dk_content d' q = dk_content d q)
  /\ (b = false <-> dk_content d p = Some (header fn ++ c)) /\ (b = false -> d' = d).
Proof.
  unfold write_raw. intros H.
  assert (W : forall x, (if dk_writable d p then Ok (put p (header fn ++ c) d, true) else Err CannotWrite) = Ok x ->
    fst x = put p (header fn ++ c) d /\ snd x = true).
  { intros x. destruct (dk_writable d p); [intros [= <-]; auto|discriminate]. }
  assert (P : dk_content (put p (header fn ++ c) d) p = Some (header fn ++ c)
    /\ forall q, q <> p -> dk_content (put p (header fn ++ c) d) q = dk_content d q).
  { cbn. rewrite (proj2 (str_eqb_eq p p) eq_refl). split; [reflexivity|]. intros q N. destruct (str_eqb q p) eqn:E; [apply str_eqb_eq in E; contradiction|reflexivity]. }
  destruct (dk_content d p) as [old|] eqn:O.
  - destruct (dk_readable d p); [|discriminate H]. destruct (str_eqb old (header fn ++ c)) eqn:E.
    + injection H as <- <-. apply str_eqb_eq in E. subst old. repeat split; auto.
    + apply W in H as [H1 H2]. cbn in H1, H2. subst d' b. destruct P as [P1 P2]. split; [exact P1|]. split; [exact P2|]. split; [|discriminate].
      split; [discriminate|]. intros [= ->]. rewrite (proj2 (str_eqb_eq _ _) eq_refl) in E. discriminate E.
  - apply W in H as [H1 H2]. cbn in H1, H2. subst d' b. destruct P as [P1 P2]. split; [exact P1|]. split; [exact P2|]. split; [|discriminate]. split; discriminate.
Qed.
Lemma write_possible d fn p c : (exists x, write_raw d fn p c = Ok x) <->
  (dk_content d p <> None -> dk_readable d p = true) /\ (dk_content d p <> Some (header fn ++ c) -> dk_writable d p = true).
Proof.
  unfold write_raw. destruct (dk_content d p) as [old|].
  - destruct (dk_readable d p).
    + destruct (str_eqb old (header fn ++ c)) eqn:E.
      * apply str_eqb_eq in E. subst old. split; [|eauto]. intros _. split; [reflexivity|intros H; now destruct H].
      * destruct (dk_writable d p); [split; [auto|eauto]|]. split; [intros (x & [=])|].
        intros [_ H]. assert (false = true) by (apply H; intros [= ->]; rewrite (proj2 (str_eqb_eq _ _) eq_refl) in E; discriminate E). discriminate.
    + split; [intros (x & [=])|]. intros [H _]. assert (false = true) by (apply H; discriminate). discriminate.
  - destruct (dk_writable d p); [split; [split; [intros Z; now destruct Z|reflexivity]|eauto]|]. split; [intros (x & [=])|].
    intros [_ H]. assert (false = true) by (apply H; discriminate). discriminate.
Qed.
