(** Lemmas about [shell_escape]. *)
From Verif.Model Require Import Base Str ShellEscape Get.
From Verif.Spec Require Import StrSpec Utf8Spec GetSpec ShellSpec.
From Verif.Proof Require Import StrFacts GetProof.

Ltac all_bytes c := destruct c as [[|] [|] [|] [|] [|] [|] [|] [|]].
Ltac no_byte H := vm_compute in H; repeat (destruct H as [H|H]; [discriminate H|]); contradiction.
Lemma whitelisted_ordinary c : whitelisted c = true -> ordinary c.
Proof. intros H. unfold ordinary. all_bytes c; try discriminate H; vm_compute; auto 100. Qed.
Lemma ordinary_not_quote : ~ ordinary quote.
Proof. intros H. no_byte H. Qed.
Lemma ordinary_not_escape : ~ ordinary escape_sign.
Proof. intros H. no_byte H. Qed.
Lemma ordinary_not_end : ~ ordinary line_end.
Proof. intros H. no_byte H. Qed.
Lemma plain_word s : forallb whitelisted s = true -> word s s.
Proof.
  induction s as [|c s IH]; intros H; [constructor|]. cbn [forallb] in H. apply andb_prop in H as [H1 H2].
  apply word_plain; auto using whitelisted_ordinary.
Qed.
(** Within quotes: what is still to be read, after [q] has been. *)
Lemma escape_inside s : forall q, ~ In quote q -> word (quote :: q ++ escape_chars s ++ [quote]) (q ++ s).
Proof.
  induction s as [|c s IH]; intros q Q; cbn [escape_chars].
  - cbn [app]. apply word_quoted; [exact Q|constructor].
  - destruct (Ascii.eqb c "'" || Ascii.eqb c "!")%bool eqn:E.
    + cbn [app]. change "'"%char with quote. apply word_quoted; [exact Q|].
      change "\"%char with escape_sign. apply word_escaped.
      * intros ->. discriminate E.
      * exact (IH [] (fun x => x)).
    + apply orb_false_iff in E as [E _]. apply Ascii.eqb_neq in E.
      specialize (IH (q ++ [c])). rewrite <- !app_assoc in IH. cbn [app] in IH. apply IH.
      rewrite in_app_iff. intros [H|[H|[]]]; auto.
Qed.
Lemma escape_word s : word (shell_escape s) s.
Proof.
  unfold shell_escape. destruct (negb (is_empty s) && forallb whitelisted s)%bool eqn:E.
  - apply andb_prop in E as [_ E]. now apply plain_word.
  - exact (escape_inside s [] (fun x => x)).
Qed.
Lemma escape_same s : shell_escape s = s <-> s <> [] /\ Forall (fun c => In c (small ++ large ++ digits ++ B "-_=/,.+")) s.
Proof.
  assert (W : forall c, whitelisted c = true <-> In c (small ++ large ++ digits ++ B "-_=/,.+")).
  { intros c. split; intros H; [all_bytes c; try discriminate H; vm_compute; auto 100|].
    vm_compute in H. repeat (destruct H as [<-|H]; [reflexivity|]). contradiction. }
  assert (L : forall t, length t <= length (escape_chars t)).
  { induction t as [|c t IH]; [apply le_n|]. cbn [escape_chars]. rewrite app_length.
    destruct (Ascii.eqb c "'" || Ascii.eqb c "!")%bool; cbn [length]; lia. }
  unfold shell_escape. destruct (negb (is_empty s) && forallb whitelisted s)%bool eqn:E.
  - apply andb_prop in E as [E F]. split; [intros _|auto]. split; [destruct s; discriminate|].
    apply Forall_forall. intros c H. apply W. rewrite forallb_forall in F. now apply F.
  - split.
    + intros H. exfalso. apply (f_equal (@length _)) in H. cbn [length] in H. rewrite app_length in H. cbn [length] in H.
      specialize (L s). lia.
    + intros [N F]. exfalso. apply Bool.andb_false_iff in E as [E|E].
      * destruct s; [congruence|discriminate E].
      * assert (T : forallb whitelisted s = true) by (apply forallb_forall; intros c H; apply W; rewrite Forall_forall in F; now apply F).
        rewrite T in E. discriminate E.
Qed.

(** Reading is unambiguous. *)
Lemma quote_split q : forall q' s s', ~ In quote q -> ~ In quote q' -> q ++ quote :: s = q' ++ quote :: s' -> q = q' /\ s = s'.
Proof.
  induction q as [|c q IH]; intros [|d q'] s s' N N' E; cbn [app] in E.
  - injection E as E. auto.
  - exfalso. apply N'. left. congruence.
  - exfalso. apply N. left. congruence.
  - injection E as E1 E. destruct (IH q' s s') as [-> ->]; auto; cbn [In] in *; [tauto|tauto|]. now subst d.
Qed.
Lemma word_unique w v : word w v -> forall w' v' r r', word w' v' ->
  w ++ line_end :: r = w' ++ line_end :: r' -> w = w' /\ v = v' /\ r = r'.
Proof.
  assert (Q := ordinary_not_quote). assert (X := ordinary_not_escape). assert (N := ordinary_not_end).
  assert (Q1 : quote <> line_end) by discriminate. assert (X1 : escape_sign <> line_end) by discriminate.
  assert (QX : quote <> escape_sign) by discriminate.
  induction 1 as [|c w v O W IH|c w v O W IH|q w v O W IH]; intros w' v' r r' W' E;
    inversion W' as [|c' w1 v1 O' W1|c' w1 v1 O' W1|q' w1 v1 O' W1]; subst w' v'; cbn [app] in E;
    try (exfalso; injection E as E1 E2; subst; cbn in *; congruence).
  - injection E as E. auto.
  - injection E as E1 E2. destruct (IH _ _ _ _ W1 E2) as (-> & -> & ->). subst. auto.
  - injection E as E1 E2. destruct (IH _ _ _ _ W1 E2) as (-> & -> & ->). subst. auto.
  - rewrite <- !app_assoc in E. cbn [app] in E. apply (f_equal (@tl _)) in E. cbn [tl] in E.
    apply quote_split in E as [-> E]; auto. destruct (IH _ _ _ _ W1 E) as (-> & -> & ->). auto.
Qed.
Lemma identifier_no_equals n : identifier n -> ~ In "="%char n.
Proof.
  intros (c & t & -> & H & F) [E|E].
  - subst c. no_byte H.
  - rewrite Forall_forall in F. specialize (F _ E). no_byte F.
Qed.
Lemma equals_split q : forall q' s s', ~ In "="%char q -> ~ In "="%char q' -> q ++ "="%char :: s = q' ++ "="%char :: s' -> q = q' /\ s = s'.
Proof.
  induction q as [|c q IH]; intros [|d q'] s s' N N' E; cbn [app] in E.
  - injection E as E. auto.
  - exfalso. apply N'. left. congruence.
  - exfalso. apply N. left. congruence.
  - injection E as E1 E. destruct (IH q' s s') as [-> ->]; auto; cbn [In] in *; [tauto|tauto|]. now subst d.
Qed.
Lemma script_unique t l : script t l -> forall l', script t l' -> l = l'.
Proof.
  induction 1 as [|n w v rest l I W S IH]; intros l' S'.
  - inversion S' as [E|n w v rest l I W S E]; [reflexivity|]. destruct n; discriminate E.
  - inversion S' as [E|n' w' v' rest' l1 I' W' S1 E]; [destruct n; discriminate E|].
    subst l'. apply equals_split in E as [<- E]; try now apply identifier_no_equals.
    destruct (word_unique _ _ W' _ _ _ _ W E) as (_ & -> & <-). f_equal. now apply IH.
Qed.
Lemma listed_script l : Forall (fun kv => identifier (fst kv)) l ->
  script (concat (map (fun kv => fst kv ++ B "=" ++ shell_escape (snd kv) ++ [newline]) l)) l.
Proof.
  induction 1 as [|[k v] l I F IH]; [constructor|]. cbn [map concat fst snd] in *. rewrite <- !app_assoc.
  change (B "=" ++ ?a) with ("="%char :: a). change ([newline] ++ ?a) with (line_end :: a).
  apply script_line; auto using escape_word.
Qed.
