(** Facts about the string functions of [Model.Str]. *)
From Verif.Model Require Import Base Str.
From Verif.Spec Require Import StrSpec.

Lemma str_eqb_eq a b : str_eqb a b = true <-> a = b.
Proof.
  revert b; induction a as [|x a IH]; intros [|y b]; cbn; split; try easy.
  - rewrite andb_true_iff, Ascii.eqb_eq, IH. now intros [-> ->].
  - intros [= -> ->]. rewrite andb_true_iff, Ascii.eqb_eq, IH. auto.
Qed.
Lemma str_eqb_refl a : str_eqb a a = true.
Proof. now apply str_eqb_eq. Qed.
Lemma str_eqb_neq a b : str_eqb a b = false <-> a <> b.
Proof.
  rewrite <- str_eqb_eq. destruct (str_eqb a b); split; congruence.
Qed.
Lemma str_eqb_sym a b : str_eqb a b = str_eqb b a.
Proof.
  destruct (str_eqb a b) eqn:E; symmetry.
  - apply str_eqb_eq in E. subst. apply str_eqb_refl.
  - apply str_eqb_neq in E. apply str_eqb_neq. congruence.
Qed.
Lemma str_eq_dec (a b : str) : {a = b} + {a <> b}.
Proof.
  destruct (str_eqb a b) eqn:E; [left; now apply str_eqb_eq | right; now apply str_eqb_neq].
Qed.

Lemma is_empty_true s : is_empty s = true <-> s = [].
Proof. destruct s; cbn; split; congruence. Qed.
Lemma is_empty_false s : is_empty s = false <-> s <> [].
Proof. destruct s; cbn; split; congruence. Qed.

Lemma contains_In c s : contains c s = true <-> In c s.
Proof.
  unfold contains. rewrite existsb_exists. split.
  - intros (x & H & E). apply Ascii.eqb_eq in E. now subst.
  - intros H. exists c. split; [easy | apply Ascii.eqb_refl].
Qed.
Lemma contains_false c s : contains c s = false <-> ~ In c s.
Proof. rewrite <- contains_In. destruct (contains c s); split; congruence. Qed.

(** ** Order *)
Lemma nb_inj a b : nb a = nb b -> a = b.
Proof.
  unfold nb. intros H. rewrite <- (ascii_N_embedding a), <- (ascii_N_embedding b).
  now rewrite H.
Qed.
Lemma str_cmp_eq a b : str_cmp a b = Eq <-> a = b.
Proof.
  revert b; induction a as [|x a IH]; intros [|y b]; cbn; split; try easy.
  - destruct (N.compare_spec (nb x) (nb y)) as [E| |]; try easy.
    intros H. apply IH in H. apply nb_inj in E. now subst.
  - intros [= -> ->]. rewrite N.compare_refl. now apply IH.
Qed.
Lemma str_cmp_refl a : str_cmp a a = Eq.
Proof. now apply str_cmp_eq. Qed.
Lemma str_cmp_antisym a b : str_cmp b a = CompOpp (str_cmp a b).
Proof.
  revert b; induction a as [|x a IH]; intros [|y b]; cbn; try easy.
  rewrite N.compare_antisym. destruct (N.compare (nb x) (nb y)); cbn; auto.
Qed.
Lemma str_cmp_trans a b c : str_cmp a b = Lt -> str_cmp b c = Lt -> str_cmp a c = Lt.
Proof.
  revert b c; induction a as [|x a IH]; intros [|y b] [|z c]; cbn; try easy.
  destruct (N.compare_spec (nb x) (nb y)) as [E1|E1|E1]; try easy;
  destruct (N.compare_spec (nb y) (nb z)) as [E2|E2|E2]; try easy;
  destruct (N.compare_spec (nb x) (nb z)) as [E3|E3|E3]; try easy; try lia.
  apply IH.
Qed.

(** ** Prefixes and suffixes *)
Lemma strip_prefix_some p s r : strip_prefix p s = Some r <-> s = p ++ r.
Proof.
  revert s; induction p as [|x p IH]; intros s; cbn.
  - split; congruence.
  - destruct s as [|y s]; [easy|].
    destruct (Ascii.eqb_spec x y) as [->|N].
    + rewrite IH. split; congruence.
    + split; [easy | intros [= -> ->]; easy].
Qed.
Lemma strip_prefix_app p s : strip_prefix p (p ++ s) = Some s.
Proof. now apply strip_prefix_some. Qed.
Lemma starts_with_iff p s : starts_with p s = true <-> exists r, s = p ++ r.
Proof.
  unfold starts_with. destruct (strip_prefix p s) as [r|] eqn:E; cbn.
  - apply strip_prefix_some in E. split; eauto.
  - split; [easy|]. intros (r & ->). rewrite strip_prefix_app in E. easy.
Qed.
Lemma strip_suffix_some p s r : strip_suffix p s = Some r <-> s = r ++ p.
Proof.
  unfold strip_suffix. destruct (strip_prefix (rev p) (rev s)) as [q|] eqn:E.
  - apply strip_prefix_some in E.
    apply (f_equal (@rev ascii)) in E. rewrite rev_involutive, rev_app_distr, rev_involutive in E.
    subst. split; [intros [= <-]; easy | intros H; apply app_inv_tail in H; now subst].
  - split; [easy|]. intros ->. rewrite rev_app_distr, strip_prefix_app in E. easy.
Qed.
Lemma ends_with_iff p s : ends_with p s = true <-> exists r, s = r ++ p.
Proof.
  unfold ends_with. destruct (strip_suffix p s) as [r|] eqn:E; cbn.
  - apply strip_suffix_some in E. split; eauto.
  - split; [easy|]. intros (r & ->).
    assert (H : strip_suffix p (r ++ p) = Some r) by now apply strip_suffix_some. congruence.
Qed.

(** ** Splitting *)
Lemma split_on_not_nil c s : split_on c s <> [].
Proof. destruct s; cbn; [easy|]. destruct (Ascii.eqb a c); [easy|]. now destruct (split_on c s). Qed.

Lemma split_on_free c s w : In w (split_on c s) -> ~ In c w.
Proof.
  revert w; induction s as [|x s IH]; intros w; cbn.
  - intros [<-|[]]. easy.
  - destruct (Ascii.eqb_spec x c) as [->|N].
    + intros [<-|H]; [easy | now apply IH].
    + pose proof (split_on_not_nil c s). destruct (split_on c s) as [|w' ws]; [easy|].
      intros [<-|H'].
      * intros [E|E]; [congruence|]. apply (IH w'); [now left | easy].
      * apply IH. now right.
Qed.

Lemma intercalate_cons sep w ws :
  ws <> [] -> intercalate sep (w :: ws) = w ++ sep :: intercalate sep ws.
Proof. now destruct ws. Qed.

Lemma intercalate_split c s : intercalate c (split_on c s) = s.
Proof.
  induction s as [|x s IH]; [easy|]. cbn [split_on].
  destruct (Ascii.eqb_spec x c) as [->|N].
  - rewrite intercalate_cons by apply split_on_not_nil. now rewrite IH.
  - pose proof (split_on_not_nil c s). destruct (split_on c s) as [|w ws]; [easy|].
    destruct ws as [|w' ws]; cbn in *; congruence.
Qed.

Lemma split_on_app_sep c w s : ~ In c w -> split_on c (w ++ c :: s) = w :: split_on c s.
Proof.
  induction w as [|x w IH]; intros H; cbn.
  - now rewrite Ascii.eqb_refl.
  - destruct (Ascii.eqb_spec x c) as [->|N]; [exfalso; apply H; now left|].
    rewrite IH; [easy|]. intros Hi. apply H. now right.
Qed.
Lemma split_on_none c w : ~ In c w -> split_on c w = [w].
Proof.
  induction w as [|x w IH]; intros H; cbn; [easy|].
  destruct (Ascii.eqb_spec x c) as [->|N]; [exfalso; apply H; now left|].
  rewrite IH; [easy|]. intros Hi. apply H. now right.
Qed.
Lemma split_intercalate c l :
  l <> [] -> Forall (fun w => ~ In c w) l -> split_on c (intercalate c l) = l.
Proof.
  induction l as [|w l IH]; intros Hn Hf; [easy|]. inversion Hf; subst.
  destruct l as [|w' l].
  - cbn. now apply split_on_none.
  - rewrite intercalate_cons by easy. rewrite split_on_app_sep by easy. f_equal. now apply IH.
Qed.

(** [join_with] of the model is [intercalate]. *)
Lemma join_with_intercalate c l : join_with c l = intercalate c l.
Proof.
  induction l as [|w l IH]; [easy|]. destruct l as [|w' l]; [easy|].
  rewrite intercalate_cons by easy. rewrite <- IH. reflexivity.
Qed.

(** [split_once] *)
Lemma split_once_app c a b : ~ In c a -> split_once c (a ++ c :: b) = Some (a, b).
Proof.
  induction a as [|x a IH]; intros H; cbn.
  - now rewrite Ascii.eqb_refl.
  - destruct (Ascii.eqb_spec x c) as [->|N]; [exfalso; apply H; now left|].
    rewrite IH; [easy|]. intros Hi. apply H. now right.
Qed.
Lemma split_once_none c s : split_once c s = None <-> ~ In c s.
Proof.
  induction s as [|x s IH]; cbn.
  - split; auto.
  - destruct (Ascii.eqb_spec x c) as [->|N].
    + split; [easy | intros H; exfalso; apply H; now left].
    + destruct (split_once c s) as [[a b]|].
      * split; [easy|]. intros H. exfalso.
        enough (Some (a, b) = None) by easy. apply IH. intros ?; apply H; now right.
      * split; auto. intros _ [E|E]; [congruence|]. now apply IH.
Qed.
Lemma split_once_some c s a b :
  split_once c s = Some (a, b) <-> s = a ++ c :: b /\ ~ In c a.
Proof.
  split; [|intros [-> H]; now apply split_once_app].
  revert a b; induction s as [|x s IH]; intros a b; cbn; [easy|].
  destruct (Ascii.eqb_spec x c) as [->|N].
  - intros [= <- <-]. easy.
  - destruct (split_once c s) as [[a' b']|]; [|easy].
    intros [= <- <-]. destruct (IH a' b' eq_refl) as [-> H]. split; [easy|].
    intros [E|E]; [congruence | now apply H].
Qed.

(** ** Trimming *)
Ltac bool_hyps :=
  repeat match goal with
  | H : (_ && _)%bool = true |- _ => apply andb_true_iff in H; destruct H
  | H : (_ || _)%bool = true |- _ => apply orb_true_iff in H
  | H : _ \/ _ |- _ => destruct H
  | H : N.eqb _ _ = true |- _ => apply N.eqb_eq in H
  end.

Lemma nb_byte n : (n < 256)%N -> forall c, nb c = n -> c = ascii_of_N n.
Proof. intros H c E. apply nb_inj. rewrite E. unfold nb. now rewrite N_ascii_embedding. Qed.

Lemma in_range_iff lo hi n : in_range lo hi n = true <-> (lo <= n <= hi)%N.
Proof. unfold in_range. rewrite andb_true_iff, !N.leb_le. easy. Qed.

(** Enumerates a byte in a small range. *)
Lemma range_cases lo hi n :
  (lo <= n <= hi)%N -> exists k, n = (lo + N.of_nat k)%N /\ (k <= N.to_nat (hi - lo))%nat.
Proof. intros H. exists (N.to_nat (n - lo)). split; lia. Qed.

Definition ws_all : list ascii := map ascii_of_N (map N.of_nat (seq 0 256)).
Lemma all_ascii c : In c ws_all.
Proof.
  unfold ws_all. apply in_map_iff. exists (nb c). unfold nb. split.
  - apply ascii_N_embedding.
  - apply in_map_iff. exists (N.to_nat (N_of_ascii c)). split; [apply N2Nat.id|].
    apply in_seq. pose proof (N_ascii_bounded c). lia.
Qed.

Lemma ws1_in a : ws1 a = true <-> In [a] white_space.
Proof.
  revert a. assert (H : forallb (fun a => Bool.eqb (ws1 a) (existsb (str_eqb [a]) white_space)) ws_all = true)
    by (vm_compute; reflexivity).
  rewrite forallb_forall in H. intros a. specialize (H a (all_ascii a)).
  apply eqb_prop in H. rewrite H, existsb_exists. split.
  - intros (x & Hx & E). apply str_eqb_eq in E. now subst.
  - intros Hx. exists [a]. split; [easy | apply str_eqb_refl].
Qed.

Lemma ws2_in a b : ws2 a b = true <-> In [a; b] white_space.
Proof.
  split.
  - unfold ws2. intros H. bool_hyps.
    + apply (nb_byte 194) in H; [|lia]. apply (nb_byte 133) in H0; [|lia]. subst. vm_compute. tauto.
    + apply (nb_byte 194) in H; [|lia]. apply (nb_byte 160) in H0; [|lia]. subst. vm_compute. tauto.
  - intros H. unfold white_space in H. apply in_map_iff in H. destruct H as (l & E & H).
    cbn in H. repeat (destruct H as [<-|H]; [try discriminate E; injection E as <- <-; reflexivity|]).
    destruct H.
Qed.

Lemma ws3_in a b c : ws3 a b c = true <-> In [a; b; c] white_space.
Proof.
  split.
  - unfold ws3. intros H.
    assert (forall n, (n < 256)%N -> forall c, nb c = n -> c = ascii_of_N n) as K by (intros; now apply nb_byte).
    bool_hyps.
    + apply (K 225%N) in H; [|lia]. apply (K 154%N) in H1; [|lia]. apply (K 128%N) in H0; [|lia].
      subst. vm_compute. tauto.
    + apply (K 226%N) in H; [|lia]. apply (K 128%N) in H1; [|lia].
      apply in_range_iff in H0. destruct (range_cases _ _ _ H0) as (k & E & Hk).
      change (N.to_nat (138 - 128)) with 10 in Hk.
      do 11 (destruct k as [|k];
        [apply nb_byte in E; [|cbn; lia]; subst; vm_compute; tauto|]). lia.
    + apply (K 226%N) in H; [|lia]. apply (K 128%N) in H1; [|lia]. apply (K 168%N) in H0; [|lia].
      subst. vm_compute. tauto.
    + apply (K 226%N) in H; [|lia]. apply (K 128%N) in H1; [|lia]. apply (K 169%N) in H0; [|lia].
      subst. vm_compute. tauto.
    + apply (K 226%N) in H; [|lia]. apply (K 128%N) in H1; [|lia]. apply (K 175%N) in H0; [|lia].
      subst. vm_compute. tauto.
    + apply (K 226%N) in H; [|lia]. apply (K 129%N) in H1; [|lia]. apply (K 159%N) in H0; [|lia].
      subst. vm_compute. tauto.
    + apply (K 227%N) in H; [|lia]. apply (K 128%N) in H1; [|lia]. apply (K 128%N) in H0; [|lia].
      subst. vm_compute. tauto.
  - intros H. unfold white_space in H. apply in_map_iff in H. destruct H as (l & E & H).
    cbn in H. repeat (destruct H as [<-|H]; [try discriminate E; injection E as <- <- <-; reflexivity|]).
    destruct H.
Qed.

Lemma white_space_shape w :
  In w white_space ->
  (exists a, w = [a] /\ ws1 a = true) \/ (exists a b, w = [a; b] /\ ws2 a b = true)
  \/ (exists a b c, w = [a; b; c] /\ ws3 a b c = true).
Proof.
  intros H. unfold white_space in H. apply in_map_iff in H. destruct H as (l & E & H). cbn in H.
  repeat (destruct H as [<-|H];
    [subst w; first [left; eexists; split; [reflexivity|reflexivity]
                    |right; left; eexists _, _; split; [reflexivity|reflexivity]
                    |right; right; eexists _, _, _; split; [reflexivity|reflexivity]]|]).
  destruct H.
Qed.

Lemma blank_app a b : blank a -> blank b -> blank (a ++ b).
Proof. induction 1; intros Hb; [easy|]. rewrite <- app_assoc. constructor; auto. Qed.

(** First bytes of longer white space are not white space themselves. *)
Lemma ws2_first a b : ws2 a b = true -> ws1 a = false.
Proof. unfold ws2. intros H. bool_hyps; unfold ws1; rewrite H; reflexivity. Qed.
Lemma ws3_first a b c : ws3 a b c = true -> ws1 a = false /\ ws2 a b = false.
Proof. unfold ws3. intros H. bool_hyps; unfold ws1, ws2; rewrite H; split; reflexivity. Qed.
Lemma ws2_last a b : ws2 a b = true -> ws1 b = false.
Proof. unfold ws2. intros H. bool_hyps; unfold ws1; rewrite H0; reflexivity. Qed.
Lemma ws3_last a b c : ws3 a b c = true -> ws1 c = false /\ ws2 b c = false.
Proof.
  intros H. apply ws3_in in H. unfold white_space in H. apply in_map_iff in H.
  destruct H as (l & E & H). cbn in H.
  repeat (destruct H as [<-|H]; [try discriminate E; injection E as <- <- <-; split; reflexivity|]).
  destruct H.
Qed.

Lemma strong_len_ind (P : str -> Prop) :
  (forall s, (forall t, length t < length s -> P t) -> P s) -> forall s, P s.
Proof.
  intros H s. remember (length s) as n eqn:E. revert s E.
  induction n as [n IH] using lt_wf_ind. intros s ->. apply H. intros t Ht. now apply (IH (length t)).
Qed.

Lemma trim_start_spec s :
  exists a, s = a ++ trim_start s /\ blank a /\ no_leading_ws (trim_start s).
Proof.
  induction s as [s IH] using strong_len_ind.
  assert (stop : forall s, trim_start s = s -> no_leading_ws s ->
            exists a, s = a ++ trim_start s /\ blank a /\ no_leading_ws (trim_start s)).
  { intros s' E H. exists []. rewrite E. repeat split; auto. constructor. }
  destruct s as [|a t1].
  - apply stop; [easy|]. intros c r Hc E. apply white_space_shape in Hc.
    destruct Hc as [(?&->&_)|[(?&?&->&_)|(?&?&?&->&_)]]; easy.
  - cbn [trim_start]. destruct (ws1 a) eqn:E1.
    { destruct (IH t1 ltac:(cbn; lia)) as (b & H1 & H2 & H3).
      exists (a :: b). repeat split; auto.
      - cbn. congruence.
      - change (a :: b) with ([a] ++ b). constructor; auto. now apply ws1_in. }
    destruct t1 as [|b t2].
    { exists []. repeat split; auto; [constructor|]. intros c r Hc E.
      apply white_space_shape in Hc.
      destruct Hc as [(?&->&?)|[(?&?&->&_)|(?&?&?&->&_)]]; cbn in E; congruence. }
    destruct (ws2 a b) eqn:E2.
    { destruct (IH t2 ltac:(cbn; lia)) as (d & H1 & H2 & H3).
      exists (a :: b :: d). repeat split; auto.
      - cbn. congruence.
      - change (a :: b :: d) with ([a; b] ++ d). constructor; auto. now apply ws2_in. }
    destruct t2 as [|c t3].
    { exists []. repeat split; auto; [constructor|]. intros c r Hc E.
      apply white_space_shape in Hc.
      destruct Hc as [(?&->&?)|[(?&?&->&?)|(?&?&?&->&_)]]; cbn in E; congruence. }
    destruct (ws3 a b c) eqn:E3.
    { destruct (IH t3 ltac:(cbn; lia)) as (d & H1 & H2 & H3).
      exists (a :: b :: c :: d). repeat split; auto.
      - cbn. congruence.
      - change (a :: b :: c :: d) with ([a; b; c] ++ d). constructor; auto. now apply ws3_in. }
    exists []. repeat split; auto; [constructor|]. intros d r Hd E.
    apply white_space_shape in Hd.
    destruct Hd as [(?&->&?)|[(?&?&->&?)|(?&?&?&->&?)]]; cbn in E; congruence.
Qed.

Lemma trim_end_rev_spec s :
  exists a, s = a ++ trim_end_rev s /\ blank (rev a)
            /\ forall c r, In c white_space -> trim_end_rev s <> rev c ++ r.
Proof.
  induction s as [s IH] using strong_len_ind.
  destruct s as [|a t1].
  - exists []. repeat split; [constructor|]. intros c r Hc E. apply white_space_shape in Hc.
    destruct Hc as [(?&->&_)|[(?&?&->&_)|(?&?&?&->&_)]]; easy.
  - cbn [trim_end_rev]. destruct (ws1 a) eqn:E1.
    { destruct (IH t1 ltac:(cbn; lia)) as (b & H1 & H2 & H3).
      exists (a :: b). repeat split; auto.
      - cbn. congruence.
      - cbn. apply blank_app; auto. change [a] with ([a] ++ []). constructor; [now apply ws1_in | constructor]. }
    destruct t1 as [|b t2].
    { exists []. repeat split; auto; [constructor|]. intros c r Hc E.
      apply white_space_shape in Hc.
      destruct Hc as [(?&->&?)|[(?&?&->&_)|(?&?&?&->&_)]]; cbn in E; congruence. }
    destruct (ws2 b a) eqn:E2.
    { destruct (IH t2 ltac:(cbn; lia)) as (d & H1 & H2 & H3).
      exists (a :: b :: d). repeat split; auto.
      - cbn. congruence.
      - cbn. rewrite <- app_assoc. apply blank_app; auto. cbn.
        change [b; a] with ([b; a] ++ []). constructor; [now apply ws2_in | constructor]. }
    destruct t2 as [|c t3].
    { exists []. repeat split; auto; [constructor|]. intros c r Hc E.
      apply white_space_shape in Hc.
      destruct Hc as [(?&->&?)|[(?&?&->&?)|(?&?&?&->&_)]]; cbn in E; congruence. }
    destruct (ws3 c b a) eqn:E3.
    { destruct (IH t3 ltac:(cbn; lia)) as (d & H1 & H2 & H3).
      exists (a :: b :: c :: d). repeat split; auto.
      - cbn. congruence.
      - cbn. rewrite <- !app_assoc. apply blank_app; auto. cbn.
        change [c; b; a] with ([c; b; a] ++ []). constructor; [now apply ws3_in | constructor]. }
    exists []. repeat split; auto; [constructor|]. intros d r Hd E.
    apply white_space_shape in Hd.
    destruct Hd as [(?&->&?)|[(?&?&->&?)|(?&?&?&->&?)]]; cbn in E; congruence.
Qed.

Lemma trim_end_spec s :
  exists b, s = trim_end s ++ b /\ blank b /\ no_trailing_ws (trim_end s).
Proof.
  unfold trim_end. destruct (trim_end_rev_spec (rev s)) as (a & H1 & H2 & H3).
  exists (rev a). repeat split; auto.
  - rewrite <- rev_app_distr, <- H1. now rewrite rev_involutive.
  - intros c r Hc E. apply (H3 c (rev r) Hc).
    apply (f_equal (@rev ascii)) in E. rewrite rev_involutive, rev_app_distr in E. easy.
Qed.

Lemma trim_spec s : trimmed_of s (trim s).
Proof.
  unfold trim. destruct (trim_start_spec s) as (a & H1 & H2 & H3).
  destruct (trim_end_spec (trim_start s)) as (b & H4 & H5 & H6).
  exists a, b. repeat split; auto.
  - congruence.
  - intros c r Hc E. apply (H3 c (r ++ b) Hc). rewrite H4, E. now rewrite app_assoc.
Qed.

Lemma trim_start_id s : no_leading_ws s -> trim_start s = s.
Proof.
  intros H. destruct (trim_start_spec s) as (a & H1 & H2 & _).
  destruct H2 as [|c a' Hc _]; [easy|]. exfalso. apply (H c (a' ++ trim_start s) Hc).
  now rewrite app_assoc.
Qed.
Lemma blank_last b : blank b -> b = [] \/ exists c r, In c white_space /\ b = r ++ c.
Proof.
  induction 1 as [|c s Hc Hs IH]; [now left|]. right. destruct IH as [->|(d & r & Hd & ->)].
  - exists c, []. rewrite app_nil_r. easy.
  - exists d, (c ++ r). now rewrite app_assoc.
Qed.
Lemma trim_end_id s : no_trailing_ws s -> trim_end s = s.
Proof.
  intros H. destruct (trim_end_spec s) as (b & H1 & H2 & _).
  destruct (blank_last b H2) as [->|(c & r & Hc & ->)].
  - now rewrite app_nil_r in H1.
  - exfalso. apply (H c (trim_end s ++ r) Hc). now rewrite <- app_assoc.
Qed.
Lemma trim_id s : is_trimmed s -> trim s = s.
Proof. intros [H1 H2]. unfold trim. rewrite trim_start_id by easy. now apply trim_end_id. Qed.
Lemma trim_is_trimmed s : is_trimmed (trim s).
Proof. destruct (trim_spec s) as (a & b & _ & _ & _ & H1 & H2). split; easy. Qed.
Lemma trim_idem s : trim (trim s) = trim s.
Proof. apply trim_id, trim_is_trimmed. Qed.
Lemma trim_iff s : trim s = s <-> is_trimmed s.
Proof. split; [intros <-; apply trim_is_trimmed | apply trim_id]. Qed.
Lemma trim_incl s c : In c (trim s) -> In c s.
Proof.
  destruct (trim_spec s) as (a & b & E & _). intros H. rewrite E, !in_app_iff. tauto.
Qed.

(** ** Trimming is the only function meeting its specification *)
Lemma trim_start_blank a u : blank a -> trim_start (a ++ u) = trim_start u.
Proof.
  induction 1 as [|c s Hc Hs IH]; [easy|]. rewrite <- app_assoc. rewrite <- IH. clear IH.
  apply white_space_shape in Hc.
  destruct Hc as [(x&->&H)|[(x&y&->&H)|(x&y&z&->&H)]]; cbn [app].
  - cbn [trim_start]. now rewrite H.
  - cbn [trim_start]. now rewrite (ws2_first _ _ H), H.
  - destruct (ws3_first _ _ _ H) as [H1 H2]. cbn [trim_start]. now rewrite H1, H2, H.
Qed.
Lemma trim_end_rev_blank b u : blank b -> trim_end_rev (rev b ++ u) = trim_end_rev u.
Proof.
  intros H. revert u. induction H as [|c s Hc Hs IH]; intros u; [easy|].
  rewrite rev_app_distr, <- app_assoc, IH. clear IH.
  apply white_space_shape in Hc.
  destruct Hc as [(x&->&H)|[(x&y&->&H)|(x&y&z&->&H)]]; cbn [app rev].
  - cbn [trim_end_rev]. now rewrite H.
  - cbn [trim_end_rev]. now rewrite (ws2_last _ _ H), H.
  - destruct (ws3_last _ _ _ H) as [H1 H2]. cbn [trim_end_rev]. now rewrite H1, H2, H.
Qed.
Lemma trim_end_blank t b : blank b -> trim_end (t ++ b) = trim_end t.
Proof. intros H. unfold trim_end. now rewrite rev_app_distr, trim_end_rev_blank. Qed.

(** A white space character never starts inside another one. *)
Definition ws_first (x : ascii) : bool := existsb (fun w => match w with y :: _ => Ascii.eqb x y | [] => false end) white_space.
Lemma ws_first_head c x r : In c white_space -> c = x :: r -> ws_first x = true.
Proof.
  intros Hc ->. apply existsb_exists. exists (x :: r). split; [easy | apply Ascii.eqb_refl].
Qed.
Lemma ws_tail_not_first c x p r : In c white_space -> c = p ++ x :: r -> p <> [] -> ws_first x = false.
Proof.
  intros Hc E Hp.
  assert (H : forallb (fun w => forallb (fun x => negb (ws_first x)) (tl w)) white_space = true)
    by (vm_compute; reflexivity).
  rewrite forallb_forall in H. specialize (H c Hc). rewrite forallb_forall in H.
  apply negb_true_iff, H. subst c. destruct p as [|y p]; [easy|]. cbn. apply in_app_iff. right. now left.
Qed.
Lemma no_leading_app t b : t <> [] -> no_leading_ws t -> blank b -> no_leading_ws (t ++ b).
Proof.
  intros Hn Ht Hb c r Hc E. symmetry in E. apply app_eq_app in E. destruct E as (m & [[E1 E2]|[E1 E2]]).
  - destruct m as [|x m].
    + rewrite app_nil_r in E1. subst. apply (Ht t []); [easy | now rewrite app_nil_r].
    + assert (ws_first x = false) by (eapply ws_tail_not_first; eauto).
      destruct Hb as [|d b' Hd Hb]; [easy|].
      destruct d as [|y d].
      * apply white_space_shape in Hd.
        destruct Hd as [(?&?&?)|[(?&?&?&?)|(?&?&?&?&?)]]; easy.
      * injection E2 as <- _. rewrite (ws_first_head _ _ _ Hd eq_refl) in *. easy.
  - apply (Ht c m Hc). easy.
Qed.
Lemma trimmed_unique s t : trimmed_of s t <-> t = trim s.
Proof.
  split; [|intros ->; apply trim_spec].
  intros (a & b & -> & Ha & Hb & H1 & H2). unfold trim. rewrite trim_start_blank by easy.
  destruct t as [|c t].
  - cbn [app]. rewrite <- (app_nil_r b), trim_start_blank by easy. reflexivity.
  - rewrite trim_start_id by now apply no_leading_app. rewrite trim_end_blank by easy.
    now rewrite trim_end_id.
Qed.
