(** Reading the output of [rustc --print cfg]. *)
From Verif.Model Require Import Base Str Error CfgExpr Resolve.
From Verif.Spec Require Import StrSpec CfgSpec.
From Verif.Proof Require Import StrFacts.

Lemma trim_strip_cr p : trim (strip_cr p) = trim p.
Proof.
  unfold strip_cr. destruct (strip_suffix [cr] p) as [r|] eqn:E; [|reflexivity].
  apply strip_suffix_some in E as ->. apply trimmed_unique.
  destruct (trim_spec r) as (a & b & E & Ha & Hb & N1 & N2).
  exists a, (b ++ [cr]). repeat split; auto.
  - rewrite E at 1. now rewrite <- !app_assoc.
  - apply blank_app; [assumption|]. change [cr] with ([cr] ++ []). constructor; [|constructor].
    cbn. tauto.
Qed.

Lemma lines_of_cons p q l : lines_of (p :: q :: l) = strip_cr p :: lines_of (q :: l).
Proof. reflexivity. Qed.

Lemma lines_in out w : w <> [] ->
  (exists l, In l (lines out) /\ trim l = w) <-> text_line out w.
Proof.
  intros N. unfold lines, text_line.
  assert (K : forall ps, (exists l, In l (lines_of ps) /\ trim l = w) <->
                         (exists p, In p ps /\ trim p = w)).
  { induction ps as [|p [|q ps] IH].
    - split; now intros (l & [] & _).
    - cbn [lines_of]. destruct (is_empty p) eqn:E; [|reflexivity].
      apply is_empty_true in E as ->. split; [now intros (l & [] & _)|].
      intros (l & [<-|[]] & E). now subst w.
    - rewrite lines_of_cons. split.
      + intros (l & [<-|I] & E).
        * exists p. split; [now left|]. now rewrite <- trim_strip_cr.
        * destruct (proj1 IH (ex_intro _ l (conj I E))) as (x & Ix & Ex). exists x. split; [now right|assumption].
      + intros (l & [<-|I] & E).
        * exists (strip_cr p). split; [now left|]. now rewrite trim_strip_cr.
        * destruct (proj2 IH (ex_intro _ l (conj I E))) as (x & Ix & Ex). exists x. split; [now right|assumption]. }
  rewrite K. split.
  - intros (p & I & E). exists (split_on nl out), p. split; [apply intercalate_split|].
    split; [apply Forall_forall; intros x; apply split_on_free|]. split; [assumption|].
    now apply trimmed_unique.
  - intros (ps & p & E & F & I & T). exists p. apply trimmed_unique in T. split; [|easy].
    destruct ps as [|p0 ps]; [destruct I|].
    rewrite <- E. rewrite (split_intercalate nl); [assumption|easy|exact F].
Qed.

Lemma unquote_some s v : unquote s = Some v <-> s = quote :: v ++ [quote].
Proof.
  unfold unquote. destruct s as [|q t]; [easy|]. split.
  - destruct (Ascii.eqb q dquote) eqn:Eq; [|easy]. apply Ascii.eqb_eq in Eq as ->.
    destruct (rev t) as [|q' r] eqn:Er; [easy|]. destruct (Ascii.eqb q' dquote) eqn:Eq; [|easy].
    apply Ascii.eqb_eq in Eq as ->. intros [= <-].
    rewrite <- (rev_involutive t), Er. cbn [rev]. reflexivity.
  - intros [= -> ->]. change (Ascii.eqb quote dquote) with true. cbn iota.
    rewrite rev_app_distr. cbn [rev app]. change (Ascii.eqb quote dquote) with true. cbn iota.
    now rewrite rev_involutive.
Qed.

Lemma mem_in s l : mem s l = true <-> In s l.
Proof.
  unfold mem. rewrite existsb_exists. split.
  - intros (x & I & E). apply str_eqb_eq in E as ->. assumption.
  - intros I. exists s. split; [assumption|apply str_eqb_refl].
Qed.

Definition has_pair (k v : str) (l : list (str * list str)) : Prop :=
  exists vs, kv_get k l = Some vs /\ In v vs.

Lemma has_pair_add k v k' v' l :
  has_pair k v (kv_add k' v' l) <-> has_pair k v l \/ (k = k' /\ v = v').
Proof.
  unfold has_pair. induction l as [|[k0 vs0] l IH]; cbn [kv_add kv_get].
  - destruct (str_eqb k k') eqn:E.
    + apply str_eqb_eq in E as ->. split.
      * intros (vs & [= <-] & [<-|[]]). auto.
      * intros [(vs & [=] & _)|[_ ->]]. eexists. split; [reflexivity|now left].
    + apply str_eqb_neq in E. split; [intros (vs & [=] & _)|intros [(vs & [=] & _)|[-> _]]; easy].
  - destruct (str_eqb k' k0) eqn:E0; cbn [kv_get].
    + apply str_eqb_eq in E0 as ->. destruct (str_eqb k k0) eqn:E.
      * apply str_eqb_eq in E as ->. split.
        -- intros (vs & [= <-] & [<-|I]); [auto|]. left. eauto.
        -- intros [(vs & [= <-] & I)|[_ ->]]; (eexists; split; [reflexivity|]); [now right|now left].
      * apply str_eqb_neq in E. split; [auto|]. intros [H|[-> _]]; easy.
    + destruct (str_eqb k k0) eqn:E; [|assumption].
      apply str_eqb_eq in E as ->. split; [auto|]. intros [H|[-> _]]; [assumption|].
      now rewrite str_eqb_refl in E0.
Qed.

Lemma add_line_flag l c f :
  In f (cfg_flags (cfg_add_line l c)) <->
  In f (cfg_flags c) \/ (trim l = f /\ f <> [] /\ ~ In "="%char f).
Proof.
  unfold cfg_add_line. destruct (is_empty (trim l)) eqn:E.
  { apply is_empty_true in E. rewrite E. split; [auto|]. intros [H|(<- & N & _)]; easy. }
  apply is_empty_false in E. destruct (split_once "=" (trim l)) as [[a b]|] eqn:S.
  - assert (Hin : In "="%char (trim l)).
    { apply split_once_some in S. destruct S as [S _]. rewrite S. apply in_app_iff. right. now left. }
    destruct (unquote b) as [v|]; [destruct (is_empty v)|]; cbn [cfg_flags];
      (split; [auto|]; intros [H|(<- & _ & N)]; easy).
  - apply split_once_none in S. cbn [cfg_flags]. split.
    + intros [<-|H]; auto.
    + intros [H|(<- & _)]; [now right|now left].
Qed.

Lemma add_line_pair l c k v :
  has_pair k v (cfg_key_values (cfg_add_line l c)) <->
  has_pair k v (cfg_key_values c) \/
  (trim l = k ++ "="%char :: quote :: v ++ [quote] /\ ~ In "="%char k /\ v <> []).
Proof.
  unfold cfg_add_line. destruct (is_empty (trim l)) eqn:E.
  { apply is_empty_true in E. rewrite E. split; [auto|]. intros [H|(E' & _)]; [assumption|].
    symmetry in E'. now apply app_eq_nil in E'. }
  destruct (split_once "=" (trim l)) as [[a b]|] eqn:S.
  - apply split_once_some in S as [S N].
    assert (K : trim l = k ++ "="%char :: quote :: v ++ [quote] -> ~ In "="%char k ->
                a = k /\ b = quote :: v ++ [quote]).
    { intros E2 N2. rewrite E2 in S.
      assert (E3 := split_once_app "="%char k (quote :: v ++ [quote]) N2). rewrite S in E3.
      rewrite split_once_app in E3 by assumption. now injection E3. }
    destruct (unquote b) as [v'|] eqn:U; [destruct (is_empty v') eqn:Ev|].
    + apply unquote_some in U. apply is_empty_true in Ev. subst v'. split; [auto|].
      intros [H|(E2 & N2 & Nv)]; [assumption|]. destruct (K E2 N2) as [-> Eb]. rewrite U in Eb.
      injection Eb as Eb. destruct v; [easy|]. now destruct v.
    + apply unquote_some in U. apply is_empty_false in Ev. cbn [cfg_key_values].
      rewrite has_pair_add. split.
      * intros [H|[-> ->]]; [auto|]. right. rewrite S, U. auto.
      * intros [H|(E2 & N2 & Nv)]; [auto|]. destruct (K E2 N2) as [-> Eb]. right. split; [reflexivity|].
        rewrite U in Eb. injection Eb as Eb. now apply app_inj_tail in Eb.
    + split; [auto|]. intros [H|(E2 & N2 & Nv)]; [assumption|]. destruct (K E2 N2) as [-> Eb].
      apply unquote_some in Eb. congruence.
  - apply split_once_none in S. cbn [cfg_key_values]. split; [auto|].
    intros [H|(E2 & _)]; [assumption|]. exfalso. apply S. rewrite E2. apply in_app_iff. right. now left.
Qed.

Lemma fold_flag ls c f :
  In f (cfg_flags (fold_left (fun c l => cfg_add_line l c) ls c)) <->
  In f (cfg_flags c) \/ ((exists l, In l ls /\ trim l = f) /\ f <> [] /\ ~ In "="%char f).
Proof.
  revert c. induction ls as [|l ls IH]; intros c; cbn [fold_left].
  - split; [auto|]. intros [H|((x & [] & _) & _)]. assumption.
  - rewrite IH, add_line_flag. cbn [In]. split.
    + intros [[H|H]|((x & I & E) & H)]; [auto|right|right].
      * destruct H as (H1 & H2 & H3). split; [exists l; auto|auto].
      * split; [exists x; auto|auto].
    + intros [H|((x & [<-|I] & E) & H)]; [auto|left; right; tauto|right].
      split; [exists x; auto|assumption].
Qed.

Lemma fold_pair ls c k v :
  has_pair k v (cfg_key_values (fold_left (fun c l => cfg_add_line l c) ls c)) <->
  has_pair k v (cfg_key_values c) \/
  ((exists l, In l ls /\ trim l = k ++ "="%char :: quote :: v ++ [quote]) /\ ~ In "="%char k /\ v <> []).
Proof.
  revert c. induction ls as [|l ls IH]; intros c; cbn [fold_left].
  - split; [auto|]. intros [H|((x & [] & _) & _)]. assumption.
  - rewrite IH, add_line_pair. cbn [In]. split.
    + intros [[H|H]|((x & I & E) & H)]; [auto|right|right].
      * destruct H as (H1 & H2 & H3). split; [exists l; auto|auto].
      * split; [exists x; auto|auto].
    + intros [H|((x & [<-|I] & E) & H)]; [auto|left; right; tauto|right].
      split; [exists x; auto|assumption].
Qed.

Lemma pair_line_not_nil k v : k ++ "="%char :: quote :: v ++ [quote] <> [].
Proof. intros E. now apply app_eq_nil in E. Qed.

Lemma cfg_flag_iff out f : In f (cfg_flags (cfg_parse out)) <-> says_flag out f.
Proof.
  unfold cfg_parse, says_flag. rewrite fold_flag. cbn [cfg_flags In]. split.
  - intros [[]|(H & N & Ne)]. rewrite (lines_in out f N) in H. auto.
  - intros (H & N & Ne). right. rewrite <- (lines_in out f N) in H. auto.
Qed.

Lemma cfg_pair_iff out k v :
  has_pair k v (cfg_key_values (cfg_parse out)) <-> says_pair out k v /\ v <> [].
Proof.
  unfold cfg_parse, says_pair. rewrite fold_pair. cbn [cfg_key_values].
  rewrite (lines_in out _ (pair_line_not_nil k v)). split.
  - intros [(vs & [=] & _)|(H & N & Nv)]. auto.
  - intros ((H & N) & Nv). auto.
Qed.

Lemma mem_literals s l : mem s l = existsb (str_eqb s) l.
Proof. reflexivity. Qed.

Lemma cfg_pred_iff out p :
  (forall k v, p = PKeyValue k v -> v <> []) ->
  cfg_pred (cfg_parse out) p = true <-> holds out p.
Proof.
  intros Nv. destruct p as [f|k v]; cbn [cfg_pred holds].
  - assert (E : (str_eqb f (B "test") || str_eqb f (B "debug_assertions") || str_eqb f (B "proc_macro"))%bool
                = mem f never_flags).
    { unfold mem, never_flags. cbn [existsb]. now rewrite orb_false_r, orb_assoc. }
    rewrite E. destruct (mem f never_flags) eqn:M.
    + apply mem_in in M. split; [easy|]. intros [_ N]. now destruct (N M).
    + rewrite mem_in, cfg_flag_iff. split; [|tauto]. intros H. split; [assumption|].
      intros I. apply mem_in in I. congruence.
  - assert (E : str_eqb k (B "feature") = mem k never_keys).
    { unfold mem, never_keys. cbn [existsb]. now rewrite orb_false_r. }
    rewrite E. destruct (mem k never_keys) eqn:M.
    + apply mem_in in M. split; [easy|]. intros [_ N]. now destruct (N M).
    + assert (H : has_pair k v (cfg_key_values (cfg_parse out)) <-> says_pair out k v).
      { rewrite cfg_pair_iff. specialize (Nv k v eq_refl). tauto. }
      rewrite <- H. unfold has_pair.
      assert (Nk : ~ In k never_keys) by (intros I; apply mem_in in I; congruence).
      destruct (kv_get k (cfg_key_values (cfg_parse out))) as [vs|]; split.
      * intros I. apply mem_in in I. eauto.
      * intros ((vs' & [= <-] & I) & _). now apply mem_in.
      * easy.
      * intros ((vs' & [=] & _) & _).
Qed.

(** Without the restriction: empty values are never seen. *)
Lemma cfg_pred_empty out k : cfg_pred (cfg_parse out) (PKeyValue k []) = false.
Proof.
  cbn [cfg_pred]. destruct (str_eqb k (B "feature")); [reflexivity|].
  destruct (kv_get k (cfg_key_values (cfg_parse out))) as [vs|] eqn:G; [|reflexivity].
  destruct (mem [] vs) eqn:M; [|reflexivity]. apply mem_in in M.
  assert (H : has_pair k [] (cfg_key_values (cfg_parse out))) by (exists vs; auto).
  apply cfg_pair_iff in H as [_ N]. easy.
Qed.
