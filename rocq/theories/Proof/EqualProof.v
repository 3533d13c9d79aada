From Coq Require Import RelationClasses.
From Verif.Model Require Import Base Str Path Error Value De EasyTypes Equal.
From Verif.Spec Require Import StrSpec PathSpec Utf8Spec RootSpec OriginSpec.
From Verif.Proof Require Import StrFacts PathFacts Utf8Proof LossyProof RootProof.

Lemma definition_eqb_iff d d' : definition_eqb d d' = true <-> origin_of d = origin_of d'.
Proof. destruct d, d'; cbn; split; easy. Qed.

Lemma option_definition_eqb o o' :
  option_eqb definition_eqb o o' = true <-> option_map origin_of o = option_map origin_of o'.
Proof.
  destruct o as [d|], o' as [d'|]; cbn; try (split; congruence).
  rewrite definition_eqb_iff. split; congruence.
Qed.

Lemma vec_eqb_iff {A} (f : A -> A -> bool) (R : A -> A -> Prop) :
  (forall a b, f a b = true <-> R a b) -> forall l m, vec_eqb f l m = true <-> Forall2 R l m.
Proof.
  intros H. induction l as [|x l IH]; intros [|y m]; cbn; try (split; [easy | intros K; inversion K]).
  - reflexivity.
  - rewrite andb_true_iff, H, IH. split.
    + intros [a b]. now constructor.
    + intros K. inversion K; subst. easy.
Qed.

Lemma Forall2_same {A} (l m : list A) : Forall2 eq l m <-> l = m.
Proof.
  split.
  - induction 1; congruence.
  - intros <-. induction l; constructor; auto.
Qed.

Lemma strs_eqb l m : vec_eqb str_eqb l m = true <-> l = m.
Proof. rewrite (vec_eqb_iff str_eqb eq str_eqb_eq). apply Forall2_same. Qed.

Lemma value_eqb_iff {T} (f : T -> T -> bool) (R : T -> T -> Prop) :
  (forall a b, f a b = true <-> R a b) -> forall v w, value_eqb f v w = true <-> alike R v w.
Proof.
  intros H v w. unfold value_eqb, alike, origin_of_value. now rewrite andb_true_iff, H, option_definition_eqb.
Qed.

Lemma soa_eqb_iff a b : soa_eqb a b = true <-> alike_lists a b.
Proof.
  destruct a as [v|l], b as [w|m]; cbn; try (split; [easy | intros K; inversion K]).
  - rewrite (value_eqb_iff _ _ str_eqb_eq). split; [constructor; auto | intros K; now inversion K].
  - rewrite (vec_eqb_iff _ _ (value_eqb_iff _ _ str_eqb_eq)).
    split; [constructor; auto | intros K; now inversion K].
Qed.

Lemma epa_eqb_iff a b : epa_eqb a b = true <-> same_command a b.
Proof. unfold epa_eqb, same_command. now rewrite andb_true_iff, path_eqb_same, strs_eqb. Qed.

Lemma alike_equivalence {T} (R : T -> T -> Prop) : Equivalence R -> Equivalence (alike R).
Proof.
  intros [Rr Rs Rt]. unfold alike. split.
  - intros v. split; [apply Rr | reflexivity].
  - intros v w [a b]. split; [now apply Rs | congruence].
  - intros v w x [a b] [c d]. split; [now apply Rt with (val w) | congruence].
Qed.

Lemma Forall2_equivalence {A} (R : A -> A -> Prop) : Equivalence R -> Equivalence (Forall2 R).
Proof.
  intros [Rr Rs Rt]. split.
  - intros l. induction l; constructor; auto.
  - intros l m. induction 1; constructor; auto.
  - intros l m n H. revert n. induction H; intros n K; inversion K; subst; constructor; eauto.
Qed.

Lemma alike_lists_equivalence : Equivalence alike_lists.
Proof.
  pose proof (alike_equivalence (T := str) eq _) as E. pose proof (Forall2_equivalence _ E) as F. split.
  - intros [v|l]; constructor; reflexivity.
  - intros a b [v w H | l m H]; constructor; now symmetry.
  - intros a b c H K. destruct H as [v w H | l m H]; inversion K; subst; constructor; etransitivity; eassumption.
Qed.

Lemma path_eqb_refl p : path_eqb p p = true.
Proof. unfold path_eqb. now apply comps_eqb_eq. Qed.

Lemma same_place_equivalence : Equivalence same_place.
Proof.
  split.
  - intros p. apply path_eqb_same, path_eqb_refl.
  - intros p q (a & l & x & y). now exists a, l.
  - intros p q r H K. apply path_eqb_same in H, K. apply path_eqb_same.
    unfold path_eqb in *. rewrite comps_eqb_eq in *. congruence.
Qed.

Lemma same_command_equivalence : Equivalence same_command.
Proof.
  destruct same_place_equivalence as [r s t]. unfold same_command. split.
  - intros a. split; [apply r | reflexivity].
  - intros a b [x y]. split; [now apply s | congruence].
  - intros a b c [x y] [z w]. split; [now apply t with (epa_path b) | congruence].
Qed.

Lemma alike_none v w : alike (T := str) eq v w -> def v = None <-> def w = None.
Proof. unfold alike, origin_of_value. intros [_ H]. destruct (def v), (def w); cbn in H; split; congruence. Qed.

Lemma path_moves cwd v w p :
  alike eq v w -> (forall r, starts_at cwd v r -> starts_at cwd w r) -> path_at cwd v p -> path_at cwd w p.
Proof.
  intros A S H. pose proof (alike_none v w A) as N. destruct A as [A _]. destruct H as [H | d r D M R].
  - rewrite A. apply path_as_is. rewrite <- A. tauto.
  - destruct (S r (ex_intro _ d (conj D R))) as (d' & D' & R'). rewrite A.
    now apply path_below with d'; [| rewrite <- A |].
Qed.

Lemma program_moves cwd v w p :
  alike eq v w -> (forall r, starts_at cwd v r -> starts_at cwd w r) -> program_at cwd v p -> program_at cwd w p.
Proof.
  intros A S H. pose proof (alike_none v w A) as N. destruct A as [A _]. destruct H as [H | d r D M I R].
  - rewrite A. apply program_as_is. rewrite <- A. tauto.
  - destruct (S r (ex_intro _ d (conj D R))) as (d' & D' & R'). rewrite A.
    now apply program_below with d'; [| rewrite <- A | rewrite <- A |].
Qed.

Lemma outside_files cwd v w r : alike eq v w -> ~ in_a_file v -> ~ in_a_file w -> starts_at cwd v r -> starts_at cwd w r.
Proof.
  intros [_ A] N M (d & D & R). unfold origin_of_value in A. rewrite D in A. destruct (def w) as [d'|] eqn:D'; [|easy].
  exists d'. split; [exact D'|]. cbn in A.
  destruct R as [p ? ? | p ? ? | n |]; try (exfalso; apply N; exists p; tauto).
  - destruct d'; try easy. constructor.
  - destruct d' as [| |[p|]]; try easy; [exfalso; apply M; exists p; tauto | constructor].
Qed.

Lemma display_iff d t : definition_display d = t <-> shown d t.
Proof.
  destruct d as [p | n | [p|]]; cbn [definition_display].
  - rewrite lossy_iff. split; [constructor; auto | intros K; now inversion K].
  - unfold bt. split.
    + intros <-. exact (shown_variable n).
    + intros K. inversion K. reflexivity.
  - rewrite lossy_iff. split; [constructor; auto | intros K; now inversion K].
  - split; [intros <-; constructor | intros K; now inversion K].
Qed.

Lemma display_source d d' : plainly_named d -> plainly_named d' ->
  definition_display d = definition_display d' -> source_of d = source_of d'.
Proof.
  assert (F : forall p, absolute p /\ utf8 p -> exists r, lossy p = "/"%char :: r /\ p = "/"%char :: r).
  { intros p [[r R] U]. exists r. split; [|exact R]. change ("/"%char :: r) with (separator :: r). rewrite <- R. now apply lossy_same. }
  assert (V : forall n m, B "environment variable " ++ bt n = B "environment variable " ++ bt m -> n = m).
  { unfold bt. intros n m H. apply app_inv_head in H. apply app_inv_head in H. now apply app_inv_tail in H. }
  unfold plainly_named.
  destruct d as [p | n | [p|]], d' as [q | m | [q|]]; cbn [source_of definition_display]; intros P Q H;
    try (destruct (F p P) as (r & E & ->)); try (destruct (F q Q) as (r' & E' & ->));
    try (rewrite E in H); try (rewrite E' in H); try reflexivity; try (now f_equal; auto); discriminate.
Qed.
