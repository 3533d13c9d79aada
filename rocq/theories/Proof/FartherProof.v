(** Lemmas for C70. *)
From Verif.Model Require Import Base Str Path BMap Error Value De EasyTypes Triple Serde Load Context Process Resolve Easy.
From Verif.Spec Require Import StrSpec PathSpec ConfigSpec LoadSpec EnvSpec RootSpec QuerySpec TargetSpec FinalSpec.
From Verif.Proof Require Import StrFacts BMapFacts LoadProof FinalProof RootProof LocalProof.
From Verif.Props Require Import Local.

Lemma first_before {A} (a b : list (option A)) x : first_defined a = Some x -> first_defined (a ++ b) = Some x.
Proof. intros H. rewrite first_defined_app. now rewrite H. Qed.
Lemma scalar_before {A} env l far (k : scalar_key A) v : scalar_of env l k = Some v -> scalar_of env (l ++ far) k = Some v.
Proof.
  unfold scalar_of, scalar_after. destruct (consulted (variables k) env) as [[n [a|]]|]; [auto|..];
    rewrite map_app; apply first_before.
Qed.
Lemma lists_before a b w : join_lists a = Some w -> exists more, join_lists (a ++ b) = Some (fst w, more ++ snd w).
Proof.
  destruct a as [|[fm ws] a]; [discriminate|]. cbn [app join_lists]. destruct fm; intros [= <-].
  - now exists [].
  - cbn [fst snd]. exists (concat (rev (map snd b))). f_equal. f_equal.
    change ((AsArray, ws) :: a ++ b) with (((AsArray, ws) :: a) ++ b). now rewrite map_app, rev_app_distr, concat_app.
Qed.
Lemma programs_before a b w : join_programs a = Some w -> exists more, join_programs (a ++ b) = Some (fst w, snd w ++ more).
Proof.
  destruct a as [|[fm ws] a]; [discriminate|]. cbn [app join_programs]. destruct fm; intros [= <-].
  - exists []. cbn [snd fst]. now rewrite app_nil_r.
  - cbn [fst snd]. exists (concat (map snd b)). f_equal. f_equal.
    change ((AsArray, ws) :: a ++ b) with (((AsArray, ws) :: a) ++ b). now rewrite map_app, concat_app.
Qed.
Lemma words_before env l far k w : words_of env l k = Some w ->
  exists more, words_of env (l ++ far) k = Some (fst w, more ++ snd w).
Proof.
  unfold words_of, words_after. destruct (consulted (list_variables k) env) as [[n [[fm ws]|]]|].
  - intros ->. exists []. cbn. now destruct w.
  - rewrite map_app, defined_app. apply lists_before.
  - rewrite map_app, defined_app. apply lists_before.
Qed.
(** Closer files. *)
Lemma lists_after a b w : (forall x, In x a -> fst x = AsArray) -> (forall x, In x b -> fst x = AsArray) ->
  join_lists b = Some w -> exists more, join_lists (a ++ b) = Some (fst w, snd w ++ more).
Proof.
  intros Ha Hb H. assert (K : forall l, (forall x, In x l -> fst x = AsArray) -> l <> [] ->
    join_lists l = Some (AsArray, concat (rev (map snd l)))).
  { intros [|[fm ws] l] Hl N; [easy|]. cbn [join_lists]. assert (E := Hl (fm, ws) (or_introl eq_refl)). cbn in E. now subst fm. }
  destruct b as [|x b]; [discriminate|]. rewrite K in H by (auto; discriminate). injection H as <-. cbn [fst snd].
  exists (concat (rev (map snd a))). rewrite K.
  - now rewrite map_app, rev_app_distr, concat_app.
  - intros y I. apply in_app_or in I as [I|I]; auto.
  - now destruct a.
Qed.
Lemma defined_in {A} (l : list (option A)) a : In a (defined l) <-> In (Some a) l.
Proof.
  induction l as [|[x|] l IH]; cbn; [easy| |]; rewrite IH; intuition congruence.
Qed.
Lemma said {A} (k : scalar_key A) (l : files) : Exists (fun x => look k (snd x) <> None) l ->
  exists v, first_defined (map (scalar_in k) l) = Some v.
Proof.
  induction 1 as [x r N|x r X IH]; cbn [map first_defined]; unfold scalar_in at 1.
  - destruct (look k (snd x)) as [v|]; [now exists (from_file (fst x) v)|easy].
  - destruct (look k (snd x)) as [v|]; [now exists (from_file (fst x) v)|exact IH].
Qed.
Lemma unsaid {A} (k : scalar_key A) (l : files) : Forall (fun x => look k (snd x) = None) l ->
  first_defined (map (scalar_in k) l) = None.
Proof.
  induction 1 as [|x r N _ IH]; [reflexivity|]. cbn [map first_defined]. unfold scalar_in at 1. now rewrite N.
Qed.
Lemma said_program k (l : files) : Exists (fun x => look_program k (snd x) <> None) l ->
  exists w, join_programs (defined (map (program_in k) l)) = Some w.
Proof.
  intros X. apply Exists_exists in X as (x & I & N).
  destruct (look_program k (snd x)) as [w|] eqn:L; [|easy].
  assert (K : In (words_from (fst x) w) (defined (map (program_in k) l))).
  { apply defined_in, in_map_iff. exists x. split; [|exact I]. unfold program_in. now rewrite L. }
  destruct (defined (map (program_in k) l)) as [|[[|] ws] r]; [destruct K|..]; cbn; eauto.
Qed.
