(** Loading again what was written. *)
From Verif.Model Require Import Base Str Path BMap Error Value De Serde Triple EasyTypes Context Load ApplyEnv Resolve Process Easy EasySerde.
From Verif.Spec Require Import StrSpec Utf8Spec PathSpec WalkSpec ConfigSpec EnvSpec LoadSpec TripleSpec RootSpec SerdeSpec TargetSpec
  FinalSpec EasySerdeSpec ReloadSpec.
From Verif.Proof Require Import StrFacts BMapFacts Utf8Proof LossyProof TripleProof MergeProof LoadProof RootProof TargetProof
  FinalProof EasySerdeProof.
From Verif.Spec Require Import PathSpec TargetSpec FinalSpec.

(** ** Paths of a loaded configuration are settled *)
Definition anchored (cwd : str) (v : word) : Prop :=
  def v <> None /\ forall d r, def v = Some d -> root_of cwd d r -> absolute r.
Lemma anchored_variable cwd name a : absolute cwd -> anchored cwd (of_variable name a).
Proof.
  intros A. split; [discriminate|]. intros d r [= <-] H. now inversion H; subst.
Qed.
Lemma anchored_file cwd p v : absolute p -> anchored cwd (from_file p v).
Proof. intros A. split; [discriminate|]. intros d r [= <-] H. exact (root_absolute cwd p r A H). Qed.
Lemma program_settled cwd v p : anchored cwd v -> program_at cwd v p -> settled_program p.
Proof.
  intros (N & R) H. inversion H as [[D|[A|S]]|d r D A S Rt]; subst; [contradiction|now left|now right|].
  left. apply child_absolute. now apply (R d r).
Qed.
Lemma anchored_path cwd v p : anchored cwd v -> path_at cwd v p -> absolute p.
Proof. intros (N & R) H. now apply (path_absolute cwd v p). Qed.

Lemma upwards_absolute p l : upwards p l -> absolute p -> Forall absolute l.
Proof.
  induction 1 as [p N|p q l Pq U IH]; intros A; constructor; auto.
  apply IH. now apply (parent_absolute p q).
Qed.
Lemma file_absolute ex d l : file_in ex d l -> absolute d -> Forall absolute l.
Proof. intros [H|H H'|H H'] A; repeat constructor; now apply child_absolute. Qed.
Lemma files_absolute ex ds l : files_in ex ds l -> Forall absolute ds -> Forall absolute l.
Proof.
  induction 1 as [|d ds f fs Hf Hfs IH]; intros A; [constructor|]. inversion A; subst.
  apply Forall_app. split; [now apply (file_absolute ex d)|auto].
Qed.
Lemma visited_absolute f cwd home ps : visited f cwd home ps -> absolute cwd ->
  (forall h, home = Some h -> absolute h) -> Forall absolute ps.
Proof.
  intros (dirs & (above & U & H) & F) A Ah. apply (files_absolute _ _ _ F).
  apply upwards_absolute in U; [|assumption].
  assert (D : Forall absolute (map dot_cargo above)).
  { rewrite Forall_forall in *. intros x Hx. apply in_map_iff in Hx. destruct Hx as (y & <- & Hy).
    apply child_absolute. auto. }
  inversion H; subst; auto. apply Forall_app. split; [assumption|]. constructor; auto.
Qed.

Lemma first_in {A X} (f : X -> option A) l a : first_defined (map f l) = Some a -> exists x, In x l /\ f x = Some a.
Proof.
  induction l as [|x l IH]; [discriminate|]. cbn. destruct (f x) as [b|] eqn:E.
  - intros [= <-]. exists x. auto.
  - intros H. destruct (IH H) as (y & I & Hy). exists y. auto.
Qed.
Lemma defined_in {A X} (f : X -> option A) l a : In a (defined (map f l)) -> exists x, In x l /\ f x = Some a.
Proof.
  induction l as [|x l IH]; [intros []|]. cbn. destruct (f x) as [b|] eqn:E.
  - intros [<-|H]; [exists x; auto|]. destruct (IH H) as (y & I & Hy). exists y. auto.
  - intros H. destruct (IH H) as (y & I & Hy). exists y. auto.
Qed.
Lemma join_lists_in l fm ws v : join_lists l = Some (fm, ws) -> In v ws -> exists w, In w l /\ In v (snd w).
Proof.
  destruct l as [|[[] ws0] l]; [discriminate| |].
  - intros [= <- <-] H. exists (AsString, ws0). split; [now left|exact H].
  - intros [= <- <-] H. apply in_concat in H. destruct H as (x & Hx & H).
    change (rev (map snd l) ++ [ws0]) with (rev (map snd ((AsArray, ws0) :: l))) in Hx.
    apply in_rev, in_map_iff in Hx. destruct Hx as (w & <- & Hw). eauto.
Qed.
Lemma join_programs_in l fm ws v : join_programs l = Some (fm, ws) -> In v ws -> exists w, In w l /\ In v (snd w).
Proof.
  destruct l as [|[[] ws0] l]; [discriminate| |].
  - intros [= <- <-] H. exists (AsString, ws0). split; [now left|exact H].
  - intros [= <- <-] H. change (ws0 ++ concat (map snd l)) with (concat (map snd ((AsArray, ws0) :: l))) in H.
    apply in_concat in H. destruct H as (x & Hx & H). apply in_map_iff in Hx. destruct Hx as (w & <- & Hw). eauto.
Qed.

Lemma scalar_anchored cwd env l (k : scalar_key str) v :
  absolute cwd -> Forall absolute (map fst l) -> scalar_of env l k = Some v -> anchored cwd v.
Proof.
  intros A F H. unfold scalar_of, scalar_after in H.
  assert (K : first_defined (map (scalar_in k) l) = Some v -> anchored cwd v).
  { intros E. apply first_in in E. destruct E as (x & Hx & E). unfold scalar_in in E.
    destruct (look k (snd x)) as [w|]; [|discriminate]. injection E as <-. apply anchored_file.
    rewrite Forall_forall in F. apply F, in_map, Hx. }
  destruct (consulted (variables k) env) as [[name [a|]]|]; auto.
  destruct (switches_off k a); [discriminate|]. injection H as <-. now apply anchored_variable.
Qed.
Lemma words_anchored cwd env vars b ws v :
  absolute cwd -> (forall fm ws' , b = Some (fm, ws') -> In v ws' -> anchored cwd v) ->
  words_after vars env b = Some ws -> In v (snd ws) -> anchored cwd v.
Proof.
  intros A F H I. unfold words_after in H.
  assert (K : b = Some ws -> anchored cwd v) by (destruct ws; eauto).
  destruct (consulted vars env) as [[name [[fm l]|]]|]; auto. injection H as <-. cbn in I.
  apply in_map_iff in I. destruct I as (a & <- & _). now apply anchored_variable.
Qed.
Lemma list_anchored cwd env l k ws v :
  absolute cwd -> Forall absolute (map fst l) -> words_of env l k = Some ws -> In v (snd ws) -> anchored cwd v.
Proof.
  intros A F. apply words_anchored; [exact A|]. intros fm ws' J I.
  destruct (join_lists_in _ _ _ _ J I) as (w & Hw & Iw). apply defined_in in Hw. destruct Hw as (x & Hx & E).
  unfold list_in in E. destruct (look_list k (snd x)) as [w0|]; [|discriminate]. injection E as <-.
  cbn in Iw. apply in_map_iff in Iw. destruct Iw as (y & <- & _). apply anchored_file.
  rewrite Forall_forall in F. apply F, in_map, Hx.
Qed.
Lemma program_anchored cwd env l k ws v :
  absolute cwd -> Forall absolute (map fst l) -> program_in_all env l k = Some ws -> In v (snd ws) -> anchored cwd v.
Proof.
  intros A F H I. unfold program_in_all in H.
  assert (K : forall fm ws', join_programs (defined (map (program_in k) l)) = Some (fm, ws') -> In v ws' -> anchored cwd v).
  { intros fm ws' J I'. destruct (join_programs_in _ _ _ _ J I') as (w & Hw & Iw). apply defined_in in Hw.
    destruct Hw as (x & Hx & E). unfold program_in in E. destruct (look_program k (snd x)) as [w0|]; [|discriminate].
    injection E as <-. cbn in Iw. apply in_map_iff in Iw. destruct Iw as (y & <- & _). apply anchored_file.
    rewrite Forall_forall in F. apply F, in_map, Hx. }
  destruct (join_programs (defined (map (program_in k) l))) as [[fm ws']|] eqn:J.
  - assert (E : ws = (fm, ws')) by (destruct k; cbn in H; congruence). subst ws. exact (K _ _ eq_refl I).
  - destruct k; cbn in H; [|discriminate]. eapply words_anchored; [exact A| |exact H|exact I]. discriminate.
Qed.

Lemma load_settled f p cwd o c :
  (forall e, o_env o = Some e -> one_value_each e) ->
  absolute cwd -> (forall h, home_of p o cwd (Some h) -> absolute h) ->
  easy_load_with_options f p cwd o = Ok c -> all_settled c.
Proof.
  intros N A Ah H. destruct (proj1 (load_accepted f p cwd o N)) as (env & l & S & _); [now rewrite H|].
  assert (F : Forall absolute (map fst l)).
  { destruct S as (_ & home & ps & Hh & V & R). destruct R as (<- & _).
    apply (visited_absolute f cwd home); auto. intros h ->. auto. }
  destruct (merged_of_sources _ _ _ _ _ _ _ S H) as (c1 & de & Hc & Ha & M1 & M2 & M3 & _).
  destruct (from_unresolved_fields c1 _ de c Hc Ha) as (K1 & K2 & K3 & K4 & _).
  change (cx_current_dir (into_context p o cwd)) with cwd in K1, K2, K3. split; [|split; [|split]].
  - intros B k a E. destruct (field k) eqn:Fk; [|destruct k; try discriminate Fk; exact I].
    specialize (K1 B k Fk). rewrite M1, E in K1.
    destruct k; try exact I; cbn [settled];
      match type of K1 with both _ (scalar_of env l ?k) _ =>
        destruct (scalar_of env l k) as [v|] eqn:Ev; [|destruct K1];
        pose proof (scalar_anchored cwd env l k v A F Ev) as An
      end; cbn in K1; first [exact (program_settled cwd v a An K1) | exact (anchored_path cwd v a An K1)].
  - intros ts t E It Sp. specialize (K2 BuildTarget eq_refl). rewrite M2, E in K2.
    destruct (words_of env l BuildTarget) as [ws|] eqn:Ew; [|destruct K2]. cbn in K2.
    assert (G : forall v, In v (snd ws) -> anchored cwd v) by (intros v; exact (list_anchored cwd env l _ ws v A F Ew)).
    clear E Ew. revert G It. induction K2 as [|v u vs us T K2 IH]; [intros _ []|]. intros G [<-|It].
    + inversion T as [Ns|q Sq Pq]; subst; [contradiction|]. apply (anchored_path cwd v); [apply G; now left|exact Pq].
    + apply IH; [intros v' Hv'; apply G; now right|exact It].
  - intros b E. rewrite M3, E in K3. destruct (program_in_all env l DocBrowser) as [ws|] eqn:Ew; [|destruct K3].
    cbn in K3. destruct K3 as (v & args & Es & Pv & _). apply (program_settled cwd v); [|exact Pv].
    apply (program_anchored cwd env l _ ws v A F Ew). rewrite Es. now left.
  - intros n e E. specialize (K4 n). rewrite E in K4. destruct (look (EnvVarValue n) de); [|destruct K4].
    now destruct K4.
Qed.

(** ** One file, no variables *)
Lemma none_consulted {A} (vars : list (reader A)) : consulted vars [] = None.
Proof. unfold consulted. induction vars; [reflexivity|exact IHvars]. Qed.
Lemma none_readable {A} (vars : list (reader A)) : readable vars [].
Proof. intros name. now rewrite none_consulted. Qed.
Lemma scalar_one {A} (k : scalar_key A) q c : scalar_of [] [(q, c)] k = option_map (from_file q) (look k c).
Proof.
  unfold scalar_of, scalar_after. rewrite none_consulted. cbn. unfold scalar_in. cbn. destruct (look k c); reflexivity.
Qed.
Lemma words_one k q c : words_of [] [(q, c)] k = option_map (words_from q) (look_list k c).
Proof.
  unfold words_of, words_after. rewrite none_consulted. cbn. unfold list_in. cbn.
  destruct (look_list k c) as [[[] ws]|]; cbn; try reflexivity. unfold words_from. cbn. now rewrite app_nil_r.
Qed.
Lemma program_one k q c : program_in_all [] [(q, c)] k = option_map (words_from q) (look_program k c).
Proof.
  unfold program_in_all. cbn. unfold program_in. cbn.
  destruct (look_program k c) as [[[] ws]|]; cbn.
  - destruct k; reflexivity.
  - unfold words_from. cbn. rewrite app_nil_r. destruct k; reflexivity.
  - destruct k; reflexivity.
Qed.
Lemma entry_one k q c : entry_of [] [(q, c)] k = has_entry k c.
Proof.
  unfold entry_of. cbn [existsb snd]. rewrite orb_false_r. destruct k; cbn -[has_entry]; rewrite ?orb_false_r, ?andb_false_r, ?orb_false_r; reflexivity.
Qed.

Definition at_file {A} (q : str) (a : A) : value A := mkValue a (Some (DefPath q)).
Lemma settled_program_at cwd q a : settled_program a -> program_at cwd (at_file q a) a.
Proof. intros [H|H]; apply (program_as_is cwd (at_file q a)); cbn; auto. Qed.
Lemma settled_program_only cwd q a b : settled_program a -> program_at cwd (at_file q a) b -> b = a.
Proof. intros S H. inversion H as [|d r D A Sp R]; subst; [reflexivity|]. destruct S; cbn in *; contradiction. Qed.
Lemma settled_path_at cwd q a : absolute a -> path_at cwd (at_file q a) a.
Proof. intros H. apply (path_as_is cwd (at_file q a)). auto. Qed.
Lemma settled_path_only cwd q a b : absolute a -> path_at cwd (at_file q a) b -> b = a.
Proof. intros S H. inversion H as [|d r D A R]; subst; [reflexivity|]. cbn in *. contradiction. Qed.
Lemma settled_final {A} (k : scalar_key A) cwd q a : settled k a -> final_at cwd k (at_file q a) a.
Proof.
  destruct k; intros S; cbn in *; first [now apply settled_program_at | now apply settled_path_at | reflexivity].
Qed.
Lemma settled_final_only {A} (k : scalar_key A) cwd q a b : settled k a -> final_at cwd k (at_file q a) b -> b = a.
Proof.
  destruct k; intros S H; cbn in *;
    first [exact (settled_program_only cwd q _ _ S H) | exact (settled_path_only cwd q _ _ S H) | exact H].
Qed.
Lemma settled_targets cwd q ws us : (forall t, In t ws -> spec_like t -> absolute t) ->
  Forall2 (target_at cwd) (map (at_file q) ws) us -> ws = us.
Proof.
  revert us. induction ws as [|w ws IH]; intros us Ab H; inversion H as [|v u vs us' T H' ]; subst; [reflexivity|]. f_equal.
  - inversion T as [N|x Sp P]; subst; [reflexivity|]. symmetry. apply (settled_path_only cwd q w); [|exact P].
    apply Ab; [now left|exact Sp].
  - apply IH; [|exact H']. intros t It. apply Ab. now right.
Qed.

Lemma utf8_repaired s : utf8 s -> repaired s s.
Proof. intros H. rewrite <- (proj2 (lossy_same s) H) at 2. apply lossy_repaired. Qed.
Lemma repaired_same s t : repaired s t -> utf8 s -> t = s.
Proof. intros H U. exact (repaired_unique s t H s (utf8_repaired s U)). Qed.
Lemma repaired_all l ts : Forall2 repaired l ts -> (forall x, In x l -> utf8 x) -> ts = l.
Proof.
  induction 1 as [|x y l ts H F IH]; intros U; [reflexivity|]. f_equal.
  - apply (repaired_same x y H), U. now left.
  - apply IH. intros z Hz. apply U. now right.
Qed.
Lemma eq_all (l ts : list str) : Forall2 eq l ts -> ts = l.
Proof. induction 1; congruence. Qed.
Lemma from_words q (l : list str) : snd (words_from q (AsArray, map unlabelled l)) = map (at_file q) l.
Proof. unfold words_from. cbn [snd fst]. now rewrite map_map. Qed.

Section Again.
Context (c : econfig) (c0 : config) (q cwd : str).
Context (W : well_formed c) (S : all_settled c) (T : all_text c) (Y : says_settings c c0)
  (R : exists r, root_of cwd (DefPath q) r).
Let l := [(q, c0)].

Lemma again_scalar {A} (k : scalar_key A) : field k = true ->
  scalar_of [] l k = option_map (at_file q) (easy_look k c).
Proof.
  intros F. unfold l. rewrite scalar_one. destruct Y as (Y1 & _). rewrite (Y1 A k F).
  destruct (easy_look k c); reflexivity.
Qed.
Lemma again_words k : list_field k = true ->
  words_of [] l k = option_map (fun ws => (AsArray, map (at_file q) ws)) (easy_words k c).
Proof.
  intros F. unfold l. rewrite words_one. destruct Y as (_ & Y2 & _). specialize (Y2 k F).
  destruct (easy_words k c) as [ws|] eqn:E, (look_list k c0) as [w|]; try destruct Y2; [|reflexivity].
  destruct H as (H & ->). cbn [option_map]. unfold words_from. cbn [fst snd]. rewrite map_map.
  assert (K : x = ws).
  { destruct k; try (apply eq_all; exact H). apply (repaired_all _ _ H). intros z. exact (proj1 T ws z E). }
  now rewrite K.
Qed.
Lemma again_browser : program_in_all [] l DocBrowser
  = option_map (fun b => (AsArray, map (at_file q) (command_words b))) (ed_browser (ec_doc c)).
Proof.
  unfold l. rewrite program_one. destruct Y as (_ & _ & Y3 & _).
  destruct (ed_browser (ec_doc c)) as [b|] eqn:E, (look_program DocBrowser c0) as [w|]; try destruct Y3; [|reflexivity].
  destruct H as (H & ->). cbn [option_map]. unfold words_from. cbn [fst snd]. rewrite map_map.
  rewrite (repaired_all _ _ H (fun z => proj1 (proj2 T) b z E)). reflexivity.
Qed.
Lemma again_env n : scalar_of [] l (EnvVarValue n) = option_map (fun e => at_file q (ee_value e)) (bget n (ec_env c)).
Proof.
  unfold l. rewrite scalar_one. destruct Y as (_ & _ & _ & Y4 & _). specialize (Y4 n).
  destruct (bget n (ec_env c)) as [e|] eqn:E, (look (EnvVarValue n) c0) as [v|]; try destruct Y4; [|reflexivity].
  destruct H as (H & ->). apply repaired_same in H; [|exact (proj2 (proj2 T) n e E)]. subst. reflexivity.
Qed.
Lemma again_relative n : on (scalar_of [] l (EnvVarRelative n)) = false.
Proof.
  unfold l. rewrite scalar_one. destruct Y as (_ & _ & _ & _ & Y5 & _). rewrite (proj2 (Y5 n)).
  destruct S as (_ & _ & _ & S4). unfold ConfigSpec.under.
  destruct (bget n (ec_env c)) as [e|] eqn:E; [|reflexivity]. now rewrite (S4 n e E).
Qed.
Lemma again_force n : on (scalar_of [] l (EnvVarForce n)) = match bget n (ec_env c) with Some e => ee_force e | None => false end.
Proof.
  unfold l. rewrite scalar_one. destruct Y as (_ & _ & _ & _ & Y5 & _). rewrite (proj1 (Y5 n)).
  unfold ConfigSpec.under. destruct (bget n (ec_env c)) as [e|]; [|reflexivity]. cbn. now destruct (ee_force e).
Qed.

Lemma again_shapes : same_shapes (map snd l).
Proof.
  intros k a b [<-|[]] [<-|[]]. cbn [snd]. destruct (shape_at k c0); [reflexivity|exact I].
Qed.
Lemma again_readable : variables_readable [] l.
Proof. split; [|split]; intros; apply none_readable. Qed.
Lemma again_resolvable : resolvable cwd [] l.
Proof.
  destruct S as (S1 & S2 & S3 & S4). split; [|split; [|split]].
  - intros k v F. rewrite (again_scalar k F). destruct (easy_look k c) as [a|] eqn:E; [|discriminate].
    intros [= <-]. exists a. apply settled_final. exact (S1 _ k a E).
  - intros ws v E I Sp. rewrite (again_words BuildTarget eq_refl) in E.
    cbn [easy_words] in E. destruct (eb_target (ec_build c)) as [ts|] eqn:Et; [|discriminate].
    injection E as <-. cbn [snd] in I. rewrite map_map in I. apply in_map_iff in I. destruct I as (t & <- & It).
    cbn [val at_file] in *. split; [intros d [= <-]; exact R|].
    destruct W as (_ & _ & _ & M). specialize (M ts Et). rewrite Forall_forall in M. specialize (M t It).
    destruct M as (s & d & cw & M). pose proof (ex_intro _ s (ex_intro _ d (ex_intro _ cw M)) : made t) as Mt.
    destruct (made_cases t Mt) as [(N & _)|(_ & Fs & Ht)]; [contradiction|].
    apply file_stem_iff in Fs. destruct Fs as (n & L & St). exists n, (tt_triple t). split; [exact L|split; [exact St|]].
    destruct (triple_new_cases _ _ _ _ _ M) as [(_ & ->)|(_ & _ & U & _)]; [|exact U]. exfalso.
    cbn in Ht. discriminate Ht.
  - intros ws E. rewrite again_browser in E. destruct (ed_browser (ec_doc c)) as [b|] eqn:Eb; [|discriminate].
    injection E as <-. exists (epa_path b, epa_args b), (at_file q (epa_path b)), (map (at_file q) (epa_args b)).
    split; [reflexivity|]. split; [apply settled_program_at, S3; reflexivity|]. cbn [snd]. rewrite map_map. cbn. symmetry. apply map_id.
  - intros n v _ H. rewrite again_relative in H. discriminate H.
Qed.

Lemma again_same f p o c' : sources f p cwd o [] l -> easy_load_with_options f p cwd o = Ok c' -> same_shown c c'.
Proof.
  intros Sr H. destruct (merged_of_sources _ _ _ _ _ _ _ Sr H) as (c1 & de & Hc & Ha & M1 & M2 & M3 & M4).
  destruct (from_unresolved_fields c1 _ de c' Hc Ha) as (K1 & K2 & K3 & K4 & K5).
  change (cx_current_dir (into_context p o cwd)) with cwd in K1, K2, K3, K4.
  destruct S as (S1 & S2 & S3 & S4). split; [|split; [|split; [|split]]].
  - intros A k. destruct (field k) eqn:F; [|destruct k; try discriminate F; reflexivity].
    specialize (K1 A k F). rewrite M1, (again_scalar k F) in K1.
    destruct (easy_look k c) as [a|] eqn:E, (easy_look k c') as [b|]; try destruct K1; [|reflexivity].
    f_equal. symmetry. exact (settled_final_only k cwd q a b (S1 _ k a E) K1).
  - intros k. destruct (list_field k) eqn:F; [|destruct k; try discriminate F; reflexivity].
    specialize (K2 k F). rewrite M2, (again_words k F) in K2.
    destruct (easy_words k c) as [ws|] eqn:E, (easy_words k c') as [us|]; try destruct K2; [|reflexivity].
    f_equal. cbn [option_map] in K2.
    assert (G : forall us', us' = map val (map (at_file q) ws) -> ws = us').
    { intros us' ->. rewrite map_map. cbn. symmetry. apply map_id. }
    destruct k; try (apply G; exact K2). cbn [final_words snd] in K2.
    assert (Ab : forall t, In t ws -> spec_like t -> absolute t) by (intros t; exact (S2 ws t E)).
    exact (settled_targets cwd q ws us Ab K2).
  - rewrite M3, again_browser in K3.
    destruct (ed_browser (ec_doc c)) as [b|] eqn:E, (ed_browser (ec_doc c')) as [b'|]; try destruct K3; [|reflexivity].
    destruct H0 as (args & Es & Pv & Ea). cbn in Es. injection Es as <- <-. cbn in Pv, Ea.
    apply settled_program_only in Pv; [|now apply S3]. rewrite map_map in Ea. cbn in Ea. rewrite map_id in Ea.
    destruct b, b'. cbn in *. now subst.
  - intros n. specialize (K4 n). rewrite !M1, again_env in K4.
    destruct (bget n (ec_env c)) as [e|] eqn:E, (bget n (ec_env c')) as [e'|]; try destruct K4; [|reflexivity].
    rewrite again_relative, again_force in H1. destruct H1 as (Hf & Hv). rewrite E in Hf. cbn in Hv.
    pose proof (S4 n e E). destruct e, e'. cbn in *. now subst.
  - intros n. rewrite K5, M4. unfold l. rewrite entry_one. destruct Y as (_ & _ & _ & _ & _ & Y6).
    symmetry. apply Y6.
Qed.
End Again.

Lemma reload f p cwd o q t c m :
  well_formed c -> fits c -> all_settled c -> all_text c -> told_apart m ->
  eser_config c m = Some t -> only_file f p cwd o q t ->
  exists c0 c', de_config t = Some c0 /\ says_settings c c0 /\ says_targets m c0 /\
    sources f p cwd o [] [(q, c0)] /\ easy_load_with_options f p cwd o = Ok c' /\ same_shown c c'.
Proof.
  intros W F S T N E (En & (home & Hh & V) & Rd & R). rewrite w_config in E. unfold when_ok in E.
  destruct (writes c m); [|discriminate]. injection E as <-. set (c0 := back c m).
  assert (D : de_config (ser_config (u_config c m)) = Some c0) by now apply read_back.
  assert (Y : says_settings c c0) by apply back_settings.
  assert (Sr : sources f p cwd o [] [(q, c0)]).
  { split; [exact En|]. exists home, [q]. split; [exact Hh|]. split; [exact V|]. split; [reflexivity|].
    constructor; [|constructor]. eexists. split; [exact Rd|exact D]. }
  assert (Ov : forall e, o_env o = Some e -> one_value_each e).
  { intros e He. unfold environment in En. rewrite He in En. apply En. }
  assert (K : is_ok (easy_load_with_options f p cwd o) = true).
  { apply (load_accepted f p cwd o Ov). exists [], [(q, c0)]. split; [exact Sr|]. split; [apply again_shapes|].
    split; [apply again_readable|now apply (again_resolvable c)]. }
  destruct (easy_load_with_options f p cwd o) as [c'| |] eqn:H; try discriminate K.
  exists c0, c'. split; [exact D|]. split; [exact Y|]. split; [now apply back_targets|]. split; [exact Sr|]. split; [reflexivity|].
  now apply (again_same c c0 q cwd S T Y f p o).
Qed.

(** ** Targets *)
Lemma known_again pr w c s T e : reached pr w c s -> bget T (s_target s) = Some e ->
  exists t, made t /\ cli_target t = T /\ run_query pr w c (QTarget (ArgTriple t)) s = (Ok (ATarget e), s).
Proof.
  intros R H. destruct (reached_known pr w c s R) as (_ & K). destruct (K T e H) as (t & _ & _ & _ & M & <- & _).
  exists t. split; [exact M|]. split; [reflexivity|]. cbn. unfold mapM, q_target, q_target_of, init_target_config.
  unfold bindM, lift, get, ret. cbn. rewrite H. cbn. rewrite H. reflexivity.
Qed.

Lemma first_here {A} (l : list (option A)) a : first_defined l = Some a -> In (Some a) l.
Proof. induction l as [|[b|] l IH]; cbn; [discriminate|intros [= ->]; now left|intros H; right; auto]. Qed.

Section Settled.
Context (cwd : str) (env : env_map) (l : files) (tables : bmap target_config) (matches : str -> bool) (T : str).
Context (A : absolute cwd) (F : Forall absolute (map fst l)) (Tb : tables_of l tables).

Lemma matching_in x : In x (matching tables matches) -> exists k, bget k tables = Some x.
Proof.
  intros H. apply in_map_iff in H. destruct H as ((k & y) & <- & H). apply filter_In in H. destruct H as (H & _).
  exists k. apply sorted_in_bget; [|exact H]. apply in_order_sorted, Tb.
Qed.
Lemma table_linker k v : under tables k t_linker = Some v -> anchored cwd v.
Proof.
  destruct Tb as (_ & _ & E & _). rewrite E. intros H. apply first_in in H. destruct H as (x & Hx & E').
  unfold scalar_in in E'. destruct (look (TargetLinker k) (snd x)) as [u|]; [|discriminate]. injection E' as <-.
  apply anchored_file. rewrite Forall_forall in F. apply F, in_map, Hx.
Qed.
Lemma linker_anchored v : target_linker env tables matches T = Some v -> anchored cwd v.
Proof.
  intros H. apply first_here in H. apply in_app_iff in H. destruct H as [[H|[H|[]]]|H].
  - unfold var in H. destruct (env_get _ env) as [x|]; [|discriminate]. injection H as <-. now apply anchored_variable.
  - exact (table_linker T v H).
  - apply in_map_iff in H. destruct H as (x & E & H). apply matching_in in H. destruct H as (k & H).
    apply (table_linker k). unfold under. now rewrite H.
Qed.
Lemma table_runner k ws v : under tables k runner_words = Some ws -> In v (snd ws) -> anchored cwd v.
Proof.
  destruct Tb as (_ & _ & _ & E & _). rewrite E. destruct ws as [fm ws]. intros H I.
  destruct (join_programs_in _ _ _ _ H I) as (w & Hw & Iw). apply defined_in in Hw. destruct Hw as (x & Hx & E').
  unfold program_in in E'. destruct (look_program (TargetRunner k) (snd x)) as [u|]; [|discriminate]. injection E' as <-.
  cbn in Iw. apply in_map_iff in Iw. destruct Iw as (y & <- & _). apply anchored_file.
  rewrite Forall_forall in F. apply F, in_map, Hx.
Qed.
Lemma runner_anchored ws v : target_runner env tables matches T = Some ws -> In v (snd ws) -> anchored cwd v.
Proof.
  intros H I. apply first_here in H. apply in_app_iff in H. destruct H as [[H|[H|[]]]|H].
  - unfold var_words in H. destruct (env_get _ env) as [x|]; [|discriminate]. injection H as <-. cbn in I.
    apply in_map_iff in I. destruct I as (y & <- & _). now apply anchored_variable.
  - exact (table_runner T ws v H I).
  - apply in_map_iff in H. destruct H as (x & E & H). apply matching_in in H. destruct H as (k & H).
    apply (table_runner k ws); [|exact I]. unfold under. now rewrite H.
Qed.
End Settled.

Lemma flags_none override env tables matches T build :
  target_rustflags env tables matches T override build = None -> build = None.
Proof. unfold target_rustflags, otherwise. destruct override; [auto|]. now destruct (gathered _). Qed.
Lemma doc_flags_none override env tables T build : target_rustdocflags env tables T override build = None -> build = None.
Proof. unfold target_rustdocflags, otherwise. destruct override; [auto|]. now destruct (gathered _). Qed.

Lemma load_target_settled f p cwd o c pr w s T e :
  (forall e, o_env o = Some e -> one_value_each e) ->
  absolute cwd -> (forall h, home_of p o cwd (Some h) -> absolute h) ->
  (forall q c0, contents f q c0 -> text_keys (c_target c0)) ->
  easy_load_with_options f p cwd o = Ok c -> reached pr w c s -> In (T, e) (s_target s) -> target_settled c e.
Proof.
  intros N A Ah U H Rs I. destruct (proj1 (load_accepted f p cwd o N)) as (env & l & S & _); [now rewrite H|].
  assert (F : Forall absolute (map fst l)).
  { destruct S as (_ & home & ps & Hh & V & R). destruct R as (<- & _).
    apply (visited_absolute f cwd home); auto. intros h ->. auto. }
  assert (Ul : Forall (fun x => text_keys (c_target (snd x))) l).
  { destruct S as (_ & home & ps & _ & _ & R). destruct R as (_ & R). revert R. apply Forall_impl. intros x. apply U. }
  apply (sorted_in_bget _ _ _ (proj1 (in_order_sorted _) (reached_in_order pr w c s Rs))) in I.
  destruct (known_again pr w c s T e Rs I) as (t & M & <- & Hq).
  assert (Tb := tables_loaded f p cwd o env l c S H).
  destruct (target_final f p cwd o env l c pr w (QTarget (ArgTriple t)) (ArgTriple t) t s _ s S H Ul Rs
              (or_introl eq_refl) M eq_refl Hq _ Tb) as (m & e' & _ & X & Ex).
  injection Ex as <-. destruct X as (X1 & X2 & X3 & X4).
  destruct (merged_of_sources _ _ _ _ _ _ _ S H) as (c1 & de & Hc & Ha & _ & M2 & _).
  destruct (from_unresolved_fields c1 _ de c Hc Ha) as (_ & K2 & _).
  split; [|split; [|split]].
  - intros x E. rewrite E in X1. destruct (target_linker _ _ _ _) as [v|] eqn:El; [|destruct X1].
    apply (program_settled cwd v); [|exact X1]. exact (linker_anchored cwd env l _ m _ A F Tb v El).
  - intros r E. rewrite E in X2. destruct (target_runner _ _ _ _) as [ws|] eqn:Er; [|destruct X2].
    destruct X2 as (v & args & Es & Pv & _). apply (program_settled cwd v); [|exact Pv].
    apply (runner_anchored cwd env l _ m _ A F Tb ws v Er). rewrite Es. now left.
  - intros E. rewrite E in X3. destruct (target_rustflags _ _ _ _ _ _) eqn:Ef; [discriminate|].
    apply flags_none in Ef. specialize (K2 BuildRustflags eq_refl). rewrite M2, Ef in K2.
    destruct (easy_words BuildRustflags c); [destruct K2|reflexivity].
  - intros E. rewrite E in X4. destruct (target_rustdocflags _ _ _ _ _) eqn:Ef; [discriminate|].
    apply doc_flags_none in Ef. specialize (K2 BuildRustdocflags eq_refl). rewrite M2, Ef in K2.
    destruct (easy_words BuildRustdocflags c); [destruct K2|reflexivity].
Qed.

Lemma in_bget_some {V} k (v : V) m : In (k, v) m -> is_some (bget k m) = true.
Proof.
  induction m as [|[k' v'] m IH]; [intros []|]. cbn. destruct (str_eqb k k') eqn:E; [reflexivity|].
  intros [H|H]; [|auto]. injection H as -> ->. now rewrite str_eqb_refl in E.
Qed.
Section AgainTarget.
Context (c : econfig) (c0 : config) (m : bmap etarget) (q cwd : str) (tables : bmap target_config)
  (matches : str -> bool) (T : str).
Context (Tx : all_text c) (Y : says_settings c c0) (Ym : says_targets m c0) (Tb : tables_of [(q, c0)] tables).
Context (P : names_plain m).

Lemma again_known n : has_entry (TargetEntry n) c0 = true -> exists e, In (n, e) m.
Proof.
  intros H. destruct Ym as (_ & K). destruct (K n H) as (t & e & I & R). exists e.
  now rewrite (repaired_same t n R (proj1 (P t e I))).
Qed.
Lemma again_says n e : In (n, e) m -> says_target e n c0.
Proof. intros I. destruct Ym as (K & _). apply (K n e n I). apply utf8_repaired. exact (proj1 (P n e I)). Qed.
Lemma again_tables n : is_some (bget n tables) = has_entry (TargetEntry n) c0.
Proof. destruct Tb as (_ & E & _). rewrite E. cbn [existsb snd]. apply orb_false_r. Qed.
Lemma again_no_cfg k v : In (k, v) tables -> is_cfg k = false.
Proof.
  intros H. apply sorted_in_bget in H; [|apply in_order_sorted, Tb].
  assert (K := again_tables k). rewrite H in K. cbn in K. symmetry in K. destruct (again_known k K) as (e & I).
  exact (proj2 (P k e I)).
Qed.
Lemma again_text : text_keys (c_target c0).
Proof.
  intros k v I. destruct (again_known k) as (e & J); [|exact (proj1 (P k e J))].
  cbn [has_entry]. exact (in_bget_some k v _ I).
Qed.
Lemma again_matching : matching tables matches = [].
Proof.
  unfold matching. replace (filter _ tables) with (@nil (str * target_config)); [reflexivity|]. symmetry.
  assert (K := again_no_cfg). clear Tb. induction tables as [|[k v] m' IH]; [reflexivity|]. cbn [filter fst].
  rewrite (K k v (or_introl eq_refl)). cbn [andb]. apply IH. intros k' v' I. apply (K k' v'). now right.
Qed.
Lemma again_linker : target_linker [] tables matches T = option_map (from_file q) (look (TargetLinker T) c0).
Proof.
  unfold target_linker. rewrite again_matching. unfold own. destruct Tb as (_ & _ & E & _). rewrite E.
  change (first_defined [None; first_defined [scalar_in (TargetLinker T) (q, c0)]] = scalar_in (TargetLinker T) (q, c0)).
  now destruct (scalar_in (TargetLinker T) (q, c0)).
Qed.
Lemma join_program_one (o : option (form * list word)) : join_programs (defined [o]) = o.
Proof. destruct o as [[[] ws]|]; cbn; rewrite ?app_nil_r; reflexivity. Qed.
Lemma join_list_one (o : option (form * list word)) : join_lists (defined [o]) = o.
Proof. destruct o as [[[] ws]|]; cbn; rewrite ?app_nil_r; reflexivity. Qed.
Lemma gathered_one (o : option (form * list word)) : gathered [o; None] = o.
Proof. destruct o as [[fm ws]|]; unfold gathered; cbn; rewrite ?app_nil_r; reflexivity. Qed.
Lemma again_runner : target_runner [] tables matches T = option_map (words_from q) (look_program (TargetRunner T) c0).
Proof.
  unfold target_runner. rewrite again_matching. unfold own. destruct Tb as (_ & _ & _ & E & _). rewrite E.
  cbn [map]. rewrite join_program_one.
  change (first_defined [None; program_in (TargetRunner T) (q, c0)] = program_in (TargetRunner T) (q, c0)).
  now destruct (program_in (TargetRunner T) (q, c0)).
Qed.
Lemma again_flags build : target_rustflags [] tables matches T false build
  = otherwise (option_map (words_from q) (look_list (TargetRustflags T) c0)) build.
Proof.
  unfold target_rustflags. rewrite again_matching. unfold own. destruct Tb as (_ & _ & _ & _ & E & _). rewrite E.
  cbn [map]. rewrite join_list_one. change (var_words [] T (B "RUSTFLAGS")) with (@None (form * list word)).
  cbn [app]. now rewrite gathered_one.
Qed.
Lemma again_doc_flags build : target_rustdocflags [] tables T false build
  = otherwise (option_map (words_from q) (look_list (TargetRustdocflags T) c0)) build.
Proof.
  unfold target_rustdocflags. unfold own. destruct Tb as (_ & _ & _ & _ & _ & E). rewrite E.
  cbn [map]. rewrite join_list_one. change (var_words [] T (B "RUSTDOCFLAGS")) with (@None (form * list word)).
  now rewrite gathered_one.
Qed.

Lemma vals_back (ws : list str) : map val (map (at_file q) ws) = ws.
Proof. rewrite map_map. apply map_id. Qed.
Lemma array_eq ws w : array_of eq ws w -> words_from q w = (AsArray, map (at_file q) ws).
Proof. intros (ts & H & ->). apply eq_all in H as ->. unfold words_from. cbn [fst snd]. now rewrite map_map. Qed.
Lemma own_flags (fl : option eflags) w b :
  both (fun f => array_of eq (ef_flags f)) fl w -> (fl = None -> b = None) ->
  option_map eflags_words (otherwise (option_map (words_from q) w) b) = fl.
Proof.
  intros H N. destruct fl as [[fl]|], w as [w|]; cbn [both] in H; try contradiction.
  - cbn [ef_flags] in H. cbn [option_map otherwise]. rewrite (array_eq fl w H).
    unfold eflags_words. cbn [snd]. now rewrite vals_back.
  - cbn. now rewrite (N eq_refl).
Qed.

Lemma again_settings e e' : In (T, e) m -> target_settled c e -> runner_text e ->
  settings_of [] [(q, c0)] tables cwd matches T e' -> e' = e.
Proof.
  intros I (S1 & S2 & S3 & S4) Rt (X1 & X2 & X3 & X4). destruct (again_says T e I) as (_ & Y1 & Y2 & Y3 & Y4).
  rewrite again_linker, Y1 in X1. rewrite again_runner in X2.
  change (overrides_target [] _) with false in X3, X4. rewrite again_flags in X3. rewrite again_doc_flags in X4.
  rewrite (own_flags _ _ _ Y3) in X3.
  2: { intros N. rewrite (again_words c c0 q Tx Y BuildRustflags eq_refl), (S3 N). reflexivity. }
  rewrite (own_flags _ _ _ Y4) in X4.
  2: { intros N. rewrite (again_words c c0 q Tx Y BuildRustdocflags eq_refl), (S4 N). reflexivity. }
  destruct e as [lk rn rf rd], e' as [lk' rn' rf' rd']. cbn [et_linker et_runner et_rustflags et_rustdocflags] in *. subst rf' rd'.
  f_equal.
  - destruct lk as [lk|], lk' as [lk'|]; cbn in X1; try contradiction; [|reflexivity].
    f_equal. exact (settled_program_only cwd q lk lk' (S1 lk eq_refl) X1).
  - destruct rn as [rn|], (look_program (TargetRunner T) c0) as [w|], rn' as [rn'|]; cbn [option_map both] in X2, Y2; try contradiction; [|reflexivity].
    destruct X2 as (v & args & Es & Pv & Ea). destruct Y2 as (ts & H2 & ->). cbn [fst snd] in Pv, Ea.
    rewrite (repaired_all _ _ H2 (fun x => Rt rn x eq_refl)) in Es. rewrite from_words in Es. cbn in Es.
    injection Es as <- <-. apply settled_program_only in Pv; [|now apply S2]. rewrite vals_back in Ea.
    destruct rn, rn'. cbn in *. now subst.
Qed.

Lemma again_unknown e' : (forall e, ~ In (T, e) m) -> settings_of [] [(q, c0)] tables cwd matches T e' -> e' = general_settings c.
Proof.
  intros N (X1 & X2 & X3 & X4).
  assert (K : bget T (c_target c0) = None).
  { destruct (bget T (c_target c0)) as [v|] eqn:E; [|reflexivity]. destruct (again_known T) as (e & I); [|destruct (N e I)].
    cbn. now rewrite E. }
  rewrite again_linker in X1. rewrite again_runner in X2.
  change (overrides_target [] _) with false in X3, X4. rewrite again_flags in X3. rewrite again_doc_flags in X4.
  rewrite (again_words c c0 q Tx Y BuildRustflags eq_refl) in X3. rewrite (again_words c c0 q Tx Y BuildRustdocflags eq_refl) in X4.
  cbn [look look_program look_list] in *. unfold ConfigSpec.under in *. rewrite K in *. cbn in X1, X2.
  unfold general_settings. destruct e' as [[] [] rf rd]; try contradiction. cbn in X3, X4.
  f_equal; [rewrite X3|rewrite X4].
  - destruct (eb_rustflags (ec_build c)) as [[fl]|]; [|reflexivity]. cbn. unfold eflags_words. cbn. now rewrite vals_back.
  - destruct (eb_rustdocflags (ec_build c)) as [[fl]|]; [|reflexivity]. cbn. unfold eflags_words. cbn. now rewrite vals_back.
Qed.
End AgainTarget.
