(** Lemmas about spellings of paths on Windows. *)
From Verif.Model Require Import Base Str Path StdPath OsPaths BMap Error Value De Triple EasyTypes Context ApplyEnv
  Walk Load Process Resolve Easy OsLoad.
From Verif.Spec Require Import StrSpec ConfigSpec LoadSpec EnvSpec FinalSpec WinSpec WinLoadSpec WinPanicSpec WinAnyLoadSpec.
From Verif.Proof Require Import StrFacts LoadProof FinalProof StdPathProof WinLoadProof WinPanicProof WinAnyLoadProof.
From Verif.Proof Require WinAnyProof.
From Verif.Spec Require Import WinSpec WinLoadSpec WinPanicSpec WinAnyLoadSpec.

Lemma alike_refl a : alike a a.
Proof. destruct (read_total a) as (m & H). now exists m. Qed.
Lemma alike_sym a b : alike a b -> alike b a.
Proof. intros (m & H & H'). now exists m. Qed.
Lemma alike_read a b m : alike a b -> read_as a m -> read_as b m.
Proof. intros (k & H & H') R. now rewrite (read_unique _ _ _ R H). Qed.

(** ** Files *)
Section Files.
Context (ex : str -> bool) (Ex : forall a b, alike a b -> ex a = ex b).
Lemma searched_alike d ps qs : searched ex d ps -> searched ex d qs -> Forall2 alike ps qs.
Proof.
  intros P Q. destruct P as [a A E|a b A E C E'|a b A E C E'], Q as [a2 A2 E2|a2 b2 A2 E2 C2 E2'|a2 b2 A2 E2 C2 E2'].
  all: assert (X : alike a a2) by (eexists; split; eassumption); apply Ex in X as X'; try congruence.
  - now repeat constructor.
  - constructor; [|constructor]. eexists. split; eassumption.
  - assert (Y : alike b b2) by (eexists; split; eassumption). apply Ex in Y. congruence.
  - assert (Y : alike b b2) by (eexists; split; eassumption). apply Ex in Y. congruence.
  - constructor.
Qed.
Lemma near_alike cwd ps qs : any_near ex cwd ps -> any_near ex cwd qs -> Forall2 alike ps qs.
Proof.
  intros (pss & -> & P) (qss & -> & Q). revert qss Q. induction P as [|k fs ks pss Sr P IH]; intros qss Q; inversion Q as [|? fs' ? qss' Sr' Q']; subst; cbn [concat]; [constructor|].
  apply Forall2_app; [exact (searched_alike _ _ _ Sr Sr')|now apply IH].
Qed.
Lemma visited_alike cwd h h' ps qs : both alike h h' -> (forall x, h = Some x -> grounded x) ->
  any_visited ex cwd h ps -> any_visited ex cwd h' qs -> Forall2 alike ps qs.
Proof.
  intros A G P Q. destruct P as [ps N|x m ps N R S|x m ps fs N R S F], Q as [qs N'|x' m' qs N' R' S'|x' m' qs fs' N' R' S' F']; cbn in A; try contradiction;
  try (assert (m' = m) by (apply (read_unique x'); [exact R'|exact (alike_read _ _ _ A R)]); subst m'; try contradiction); try now apply (near_alike cwd).
  apply Forall2_app; [now apply (near_alike cwd)|]. destruct (G x eq_refl) as (v & r & ws & Rx & So).
  assert (E := read_unique _ _ _ R Rx). subst m. exact (searched_alike _ _ _ (F So) (F' So)).
Qed.
End Files.
Lemma solid_dec d v : WinAnySpec.solid d v \/ ~ WinAnySpec.solid d v.
Proof.
  destruct v as [[c|a b|n|c|a b|n]|]; cbn [WinAnySpec.solid]; try (left; repeat split; discriminate).
  - destruct n; [right; intros [X _]; now apply X|left; repeat split; discriminate].
  - destruct b; [right; intros (_ & _ & X); now apply (X a)|left; repeat split; discriminate].
  - destruct (str_eqb n (B "UNC")) eqn:E.
    + apply str_eqb_eq in E as ->. right. intros (_ & X & _). now apply X.
    + left. repeat split; try discriminate. intros [= ->]. rewrite str_eqb_refl in E. discriminate E.
  - destruct d as [|k [|k' d]]; [left; intros (? & ? & ? & _ & _ & [=])..|].
    destruct (win_sep k) eqn:K, (win_sep k') eqn:K'.
    + right. intros X. apply X. exists k, k', d. rewrite <- !WinDirProof.sep_separates. auto.
    + left. intros (? & ? & ? & _ & X & [= <- <- <-]). apply WinDirProof.sep_separates in X. congruence.
    + left. intros (? & ? & ? & X & _ & [= <- <- <-]). apply WinDirProof.sep_separates in X. congruence.
    + left. intros (? & ? & ? & X & _ & [= <- <- <-]). apply WinDirProof.sep_separates in X. congruence.
Qed.
Lemma grounded_text : ~ grounded [].
Proof.
  intros (v & r & ws & H & _). destruct (WinAnyProof.reads_start _ _ _ _ H) as (t & S). apply WinAnyProof.starts_iff in S as [S _]. discriminate S.
Qed.
Lemma home_alike p o cwd h h' : (forall x, any_home p o cwd (Some x) -> grounded x) -> any_home p o cwd h -> any_home p o cwd h' -> both alike h h'.
Proof.
  intros G P Q.
  assert (V : forall r r', variable_is (p_vars p) (B "CARGO_HOME") r -> variable_is (p_vars p) (B "CARGO_HOME") r' -> r = r').
  { intros r r' X Y. apply var_spec in X, Y. congruence. }
  destruct P as [E|x E|s x E Vs Ns L|d m x var E Vs Em D R S|var E Vs Em D]; inversion Q as [E'|x' E'|s' x' E' Vs' Ns' L'|d' m' x' var' E' Vs' Em' D' R' S'|var' E' Vs' Em' D']; subst; cbn [both];
  try congruence; try exact I; try (exfalso; assert (K := V _ _ Vs Vs'); subst; (destruct Em || destruct Em'); congruence).
  - replace x' with x by congruence. apply alike_refl.
  - assert (K := V _ _ Vs Vs'). injection K as <-. exact (located_unique _ _ _ _ L L').
  - assert (d' = d) by congruence. subst d'. assert (m' = m) by (now apply (read_unique d)). subst m'.
    destruct (solid_dec d (fst (fst m))) as [So|So].
    + exists (into m (B ".cargo")). auto.
    + exfalso. apply grounded_text, G. now apply any_home_default with d m var.
Qed.

(** Their contents. *)
Definition same_files (l l' : LoadSpec.files) : Prop := Forall2 (fun x y => alike (fst x) (fst y) /\ snd x = snd y) l l'.
Lemma reads_alike f ps qs l : unspelled f -> Forall2 alike ps qs -> reads f ps l -> exists l', reads f qs l' /\ same_files l l'.
Proof.
  intros U A [M F]. revert l M F. induction A as [|p q ps qs Apq A IH]; intros l M F.
  - destruct l; [|discriminate M]. exists []. split; [split; [reflexivity|constructor]|constructor].
  - destruct l as [|[p' c] l]; [discriminate M|]. cbn in M. injection M as -> M. inversion F as [|? ? (t & T & D) F']; subst. cbn [fst snd] in *.
    destruct (IH l eq_refl F') as (l' & [M' G] & S). exists ((q, c) :: l'). split; [split|].
    + cbn. now rewrite M'.
    + constructor; [|exact G]. exists t. cbn [fst snd]. rewrite <- (proj2 (U p q Apq)). auto.
    + constructor; [|exact S]. auto.
Qed.
Lemma same_snd l l' : same_files l l' -> map snd l = map snd l'.
Proof. intros S. induction S as [|x y l l' [_ E] S IH]; [reflexivity|]. cbn. congruence. Qed.

(** ** Values *)
Definition spelled (d d' : option definition) : Prop :=
  d = d' \/ exists q q', d = Some (DefPath q) /\ d' = Some (DefPath q') /\ alike q q'.
Definition valike {A} (v w : value A) : Prop := val v = val w /\ spelled (def v) (def w).
Definition walike (a b : form * list word) : Prop := fst a = fst b /\ Forall2 valike (snd a) (snd b).
Lemma valike_refl {A} (v : value A) : valike v v.
Proof. split; [reflexivity|now left]. Qed.
Lemma valike_all (l : list word) : Forall2 valike l l.
Proof. induction l; constructor; auto using valike_refl. Qed.
Lemma from_alike {A} p q (v : value A) : alike p q -> valike (from_file p v) (from_file q v).
Proof. intros H. split; [reflexivity|]. right. cbn. eauto. Qed.
Lemma words_alike p q w : alike p q -> walike (words_from p w) (words_from q w).
Proof. intros H. split; [reflexivity|]. cbn. induction (snd w) as [|v l IH]; cbn; constructor; auto using from_alike. Qed.
Lemma both_refl {A} (R : A -> A -> Prop) (o : option A) : (forall a, R a a) -> both R o o.
Proof. intros H. destruct o; cbn; auto. Qed.
Lemma first_alike {A} (l l' : list (option (value A))) : Forall2 (both valike) l l' -> both valike (first_defined l) (first_defined l').
Proof. intros F. induction F as [|x y l l' X F IH]; [exact I|]. destruct x, y; cbn in X |- *; try contradiction; [exact X|exact IH]. Qed.
Lemma defined_alike {A} (R : A -> A -> Prop) l l' : Forall2 (both R) l l' -> Forall2 R (defined l) (defined l').
Proof. intros F. induction F as [|x y l l' X F IH]; [constructor|]. destruct x, y; cbn in X |- *; try contradiction; [now constructor|exact IH]. Qed.
Lemma concat_alike {A} (R : A -> A -> Prop) l l' : Forall2 (Forall2 R) l l' -> Forall2 R (concat l) (concat l').
Proof. intros F. induction F; cbn; [constructor|]. now apply Forall2_app. Qed.
Lemma rev_alike {A} (R : A -> A -> Prop) l l' : Forall2 R l l' -> Forall2 R (rev l) (rev l').
Proof. intros F. induction F; cbn; [constructor|]. apply Forall2_app; auto. Qed.
Lemma snds_alike l l' : Forall2 walike l l' -> Forall2 (Forall2 valike) (map snd l) (map snd l').
Proof. intros F. induction F as [|x y l l' [_ X] F IH]; cbn; constructor; auto. Qed.
Lemma join_lists_alike l l' : Forall2 walike l l' -> both walike (join_lists l) (join_lists l').
Proof.
  intros F. destruct F as [|[fm ws] [fm' ws'] l l' [E X] F]; [exact I|]. cbn in E, X. subst fm'. destruct fm; cbn [join_lists both]; split; cbn [fst snd]; auto.
  apply concat_alike, rev_alike, snds_alike. constructor; [now split|exact F].
Qed.
Lemma join_programs_alike l l' : Forall2 walike l l' -> both walike (join_programs l) (join_programs l').
Proof.
  intros F. destruct F as [|[fm ws] [fm' ws'] l l' [E X] F]; [exact I|]. cbn in E, X. subst fm'. destruct fm; cbn [join_programs both]; split; cbn [fst snd]; auto.
  apply concat_alike, snds_alike. constructor; [now split|exact F].
Qed.
Section Same.
Context (env : env_map) (l l' : LoadSpec.files) (S : same_files l l').
Lemma map_alike {C} (R : C -> C -> Prop) (g : str * config -> C) :
  (forall p q c, alike p q -> R (g (p, c)) (g (q, c))) -> Forall2 R (map g l) (map g l').
Proof.
  intros H. clear env. induction S as [|[p c] [q c'] m m' [A E] F IH]; cbn; constructor; [|exact (IH F)]. cbn in A, E. subst c'. now apply H.
Qed.
Lemma scalar_alike {A} (k : scalar_key A) : both valike (scalar_of env l k) (scalar_of env l' k).
Proof.
  assert (F : both valike (first_defined (map (scalar_in k) l)) (first_defined (map (scalar_in k) l'))).
  { apply first_alike, map_alike. intros p q c H. unfold scalar_in. cbn [fst snd]. destruct (look k c); cbn; [now apply from_alike|exact I]. }
  unfold scalar_of, scalar_after. destruct (consulted (variables k) env) as [[n [a|]]|]; try exact F. apply both_refl. exact valike_refl.
Qed.
Lemma walike_refl a : walike a a.
Proof. split; [reflexivity|apply valike_all]. Qed.
Lemma list_alike k : both walike (words_of env l k) (words_of env l' k).
Proof.
  assert (F : both walike (join_lists (defined (map (list_in k) l))) (join_lists (defined (map (list_in k) l')))).
  { apply join_lists_alike, defined_alike, map_alike. intros p q c H. unfold list_in. cbn [fst snd]. destruct (look_list k c); cbn [option_map both]; [now apply words_alike|exact I]. }
  unfold words_of, words_after. destruct (consulted (list_variables k) env) as [[n [[fm ws]|]]|]; try exact F. apply both_refl. exact walike_refl.
Qed.
Lemma program_alike k : both walike (program_in_all env l k) (program_in_all env l' k).
Proof.
  assert (F : both walike (join_programs (defined (map (program_in k) l))) (join_programs (defined (map (program_in k) l')))).
  { apply join_programs_alike, defined_alike, map_alike. intros p q c H. unfold program_in. cbn [fst snd]. destruct (look_program k c); cbn [option_map both]; [now apply words_alike|exact I]. }
  unfold program_in_all, program_after. destruct k; [|exact F].
  destruct (join_programs (defined (map (program_in DocBrowser) l))), (join_programs (defined (map (program_in DocBrowser) l'))); try contradiction; [exact F|].
  apply both_refl. exact walike_refl.
Qed.
Lemma entry_alike k : entry_of env l k = entry_of env l' k.
Proof.
  unfold entry_of. f_equal. clear env. induction S as [|x y m m' [_ E] F IH]; [reflexivity|]. cbn. now rewrite E, (IH F).
Qed.
Lemma readable_alike : variables_readable env l -> variables_readable env l'.
Proof.
  intros (R1 & R2 & R3). split; [exact R1|]. split; [exact R2|]. intros F. apply R3. clear - S F.
  induction S as [|x y m m' [_ E] G IH]; [constructor|]. inversion F; subst. constructor; [now rewrite E|now apply IH].
Qed.
Lemma baseless_alike d d' : spelled d d' -> baseless d -> baseless d'.
Proof.
  intros [->|(q & q' & -> & -> & A)]; [auto|]. intros H. inversion H as [q0 m R L]. subst q0. apply baseless_file with m; [exact (alike_read _ _ _ A R)|exact L].
Qed.
Lemma unnamed_alike : any_unnamed env l -> any_unnamed env l'.
Proof.
  assert (Sc := @scalar_alike). assert (Ls := list_alike). assert (Pr := program_alike).
  intros [k v I E Bl N Hs|k v I E Bl N|fm v args E Bl N Hs|fm ws v E I N|n v r E Er T Bl].
  - specialize (Sc _ k). rewrite E in Sc. destruct (scalar_of env l' k) as [w|] eqn:E'; [|destruct Sc]. destruct Sc as [Ev Sd].
    apply any_unnamed_program with k w; [exact I|exact E'|exact (baseless_alike _ _ Sd Bl)|congruence|congruence].
  - specialize (Sc _ k). rewrite E in Sc. destruct (scalar_of env l' k) as [w|] eqn:E'; [|destruct Sc]. destruct Sc as [Ev Sd].
    apply any_unnamed_path with k w; [exact I|exact E'|exact (baseless_alike _ _ Sd Bl)|congruence].
  - specialize (Pr DocBrowser). rewrite E in Pr. destruct (program_in_all env l' DocBrowser) as [[fm' ws']|] eqn:E'; [|destruct Pr].
    destruct Pr as [_ F]. cbn [snd] in F. inversion F as [|? w ? args' [Ev Sd] F']; subst.
    apply any_unnamed_browser with fm' w args'; [exact E'|exact (baseless_alike _ _ Sd Bl)|congruence|congruence].
  - specialize (Ls BuildTarget). rewrite E in Ls. destruct (words_of env l' BuildTarget) as [[fm' ws']|] eqn:E'; [|destruct Ls].
    destruct Ls as [_ F]. cbn [snd] in F. assert (X : exists w, In w ws' /\ valike v w).
    { clear - F I. induction F as [|a b m m' V F IH]; [destruct I|]. destruct I as [->|I]; [exists b; cbn; auto|]. destruct (IH I) as (w & ? & ?). exists w. cbn. auto. }
    destruct X as (w & Iw & Ev & Sd). apply any_unnamed_target with fm' ws' w; [exact E'|exact Iw|]. rewrite <- Ev.
    destruct N as [N|[N Bl]]; [now left|right]. split; [exact N|exact (baseless_alike _ _ Sd Bl)].
  - assert (S1 := Sc _ (EnvVarValue n)). assert (S2 := Sc _ (EnvVarRelative n)). rewrite E in S1. rewrite Er in S2.
    destruct (scalar_of env l' (EnvVarValue n)) as [w|] eqn:E1; [|destruct S1]. destruct (scalar_of env l' (EnvVarRelative n)) as [r'|] eqn:E2; [|destruct S2].
    destruct S1 as [Ev Sd], S2 as [Er' _]. apply any_unnamed_variable with n w r'; [exact E1|exact E2|congruence|exact (baseless_alike _ _ Sd Bl)].
Qed.
End Same.
Lemma same_files_sym l l' : same_files l l' -> same_files l' l.
Proof. intros S. induction S as [|x y m m' [A E] S IH]; constructor; auto. split; [now apply alike_sym|now symmetry]. Qed.

(** ** What they are in the configuration *)
Section Here.
Context (here : reading).
Lemma base_alike d d' m m' : spelled (Some d) (Some d') -> base_of here d m -> base_of here d' m' -> m = m'.
Proof.
  intros [[= <-]|(q & q' & [= ->] & [= ->] & A)] X Y.
  - inversion X as [n|q v r ws c f R]; subst; inversion Y as [|q' v' r' ws' c' f' R']; subst; [reflexivity|].
    assert (E := read_unique _ _ _ R R'). injection E as -> -> E. rewrite !(app_assoc _ [_] [_]) in E || idtac.
    change (ws ++ [c; f]) with (ws ++ [c] ++ [f]) in E. change (ws' ++ [c'; f']) with (ws' ++ [c'] ++ [f']) in E. rewrite !app_assoc in E.
    apply app_inj_tail in E as [E _]. apply app_inj_tail in E as [-> _]. reflexivity.
  - inversion X as [|q0 v r ws c f R]; subst. inversion Y as [|q0 v' r' ws' c' f' R']; subst. assert (E := read_unique _ _ _ (alike_read _ _ _ A R) R').
    injection E as -> -> E. change (ws ++ [c; f]) with (ws ++ [c] ++ [f]) in E. change (ws' ++ [c'; f']) with (ws' ++ [c'] ++ [f']) in E. rewrite !app_assoc in E.
    apply app_inj_tail in E as [E _]. apply app_inj_tail in E as [-> _]. reflexivity.
Qed.
Lemma located_complete m s x : complete s -> located m s x -> x = s.
Proof.
  intros (v & r & ws & H & _) L. change (read_as s (Some v, r, ws)) in H.
  destruct L as [| | | |? ? ? ? ? ? X]; [reflexivity|..];
  try (match goal with Q : read_as _ (None, _, _) |- _ => assert (K := read_unique _ _ _ Q H); discriminate K end).
  exfalso. apply grounded_text. destruct (WinAnyProof.reads_start _ _ _ _ H) as (t & S). apply WinAnyProof.starts_iff in S as [S _]. discriminate S.
Qed.
Lemma path_alike v w x y : valike v w -> any_path_at here v x -> any_path_at here w y -> alike x y.
Proof.
  intros [Ev Sd] X Y. destruct X as [C|d m x D Bo L], Y as [C'|d' m' y D' Bo' L'].
  - rewrite Ev. apply alike_refl.
  - rewrite <- Ev in L'. rewrite (located_complete _ _ _ C L'). apply alike_refl.
  - rewrite Ev in L. rewrite (located_complete _ _ _ C' L). apply alike_refl.
  - rewrite D, D' in Sd. assert (m' = m) by (symmetry; exact (base_alike _ _ _ _ Sd Bo Bo')). subst m'. rewrite <- Ev in L'. exact (located_unique _ _ _ _ L L').
Qed.
Lemma program_alike_at v w x y : valike v w -> any_program_at here v x -> any_program_at here w y -> alike x y.
Proof.
  intros V X Y. assert (Ev := proj1 V). destruct X as [N|x H X], Y as [N'|y H' Y].
  - rewrite Ev. apply alike_refl.
  - rewrite Ev in N. contradiction.
  - rewrite Ev in H. contradiction.
  - exact (path_alike v w x y V X Y).
Qed.
Lemma target_alike v w x y : valike v w -> any_target_at here v x -> any_target_at here w y -> alike x y.
Proof.
  intros [Ev Sd] X Y. destruct X as [N|d m x H N D Bo L], Y as [N'|d' m' y H' N' D' Bo' L'].
  - rewrite Ev. apply alike_refl.
  - rewrite Ev in N. contradiction.
  - rewrite Ev in H. contradiction.
  - rewrite D, D' in Sd. assert (m' = m) by (symmetry; exact (base_alike _ _ _ _ Sd Bo Bo')). subst m'. rewrite <- Ev in L'. exact (located_unique _ _ _ _ L L').
Qed.
Lemma vals_alike (l l' : list word) : Forall2 valike l l' -> map val l = map val l'.
Proof. intros F. induction F as [|v w l l' [E _] F IH]; [reflexivity|]. cbn. congruence. Qed.
Lemma command_alike a b x y : walike a b -> any_command_at here a x -> any_command_at here b y -> alike (fst x) (fst y) /\ snd x = snd y.
Proof.
  intros [_ F] (v & args & Ea & X & Xa) (w & args' & Eb & Y & Ya). rewrite Ea, Eb in F. inversion F as [|? ? ? ? Vv F']. subst.
  split; [exact (program_alike_at v w _ _ Vv X Y)|apply vals_alike in F'; congruence].
Qed.
Lemma both_trans {A C} (P : A -> A -> Prop) (R : A -> C -> Prop) (T : C -> C -> Prop) a b x y :
  (forall a b x y, P a b -> R a x -> R b y -> T x y) -> both P a b -> both R a x -> both R b y -> both T x y.
Proof. intros H. destruct a, b, x, y; cbn; try contradiction; try tauto. apply H. Qed.
Lemma values_alike env l l' ec ec' : same_files l l' -> any_values here env l ec -> any_values here env l' ec' -> alike_values ec ec'.
Proof.
  intros S (V1 & V2 & V3 & V4 & V5) (W1 & W2 & W3 & W4 & W5). split; [|split; [|split; [|split]]].
  - intros A k Fk. refine (both_trans _ _ _ _ _ _ _ _ (scalar_alike env l l' S k) (V1 A k Fk) (W1 A k Fk)).
    intros v w x y Vv X Y. destruct k; cbn [any_final_at alike_at] in *; try (exact (program_alike_at v w x y Vv X Y)); try (exact (path_alike v w x y Vv X Y));
    destruct Vv; congruence.
  - intros k Fk. refine (both_trans _ _ _ _ _ _ _ _ (list_alike env l l' S k) (V2 k Fk) (W2 k Fk)).
    intros v w x y [_ F] X Y. destruct k; cbn [any_final_words] in *; try (apply vals_alike in F; congruence).
    clear - F X Y. revert x y X Y. induction F as [|a b m m' Va F IH]; intros x y X Y; inversion X; inversion Y; subst; constructor; [|now apply IH].
    eapply target_alike; eassumption.
  - assert (B := both_trans _ _ _ _ _ _ _ command_alike (program_alike env l l' S DocBrowser) V3 W3).
    destruct (ed_browser (ec_doc ec)), (ed_browser (ec_doc ec')); cbn in B |- *; try contradiction; [exact B|exact I].
  - intros n. assert (F1 := scalar_alike env l l' S (EnvVarForce n)). assert (F2 := scalar_alike env l l' S (EnvVarRelative n)).
    assert (On : forall o o' : option (value bool), both valike o o' -> on o = on o').
    { intros [a|] [b|]; cbn; try contradiction; [|reflexivity]. intros [E _]. unfold on. now rewrite E. }
    apply On in F1, F2. specialize (V4 n). specialize (W4 n). assert (Sv := scalar_alike env l l' S (EnvVarValue n)).
    destruct (scalar_of env l (EnvVarValue n)) as [v|], (scalar_of env l' (EnvVarValue n)) as [w|], (bget n (ec_env ec)) as [x|], (bget n (ec_env ec')) as [y|];
      cbn [both] in *; try contradiction; [|exact I].
    destruct V4 as (Rx & Fx & Vx), W4 as (Ry & Fy & Vy). split; [|split; congruence]. rewrite F2 in Vx. destruct Sv as [Ev Sd].
    destruct (on (scalar_of env l' (EnvVarRelative n))).
    + destruct Vx as (d & m & D & Bo & L), Vy as (d' & m' & D' & Bo' & L'). rewrite D, D' in Sd.
      assert (m' = m) by (symmetry; exact (base_alike _ _ _ _ Sd Bo Bo')). subst m'. rewrite <- Ev in L'. exact (located_unique _ _ _ _ L L').
    + rewrite Vx, Vy, Ev. apply alike_refl.
  - intros k. rewrite V5, W5. now apply entry_alike.
Qed.
End Here.

(** ** Loading *)
Lemma some_reads f p cwd o ps :
  os_walk windows (fs_exists f) cwd (os_cx_cargo_home windows p (into_context p o cwd) cwd) = ps ->
  (forall e, os_easy_load windows f p cwd o <> Err e) -> exists l, reads f ps l.
Proof.
  intros Wk N. unfold os_easy_load in N. cbv zeta in N. change (cx_current_dir (into_context p o cwd)) with cwd in N. unfold os_load_with_options in N. rewrite Wk in N.
  assert (K := load_files_ok f ps). assert (P := load_files_panic f ps). destruct (load_files f ps) as [c|e|x]; [|now elim (N e)|discriminate P].
  destruct (proj1 K eq_refl) as (l & R & _). eauto.
Qed.
Section Two.
Context (f : fs) (p : process_env) (o : options) (env : env_map) (v : WinAnySpec.start) (r : bool) (ws : list str).
Context (U : unspelled f) (En : environment p o env) (So : sturdy v) (G : forall h, any_home p o (Some v, r, ws) (Some h) -> grounded h).
Lemma spelled_files a b : read_as a (Some v, r, ws) -> read_as b (Some v, r, ws) -> forall l,
  reads f (os_walk windows (fs_exists f) a (os_cx_cargo_home windows p (into_context p o a) a)) l ->
  exists l', reads f (os_walk windows (fs_exists f) b (os_cx_cargo_home windows p (into_context p o b) b)) l' /\ same_files l l'.
Proof.
  intros A C l. apply reads_alike; [exact U|].
  assert (Ha := home_any a v r ws A So p o). assert (Hb := home_any b v r ws C So p o).
  apply (visited_alike (fs_exists f) (fun x y H => proj1 (U x y H)) (Some v, r, ws) _ _ _ _ (home_alike p o _ _ _ G Ha Hb)).
  - intros x E. apply G. now rewrite <- E.
  - exact (visited_any a v r ws A So (fs_exists f) _).
  - exact (visited_any b v r ws C So (fs_exists f) _).
Qed.
Lemma spelled_ok a b ec : read_as a (Some v, r, ws) -> read_as b (Some v, r, ws) -> os_easy_load windows f p a o = Ok ec ->
  exists ec', os_easy_load windows f p b o = Ok ec' /\ alike_values ec ec'.
Proof.
  intros A C H. destruct (some_reads f p a o _ eq_refl ltac:(rewrite H; discriminate)) as (l & R).
  destruct (spelled_files a b A C l R) as (l' & R' & S).
  destruct (proj1 (any_load_ok f p a o env l _ eq_refl En R) (ex_intro _ ec H)) as (Sh & Vr & N).
  assert (O : exists ec', os_easy_load windows f p b o = Ok ec').
  { apply (any_load_ok f p b o env l' _ eq_refl En R'). split; [now rewrite <- (same_snd _ _ S)|]. split; [exact (readable_alike env l l' S Vr)|].
    intros X. apply N. exact (unnamed_alike env l' l (same_files_sym _ _ S) X). }
  destruct O as (ec' & O). exists ec'. split; [exact O|].
  assert (Gr : forall d, read_as d (Some v, r, ws) -> forall q,
    In q (os_walk windows (fs_exists f) d (os_cx_cargo_home windows p (into_context p o d) d)) -> grounded q).
  { intros d D q. apply (visited_grounded (fs_exists f) v r ws _ _ q So (visited_any d v r ws D So (fs_exists f) _)).
    intros h E. apply G. rewrite <- E. exact (home_any d v r ws D So p o). }
  apply (values_alike (Some v, r, ws) env l l'); [exact S|..].
  - exact (any_load_values f p a o env l _ eq_refl En R v r ws ec A So (Gr a A) H).
  - exact (any_load_values f p b o env l' _ eq_refl En R' v r ws ec' C So (Gr b C) O).
Qed.
Lemma spelled_panic a b x : read_as a (Some v, r, ws) -> read_as b (Some v, r, ws) ->
  os_easy_load windows f p a o = Panic x -> os_easy_load windows f p b o = Panic x.
Proof.
  intros A C H. destruct (some_reads f p a o _ eq_refl ltac:(rewrite H; discriminate)) as (l & R).
  destruct (spelled_files a b A C l R) as (l' & R' & S). destruct (proj1 (any_load_panic f p a o env l _ eq_refl En R x) H) as (-> & Sh & Vr & N).
  apply (any_load_panic f p b o env l' _ eq_refl En R'). split; [reflexivity|]. split; [now rewrite <- (same_snd _ _ S)|].
  split; [exact (readable_alike env l l' S Vr)|exact (unnamed_alike env l l' S N)].
Qed.
End Two.
