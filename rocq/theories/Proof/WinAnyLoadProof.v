(** Lemmas about loading on Windows from any directory. *)
From Verif.Model Require Import Base Str Path StdPath OsPaths BMap Error Value De Triple EasyTypes Context ApplyEnv
  Walk Load Process Resolve Easy OsLoad.
From Verif.Spec Require Import StrSpec ConfigSpec LoadSpec EnvSpec Utf8Spec TripleSpec FinalSpec WinSpec WinLoadSpec WinPanicSpec WinAnyLoadSpec.
From Verif.Proof Require Import StrFacts BMapFacts Utf8Proof LoadProof EnvProof TripleProof FinalProof StdPathProof StdUnixProof StdParentProof
  EnvVarsProof RootProof PanicProof WinPrefixProof WinDirProof WinUseProof OsLoadProof WinLoadProof OsQueryBlameProof MergeProof WinPanicProof.
From Verif.Proof Require WinAnyProof.
From Verif.Spec Require Import WinSpec WinLoadSpec WinPanicSpec WinAnyLoadSpec.

(** ** Readings *)
Lemma read_total s : exists m, read_as s m.
Proof. destruct (WinAnyProof.reads_total s) as (v & r & ws & H). now exists (v, r, ws). Qed.
Lemma read_unique s m m' : read_as s m -> read_as s m' -> m = m'.
Proof.
  intros H H'. destruct (WinAnyProof.reads_unique _ _ _ _ _ _ _ H H') as (E1 & E2 & E3).
  destruct m as [[v r] ws], m' as [[v' r'] ws']. cbn in *. congruence.
Qed.
Lemma long_dec v : WinAnySpec.long v \/ ~ WinAnySpec.long v.
Proof. destruct v; cbn; auto. Qed.
Lemma sturdy_solid s v : sturdy v -> WinAnySpec.solid s (Some v).
Proof. exact (fun H => H). Qed.
Lemma join_into d m n : read_as d m -> WinAnySpec.solid d (fst (fst m)) -> win_name n -> read_as (std_join windows d n) (into m n).
Proof. destruct m as [[v r] ws]. exact (WinAnyProof.join_word d v r ws n). Qed.
Lemma cut_back_end u : WinAnySpec.cut_back (u ++ [back]) = WinAnySpec.cut_back u ++ [[]].
Proof.
  induction u as [|c u IH]; [reflexivity|]. cbn [app WinAnySpec.cut_back]. rewrite IH. destruct (Ascii.eqb c back); [reflexivity|].
  destruct (WinAnySpec.cut_back u) eqn:E; [|reflexivity]. exfalso. clear - E. destruct u as [|a u]; [discriminate E|]. cbn in E.
  destruct (Ascii.eqb a back); [discriminate E|]. destruct (WinAnySpec.cut_back u); discriminate E.
Qed.
Lemma long_pieces_end u : WinAnySpec.long_pieces (u ++ [back]) = WinAnySpec.long_pieces u.
Proof. unfold WinAnySpec.long_pieces. rewrite cut_back_end, filter_app. apply app_nil_r. Qed.
Lemma long_extend base v k u : WinAnySpec.starts base v (k :: u) -> WinAnySpec.long v -> WinAnySpec.solid base (Some v) ->
  WinAnySpec.starts (base ++ [back]) v (k :: u ++ [back]).
Proof.
  intros S L So. assert (M := fun x => WinAnyProof.long_more base v _ x S L So). destruct (WinAnyProof.starts_of _ _ _ S) as [_ T].
  assert (E := WinAnyProof.of_text base _ T). assert (Bk : k = back -> WinAnySpec.starts (base ++ [back]) v (k :: u ++ [back])).
  { intros ->. rewrite E, <- app_assoc. exact (M (u ++ [back])). }
  clear T M E. inversion S as [| | |c t Lc En|j a b t J Ca Cb Nb En|j a t J Ca En|n t Cn En Nn Nd]; subst; try contradiction.
  - rewrite <- app_assoc. cbn [app]. apply WinAnySpec.starts_long_drive; [exact Lc|]. right. destruct En as [[=]|(k' & u' & [= -> _] & K)]. exists k', (u ++ [back]). auto.
  - destruct En as [[=]|(k' & u' & [= -> _] & K)]. apply Bk. exact K.
  - destruct So as (_ & _ & So). now elim (So a).
  - destruct En as [[=]|(k' & u' & [= -> _] & K)]. apply Bk. exact K.
Qed.
Lemma join_nothing base v r ws : read_as base (Some v, r, ws) -> WinAnySpec.long v -> sturdy v ->
  exists r', read_as (std_join windows base []) (Some v, r', ws) /\ (r' = false <-> r = false /\ slash_ended v).
Proof.
  intros H L So. assert (Px := WinAnyProof.reads_prefix _ _ _ _ H). cbn [fst snd option_map] in Px.
  assert (J : std_join windows base [] = if last_is_sep windows base then base else base ++ [back]).
  { unfold std_join. cbn [cs_prefix comps_of]. rewrite Px. change (std_is_absolute windows []) with false. change (os_prefix windows []) with (@None prefix).
    change (std_has_root windows []) with false. cbn [is_some orb is_empty negb andb]. rewrite andb_false_r.
    assert (px_drive (WinAnyProof.px_of v) = false) as -> by (now destruct v). rewrite andb_false_r.
    destruct (last_is_sep windows base); cbn [negb]; [apply app_nil_r|reflexivity]. }
  rewrite J. assert (Ls := WinAnyProof.last_sep base).
  inversion H as [? c t S NL|? c t S NL|? s t S D NL|? s S Lg|? s k t S Lg|? N NL|? N NL]; cbn [fst snd] in *; subst; try contradiction.
  - assert (Se : slash_ended v <-> last_is_sep windows base = true).
    { rewrite Ls. clear - S L So. inversion S as [| | |c t Lc En|j a b t J Ca Cb Nb En|j a t J Ca En|n t Cn En Nn Nd]; subst; try contradiction; cbn [slash_ended].
      - split; [intros []|]. intros [X|(u & k & X & K)]; [discriminate X|]. exfalso.
        change (B "\\?\" ++ [c; ":"%char]) with ((B "\\?\" ++ [c]) ++ [":"%char]) in X. apply app_inj_tail in X as [_ <-]. now destruct K.
      - destruct b as [|b0 b _] using rev_ind; [now elim Nb|]. rewrite app_nil_r.
        replace (B "\\?\UNC" ++ j :: a ++ back :: b ++ [b0]) with ((B "\\?\UNC" ++ j :: a ++ back :: b) ++ [b0]) by (rewrite <- !app_assoc; cbn [app]; rewrite <- app_assoc; reflexivity).
        split.
        + intros (u & X). apply app_inj_tail in X as [_ ->]. right. do 2 eexists. split; [reflexivity|]. now right.
        + intros [X|(u & k & X & K)]; [destruct (B "\\?\UNC"); discriminate X|]. apply app_inj_tail in X as [_ <-]. exists b. destruct K as [-> | ->]; [|reflexivity].
          exfalso. apply (Cb back); [apply in_app_iff; right; now left|reflexivity].
      - destruct So as (_ & _ & So). now elim (So a).
      - rewrite app_nil_r. destruct n as [|n0 n _] using rev_ind.
        + split; [|now left]. intros _. right. exists (B "\\?"), back. split; [reflexivity|now left].
        + rewrite app_assoc. split.
          * intros [X|(u & X)]; [now destruct n|]. apply app_inj_tail in X as [_ ->]. right. do 2 eexists. split; [reflexivity|]. now right.
          * intros [X|(u & k & X & K)]; [discriminate X|]. apply app_inj_tail in X as [_ <-]. right. exists n. destruct K as [-> | ->]; [|reflexivity].
            exfalso. apply (Cn back); [apply in_app_iff; right; now left|reflexivity]. }
    destruct (last_is_sep windows base).
    + exists false. split; [exact H|]. tauto.
    + exists true. split; [|split; [discriminate|]; intros [_ X]; apply Se in X; discriminate X].
      assert (M := WinAnyProof.long_more base v [] [] S L So). destruct (WinAnyProof.starts_of _ _ _ S) as [_ T].
      assert (E := WinAnyProof.of_text base _ T). rewrite app_nil_r in E. rewrite <- E in M. exact (WinAnySpec.reads_long_root _ v back [] M L).
  - exists true. split; [|split; [discriminate|]; intros [X _]; discriminate X]. destruct (last_is_sep windows base); [exact H|].
    unfold read_as. cbn [fst snd]. rewrite <- long_pieces_end. apply (WinAnySpec.reads_long_root _ v k); [|exact L]. now apply long_extend.
Qed.
Lemma join_located base v r ws s : read_as base (Some v, r, ws) -> sturdy v -> located (Some v, r, ws) s (std_join windows base s).
Proof.
  intros H So. destruct (read_total s) as ([[vs rs] wq] & Q). destruct vs as [vs|].
  { rewrite (WinAnyProof.join_volume base s vs rs wq Q). now apply located_volume with vs rs wq. }
  destruct (long_dec v) as [L|L].
  - destruct s as [|c s].
    { destruct (join_nothing base v r ws H L So) as (r' & J & E). now apply located_empty with r'. }
    assert (J := WinAnyProof.join_long_form base v r ws (c :: s) rs wq H L So Q ltac:(discriminate)).
    eapply located_long; [exact L|discriminate|exact Q|exact J|]. rewrite !orb_false_iff.
    destruct rs; [intuition discriminate|]. destruct (WinAnySpec.onto ws wq); cbn; intuition discriminate.
  - destruct rs.
    + apply located_top with wq; [exact L|exact Q|]. exact (WinAnyProof.join_root base v r ws s wq H L Q).
    + apply located_below with wq; [exact L|exact Q|]. assert (N : base <> []).
      { intros ->. destruct (WinAnyProof.reads_start _ _ _ _ H) as (t & S). apply WinAnyProof.starts_iff in S as [S _]. discriminate S. }
      assert (J := WinAnyProof.join_plain base (Some v) r ws s wq H ltac:(intros x [= <-]; exact L) So Q). now destruct base.
Qed.

(** ** Directories above *)
Lemma parent_parent {E} q m : read_as q m ->
  (exists ws c f x, snd m = ws ++ [c; f] /\ @os_parent_parent windows E q = Ok x /\ read_as x (fst m, ws))
  \/ @os_parent_parent windows E q = Panic PUnwrapNone /\ (length (snd m) < 2)%nat.
Proof.
  destruct m as [[v r] ws]. intros H. cbn [fst snd]. unfold os_parent_parent. destruct (WinAnyProof.reads_parent _ _ _ _ H) as [P0 P1]. cbn [fst snd] in *.
  destruct ws as [|f ws _] using rev_ind.
  { right. rewrite (P0 eq_refl). cbn. split; [reflexivity|lia]. }
  destruct (P1 ws f eq_refl) as (q1 & r1 & -> & _ & _ & H1). destruct (WinAnyProof.reads_parent _ _ _ _ H1) as [Q0 Q1].
  destruct ws as [|c ws _] using rev_ind.
  { right. rewrite (Q0 eq_refl). cbn. split; [reflexivity|lia]. }
  destruct (Q1 ws c eq_refl) as (q2 & r2 & -> & _ & _ & H2). left. exists ws, c, f, q2. split; [now rewrite <- app_assoc|]. split; [reflexivity|exact H2].
Qed.
(** What is said in a variable or in a file. *)
Definition sayable (d : option definition) : Prop := (exists n, d = Some (DefEnv n)) \/ exists q, d = Some (DefPath q).
Lemma root_any {E} cwd d : sayable (Some d) ->
  (exists r, @os_root windows E d cwd = Ok r) /\ ~ baseless (Some d)
  \/ @os_root windows E d cwd = Panic PUnwrapNone /\ baseless (Some d).
Proof.
  intros [(n & [= ->])|(q & [= ->])].
  - left. split; [cbn; eauto|]. intros H. inversion H.
  - destruct (read_total q) as (m & H). destruct (@parent_parent E q m H) as [(ws & c & f & x & Em & O & _)|[O L]]; cbn [os_root]; rewrite O.
    + left. split; [eauto|]. intros B. inversion B as [q' m' H' L]. subst q'. rewrite (read_unique _ _ _ H' H), Em, app_length in L. cbn in L. lia.
    + right. split; [reflexivity|]. now apply baseless_file with m.
Qed.
Lemma program_any {E} cwd v : sayable (def v) ->
  (exists p, @os_program_path windows E v cwd = Ok p) /\ ~ (baseless (def v) /\ ~ complete (val v) /\ has_separator (val v))
  \/ @os_program_path windows E v cwd = Panic PUnwrapNone /\ baseless (def v) /\ ~ complete (val v) /\ has_separator (val v).
Proof.
  intros T. unfold os_program_path. destruct (def v) as [d|] eqn:D; [|destruct T as [(? & [=])|(? & [=])]].
  assert (S := has_sep (val v)). destruct (contains slash (val v) || contains backslash (val v))%bool.
  2:{ left. rewrite andb_false_r. split; [eauto|]. intros (_ & _ & H). now apply S in H. }
  rewrite andb_true_r. assert (S' := proj1 S eq_refl). destruct (@root_any E cwd d T) as [[(r & R) Nt]|[R Tp]].
  - left. rewrite R. split; [destruct (negb _); cbn; eauto|]. tauto.
  - assert (A := path_absolute (val v)). destruct (std_is_absolute windows (val v)); cbn [negb].
    + left. split; [eauto|]. intros (_ & N & _). now apply N, A.
    + right. rewrite R. split; [reflexivity|]. split; [exact Tp|]. split; [|exact S']. intros F. apply A in F. discriminate F.
Qed.
Lemma path_any {E} cwd v : sayable (def v) ->
  (exists p, @os_path windows E v cwd = Ok p) /\ ~ (baseless (def v) /\ ~ complete (val v))
  \/ @os_path windows E v cwd = Panic PUnwrapNone /\ baseless (def v) /\ ~ complete (val v).
Proof.
  intros T. unfold os_path. destruct (def v) as [d|] eqn:D; [|destruct T as [(? & [=])|(? & [=])]].
  destruct (@root_any E cwd d T) as [[(r & R) Nt]|[R Tp]].
  - left. rewrite R. split; [destruct (negb _); cbn; eauto|]. tauto.
  - assert (A := path_absolute (val v)). destruct (std_is_absolute windows (val v)); cbn [negb].
    + left. split; [eauto|]. intros [_ N]. now apply N, A.
    + right. rewrite R. split; [reflexivity|]. split; [exact Tp|]. intros F. apply A in F. discriminate F.
Qed.
Lemma root_opt_any {E} d cwd o : @os_root windows E d cwd = o ->
  @os_root_opt windows E d (Some cwd) = match o with Ok r => Ok (Some r) | Err e => Err e | Panic y => Panic y end.
Proof. intros <-. destruct d as [q|n|[q|]]; try reflexivity; cbn; destruct (os_parent_parent windows q); reflexivity. Qed.
Lemma triple_any {E} cwd v : sayable (def v) ->
  (exists t, @os_triple windows E (val v) (def v) (Some cwd) = Ok t)
  /\ ~ (win_nameless (val v) \/ win_spec_like (val v) /\ baseless (def v))
  \/ @os_triple windows E (val v) (def v) (Some cwd) = Panic PUnwrapNone
  /\ (win_nameless (val v) \/ win_spec_like (val v) /\ baseless (def v)).
Proof.
  intros T. assert (N := path_nameless (val v)). assert (S := path_spec_path (val v)). unfold os_triple.
  destruct (os_is_spec_path windows (val v)).
  2:{ left. split; [eauto|]. intros [X|[X _]]; [apply N in X as [X _]|apply S in X]; discriminate X. }
  assert (S' := proj1 S eq_refl).
  destruct (std_file_stem windows (val v)) as [st|]; [|right; split; [reflexivity|left; apply N; auto]].
  destruct (to_str st) as [x|] eqn:Ts; [|right; split; [reflexivity|left; apply N; auto]].
  assert (Nn : ~ win_nameless (val v)) by (intros X; apply N in X as [_ X]; discriminate X).
  unfold os_spec_path. destruct (def v) as [d|] eqn:D; [|destruct T as [(? & [=])|(? & [=])]].
  destruct (@root_any E cwd d T) as [[(r & R) Nt]|[R Tp]]; rewrite (root_opt_any _ _ _ R).
  - left. split; [cbn; eauto|]. tauto.
  - right. split; [reflexivity|]. right. now split.
Qed.

(** ** Which files *)
Lemma var_is vars name : variable_is vars name (os_var windows name vars).
Proof.
  assert (T : forall a b, str_eqb (ascii_uppercase a) (ascii_uppercase b) = true <-> same_letters a b).
  { intros a b. rewrite str_eqb_eq. unfold same_letters. rewrite !capital_text. tauto. }
  assert (G : forall vars before, Forall (fun x => ~ same_letters name (fst x)) before ->
    variable_is (before ++ vars) name (os_var windows name vars)).
  { clear vars. induction vars as [|[k v] vars IH]; intros before F; cbn [os_var os_needs_prefix windows].
    - rewrite app_nil_r. now constructor.
    - destruct (str_eqb (ascii_uppercase name) (ascii_uppercase k)) eqn:E.
      + apply T in E. now apply variable_set with before k vars.
      + replace (before ++ (k, v) :: vars) with ((before ++ [(k, v)]) ++ vars) by (rewrite <- app_assoc; reflexivity).
        apply IH. apply Forall_app. split; [exact F|]. constructor; [|constructor]. cbn [fst]. intros X. apply T in X. congruence. }
  exact (G vars [] (Forall_nil _)).
Qed.
Section Cwd.
Context (cwd : str) (v : WinAnySpec.start) (r : bool) (ws : list str) (H : read_as cwd (Some v, r, ws)) (So : sturdy v).
Let here : reading := (Some v, r, ws).
Lemma home_any p o : any_home p o here (os_cx_cargo_home windows p (into_context p o cwd) cwd).
Proof.
  unfold os_cx_cargo_home, into_context. cbn [cx_cargo_home0]. destruct (o_cargo_home o) as [[h|]|] eqn:E; [now apply any_home_option|now apply any_home_none|].
  cbn [option_map]. assert (V := var_is (p_vars p) (B "CARGO_HOME")). set (var := os_var windows (B "CARGO_HOME") (p_vars p)) in *.
  assert (D : var = None \/ var = Some [] -> any_home p o here match p_home_dir p with Some d => Some (std_join windows d (B ".cargo")) | None => None end).
  { intros X. destruct (p_home_dir p) as [d|] eqn:Hd; [|now apply any_home_unknown with var].
    destruct (read_total d) as (m & Hm). apply any_home_default with d m var; auto. intros S. apply join_into; [assumption..|]. apply cargo_name. }
  unfold os_cargo_home. destruct var as [h|]; [|apply D; auto]. destruct h as [|c h]; cbn [is_empty]; [apply D; auto|].
  destruct (std_is_absolute windows (c :: h)) eqn:A.
  - apply any_home_variable with (c :: h); [exact E|exact V|discriminate|].
    apply path_absolute in A as (s & r' & ws' & Q & _). now apply located_volume with s r' ws'.
  - apply any_home_variable with (c :: h); [exact E|exact V|discriminate|]. now apply join_located.
Qed.
Lemma searched_any ex d m : read_as d m -> WinAnySpec.solid d (fst (fst m)) -> searched ex m (files windows ex d).
Proof.
  intros Hd Sd. unfold files, os_config_path.
  assert (A := join_into d m _ Hd Sd config_name). assert (C := join_into d m _ Hd Sd toml_name).
  destruct (ex (std_join windows d (B "config"))) eqn:E; [now apply searched_config|].
  destruct (ex (std_join windows d (B "config.toml"))) eqn:E'.
  - now apply searched_toml with (std_join windows d (B "config")).
  - now apply searched_none with (std_join windows d (B "config")) (std_join windows d (B "config.toml")).
Qed.
Lemma visited_any ex home : any_visited ex here home (os_walk windows ex cwd home).
Proof.
  rewrite walk_closed. assert (F := WinAnyProof.reads_cargo_dirs cwd (Some v) r ws H So). set (ds := map (cargo_in windows) (std_ancestors windows cwd)) in *.
  assert (N : any_near ex here (flat_map (files windows ex) ds)).
  { exists (map (files windows ex) ds). split; [apply flat_map_concat_map|]. cbn [snd fst here]. clear - F So.
    induction F as [|d l ds ls Q F IH]; cbn [map]; constructor; [|exact IH]. apply searched_any; [exact Q|exact So]. }
  unfold left_over. destruct home as [h|]; [|rewrite app_nil_r; now apply any_visited_none].
  destruct (read_total h) as ([[vh rh] wh] & Hh). assert (S := WinAnyProof.reads_seen h vh rh wh _ _ _ _ Hh F).
  assert (S' : any_seen here (vh, rh, wh) <-> existsb (std_eqb windows h) ds = true).
  { rewrite S. unfold any_seen, into. cbn [fst snd here]. split.
    - intros (k & I & [= -> -> ->]). eauto.
    - intros (-> & -> & k & I & ->). eauto. }
  destruct (existsb (std_eqb windows h) ds).
  - rewrite app_nil_r. apply any_visited_seen with (vh, rh, wh); [exact N|exact Hh|now apply S'].
  - apply any_visited_home with (vh, rh, wh); [exact N|exact Hh|intros X; apply S' in X; discriminate X|]. intros Sh. now apply searched_any.
Qed.
End Cwd.

(** ** What values are *)
Section Values.
Context (cwd : str) (v0 : WinAnySpec.start) (r0 : bool) (ws0 : list str) (H0 : read_as cwd (Some v0, r0, ws0)) (So : sturdy v0).
Context (ps : list str) (Gr : forall q, In q ps -> grounded q).
Let here : reading := (Some v0, r0, ws0).
Lemma root_base {E} d x : said ps (Some d) -> @os_root windows E d cwd = Ok x ->
  exists v r ws, base_of here d (Some v, r, ws) /\ read_as x (Some v, r, ws) /\ sturdy v.
Proof.
  intros [(n & [= ->])|(q & I & [= ->])].
  - cbn. intros [= <-]. exists v0, r0, ws0. split; [constructor|auto].
  - destruct (Gr q I) as (v & r & ws & Q & S). cbn [os_root]. intros O.
    destruct (@parent_parent E q _ Q) as [(l & c & f & y & Em & O' & Hy)|[O' _]]; rewrite O' in O; [|discriminate O]. injection O as ->. cbn [snd fst] in *.
    subst ws. exists v, r, l. split; [|split; [exact Hy|exact S]]. now apply base_file with c f.
Qed.
Lemma joined_at {E} v d x : said ps (def v) -> def v = Some d -> @os_root windows E d cwd = Ok x ->
  exists m, base_of here d m /\ located m (val v) (std_join windows x (val v)).
Proof.
  intros S D R. rewrite D in S. destruct (root_base d x S R) as (v' & r & ws & Bo & Rx & St). exists (Some v', r, ws). split; [exact Bo|]. now apply join_located.
Qed.
Lemma path_at {E} v x : said ps (def v) -> @os_path windows E v cwd = Ok x -> any_path_at here v x.
Proof.
  intros S. unfold os_path. destruct (def v) as [d|] eqn:D; [|destruct S as [(? & [=])|(? & _ & [=])]].
  assert (A := path_absolute (val v)). destruct (std_is_absolute windows (val v)); cbn [negb].
  - intros [= <-]. apply any_path_complete. now apply A.
  - intros B. apply bind_okk in B as (y & R & [= <-]). rewrite <- D in S. destruct (joined_at v d y S D R) as (m & Bo & L).
    now apply any_path with d m.
Qed.
Lemma program_at {E} v x : said ps (def v) -> @os_program_path windows E v cwd = Ok x -> any_program_at here v x.
Proof.
  intros S P. assert (Hs := has_sep (val v)). assert (Sd := S). unfold os_program_path in P. destruct (def v) as [d|] eqn:D; [|destruct S as [(? & [=])|(? & _ & [=])]].
  destruct (contains slash (val v) || contains backslash (val v))%bool.
  - apply any_program_path; [now apply Hs|]. rewrite andb_true_r in P. rewrite <- D in S. apply (@path_at E v x S). unfold os_path. rewrite D. exact P.
  - rewrite andb_false_r in P. injection P as <-. apply any_program_name. intros X. apply Hs in X. discriminate X.
Qed.
Lemma target_at {E} v t : said ps (def v) -> @os_triple windows E (val v) (def v) (Some cwd) = Ok t -> any_target_at here v (cli_target t).
Proof.
  intros S. assert (N := path_nameless (val v)). assert (P := path_spec_path (val v)). unfold os_triple. destruct (os_is_spec_path windows (val v)).
  2:{ intros [= <-]. apply any_target_triple. intros X. apply P in X. discriminate X. }
  destruct (std_file_stem windows (val v)) as [st|]; [|discriminate].
  destruct (to_str st) as [x|]; [|discriminate]. unfold os_spec_path. destruct (def v) as [d|] eqn:D; [|destruct S as [(? & [=])|(? & _ & [=])]].
  destruct (@os_root windows E d cwd) as [y|e|y] eqn:R; rewrite (root_opt_any _ _ _ R); cbn; [|discriminate..]. intros [= <-]. cbn.
  rewrite <- D in S. destruct (joined_at v d y S D R) as (m & Bo & L). apply any_target_spec with d m; auto; [now apply P|].
  intros X. apply N in X as [_ X]. discriminate X.
Qed.
Lemma both_opt {E A A'} (R : A -> A' -> Prop) (f : A -> res E A') o o' :
  (forall v p, o = Some v -> f v = Ok p -> R v p) -> opt_traverse f o = Ok o' -> both R o o'.
Proof.
  intros H. destruct o as [v|]; cbn; [|now intros [= <-]]. intros B. apply bind_okk in B as (p & P & [= <-]). cbn. now apply H.
Qed.
Lemma both_val {A} (o : option (value A)) : both (fun v a => a = val v) o (option_map val o).
Proof. now destruct o. Qed.
Lemma targets_at t ts : (forall v, In v (as_array_no_split t) -> said ps (def v)) -> os_targets_of (E := error) windows cwd t = Ok ts ->
  Forall2 (any_target_at here) (as_array_no_split t) (map cli_target ts).
Proof.
  unfold os_targets_of. generalize (as_array_no_split t) as vs. intros vs. revert ts.
  induction vs as [|v vs IH]; intros ts S H; cbn in H.
  - injection H as <-. constructor.
  - apply bind_okk in H as (x & Hx & H). apply bind_okk in H as (xs & Hxs & H). injection H as <-. cbn. constructor.
    + apply (@target_at error); [apply S; now left|exact Hx].
    + apply IH; [intros w I; apply S; now right|exact Hxs].
Qed.
Lemma fields_at c cx de ec : cx_current_dir cx = cwd ->
  os_from_unresolved windows c cx = Ok ec -> apply_env (cx_env cx) c = Ok de ->
  (forall A (k : scalar_key A) v, look k de = Some v -> said ps (def v)) ->
  (forall k fm ws v, look_list k de = Some (fm, ws) -> In v ws -> said ps (def v)) ->
  (forall k fm ws v, look_program k de = Some (fm, ws) -> In v ws -> said ps (def v)) ->
  (forall A (k : scalar_key A), field k = true -> both (any_final_at here k) (look k de) (easy_look k ec))
  /\ (forall k, list_field k = true -> both (any_final_words here k) (look_list k de) (easy_words k ec))
  /\ both (any_command_at here) (look_program DocBrowser de) (option_map (fun x => (epa_path x, epa_args x)) (ed_browser (ec_doc ec)))
  /\ (forall n, both (any_env_at here (look (EnvVarForce n) de) (look (EnvVarRelative n) de))
                  (look (EnvVarValue n) de) (bget n (ec_env ec)))
  /\ (forall k, easy_entry k ec = has_entry k de).
Proof.
  intros Ec H Ha S1 S2 S3. unfold os_from_unresolved in H. rewrite Ha in H. cbn [bind] in H. cbv zeta in H. rewrite Ec in H.
  apply bind_okk in H as (b & Hb & H). apply bind_okk in H as (d & Hd & H). apply bind_okk in H as (en & He & H).
  injection H as <-. cbn [ec_build ec_doc ec_env].
  unfold os_ebuild_of in Hb. cbv zeta in Hb.
  apply bind_okk in Hb as (x1 & X1 & Hb). apply bind_okk in Hb as (x2 & X2 & Hb). apply bind_okk in Hb as (x3 & X3 & Hb).
  apply bind_okk in Hb as (x4 & X4 & Hb). apply bind_okk in Hb as (x5 & X5 & Hb). apply bind_okk in Hb as (x6 & X6 & Hb).
  apply bind_okk in Hb as (x7 & X7 & Hb). injection Hb as <-.
  apply (both_opt (any_program_at here)) in X1; [|intros v p Ev; exact (@program_at error v p (S1 _ BuildRustc v Ev))].
  apply (both_opt (any_program_at here)) in X2; [|intros v p Ev; exact (@program_at error v p (S1 _ BuildRustcWrapper v Ev))].
  apply (both_opt (any_program_at here)) in X3; [|intros v p Ev; exact (@program_at error v p (S1 _ BuildRustcWorkspaceWrapper v Ev))].
  apply (both_opt (any_program_at here)) in X4; [|intros v p Ev; exact (@program_at error v p (S1 _ BuildRustdoc v Ev))].
  apply (both_opt (any_path_at here)) in X6; [|intros v p Ev; exact (@path_at error v p (S1 _ BuildTargetDir v Ev))].
  apply (both_opt (any_path_at here)) in X7; [|intros v p Ev; exact (@path_at error v p (S1 _ BuildDepInfoBasedir v Ev))].
  split; [|split; [|split; [|split]]].
  - intros A k Fk. destruct k; try discriminate Fk; cbn -[under bget bmapv both]; try assumption; try apply both_val;
    unfold under; rewrite bget_bmapv; destruct (bget name (c_registries de)); cbn -[both]; try exact I; apply both_val.
  - intros k Fk. destruct k; try discriminate Fk; cbn -[under bget bmapv].
    + unfold under. rewrite bget_bmapv. now destruct (bget name (c_alias de)).
    + assert (Sd := S2 BuildTarget). cbn [look_list] in Sd. destruct (b_target (c_build de)) as [t|]; cbn in X5 |- *; [|now injection X5 as <-].
      destruct (os_targets_of windows cwd t) as [ts| |] eqn:T; try discriminate X5. injection X5 as <-. cbn.
      assert (F := targets_at t ts ltac:(destruct t; cbn in Sd; intros w Iw; exact (Sd _ _ w eq_refl Iw)) T). destruct t; exact F.
    + now destruct (b_rustflags (c_build de)).
    + now destruct (b_rustdocflags (c_build de)).
  - unfold os_edoc_of in Hd. apply bind_okk in Hd as (br & Hbr & Hd). injection Hd as <-. cbn.
    assert (Sd := S3 DocBrowser). cbn [look_program] in Sd. destruct (d_browser (c_doc de)) as [a|]; cbn in Hbr |- *; [|now injection Hbr as <-].
    unfold os_epa_of in Hbr. apply bind_okk in Hbr as (e & He' & [= <-]). apply bind_okk in He' as (pr & Hp & [= <-]). cbn.
    exists (pa_path a), (pa_args a). split; [reflexivity|]. split; [|reflexivity]. cbn [fst]. apply (@program_at error); [|exact Hp].
    apply (Sd (fst (program_words a)) (snd (program_words a)) (pa_path a)); [cbn; reflexivity|now left].
  - intros n. assert (G := btraverse_get _ _ _ He n). assert (Sd := S1 _ (EnvVarValue n)). cbn -[bget] in Sd |- *. unfold under in Sd |- *.
    destruct (bget n (c_env de)) as [e|]; cbn; [|now rewrite G]. destruct G as (w & Hw & G). rewrite G.
    destruct e as [v|v f r]; cbn in Hw, Sd |- *.
    + injection Hw as <-. now split.
    + unfold is_true in Hw. unfold any_env_at, on. specialize (Sd _ eq_refl).
      destruct r as [[r rd]|]; cbn in *; [destruct r|]; try (injection Hw as <-; now split).
      destruct (def v) as [d0|] eqn:D; [|destruct Sd as [(? & [=])|(? & _ & [=])]].
      apply bind_okk in Hw as (s & Hs & [= <-]). apply bind_okk in Hs as (y & R & [= <-]). cbn. split; [reflexivity|]. split; [reflexivity|].
      rewrite <- D in Sd. destruct (joined_at v d0 y Sd D R) as (m & Bo & L). eauto.
  - intros k. destruct k; cbn -[bget bmapv]; rewrite ?bget_bmapv; try reflexivity.
    + now destruct (bget name (c_alias de)).
    + assert (G := btraverse_get _ _ _ He name). destruct (bget name (c_env de)); [destruct G as (w & _ & ->)|rewrite G]; reflexivity.
    + now destruct (bget name (c_registries de)).
Qed.
End Values.

(** ** Loading *)
Section Load.
Context (f : fs) (p : process_env) (cwd : str) (o : options) (env : env_map) (l : LoadSpec.files) (ps : list str).
Let cx := into_context p o cwd.
Let home := os_cx_cargo_home windows p cx cwd.
Context (Wk : os_walk windows (fs_exists f) cwd home = ps) (En : environment p o env) (R : reads f ps l).

Lemma any_merged c : os_load_with_options windows f cwd home = Ok c ->
  one_value_each (cx_env cx) /\ (forall n, env_get n env = env_get n (cx_env cx))
  /\ (forall A (k : scalar_key A), look k c = first_defined (map (scalar_in k) l))
  /\ (forall k, look_list k c = join_lists (defined (map (list_in k) l)))
  /\ (forall k, look_program k c = join_programs (defined (map (program_in k) l)))
  /\ (forall k, has_entry k c = existsb (fun x => has_entry k (snd x)) l)
  /\ tables_in_order c.
Proof.
  intros H. destruct (environment_cx p o cwd env En) as [N G].
  split; [exact N|]. split; [exact G|]. unfold os_load_with_options in H. rewrite Wk in H.
  split; [exact (load_scalar f ps c l H R)|]. split; [exact (load_list f ps c l H R)|].
  split; [exact (load_program f ps c l H R)|]. split; [exact (load_entry f ps c l H R)|].
  apply tables_in_order_sorted. exact (load_files_sorted f ps c H).
Qed.
Lemma any_applied c de : os_load_with_options windows f cwd home = Ok c -> apply_env (cx_env cx) c = Ok de ->
  (forall A (k : scalar_key A), look k de = scalar_of env l k)
  /\ (forall k, look_list k de = words_of env l k)
  /\ (forall k, look_program k de = program_in_all env l k)
  /\ (forall k, has_entry k de = entry_of env l k).
Proof.
  intros H Ha. destruct (any_merged c H) as (N & G & H1 & H2 & H3 & H4 & _).
  split; [|split; [|split]].
  - intros A k. rewrite (apply_env_scalar _ _ _ N Ha), H1. symmetry. now apply scalar_after_ext.
  - intros k. rewrite (apply_env_list _ _ _ N Ha), H2. symmetry. now apply words_after_ext.
  - intros k. rewrite (apply_env_program _ _ _ Ha), H3. symmetry. now apply program_after_ext.
  - intros k. rewrite (apply_env_entry _ _ _ N Ha), H4. symmetry. now apply entry_after_ext.
Qed.
Lemma any_steps : same_shapes (map snd l) /\ variables_readable env l <->
  exists c de, os_load_with_options windows f cwd home = Ok c /\ apply_env (cx_env cx) c = Ok de.
Proof.
  split.
  - intros (Sh & R1 & R2 & R3).
    assert (Hc : exists c, os_load_with_options windows f cwd home = Ok c).
    { unfold os_load_with_options. rewrite Wk. apply fine_ok. apply load_files_ok. eauto. }
    destruct Hc as (c & Hc). destruct (any_merged c Hc) as (N & G & H1 & H2 & H3 & H4 & Ord).
    assert (Ok1 : is_ok (apply_env (cx_env cx) c) = true).
    { apply apply_env_ok; [assumption|]. split; [|split].
      - intros A k. apply (readable_ext _ _ _ G). apply R1.
      - intros k. apply (readable_ext _ _ _ G). apply R2.
      - intros B. apply (readable_ext _ _ _ G). apply R3. rewrite H3 in B. now apply no_browser. }
    apply fine_ok in Ok1 as (de & Ha). eauto.
  - intros (c & de & Hc & Ha). destruct (any_merged c Hc) as (N & G & H1 & H2 & H3 & H4 & Ord). split.
    + unfold os_load_with_options in Hc. rewrite Wk in Hc.
      assert (T : is_ok (load_files f ps) = true) by (now rewrite Hc). apply load_files_ok in T as (l' & R' & Sh).
      now rewrite (reads_unique f ps l l' R R').
    + assert (T : is_ok (apply_env (cx_env cx) c) = true) by (now rewrite Ha).
      apply apply_env_ok in T; [|assumption]. destruct T as (T1 & T2 & T3). split; [|split].
      * intros A k. apply (readable_ext _ _ _ (fun n => eq_sym (G n))). apply T1.
      * intros k. apply (readable_ext _ _ _ (fun n => eq_sym (G n))). apply T2.
      * intros B. apply (readable_ext _ _ _ (fun n => eq_sym (G n))). apply T3. rewrite H3. now apply no_browser.
Qed.
Lemma said_sayable d : said ps d -> sayable d.
Proof. intros [X|(q & _ & ->)]; [left; exact X|right; eauto]. Qed.
Section Merged.
Context (c de : config).
Context (Hc : os_load_with_options windows f cwd home = Ok c) (Ha : apply_env (cx_env cx) c = Ok de).
Lemma troubled_any x : troubled windows cwd de x <-> x = PUnwrapNone /\ any_unnamed env l.
Proof.
  destruct (any_applied c de Hc Ha) as (D1 & D2 & D3 & D4).
  assert (Ts : forall A (k : scalar_key A) v, look k de = Some v -> sayable (def v)).
  { intros A k v H. rewrite D1 in H. exact (said_sayable _ (scalar_said f env l ps R A k v H)). }
  split.
  - intros [k v I L P|k v I L P|fm v args L P|fm ws v L I P|n v r d L Lr T D P].
    + assert (T := Ts _ _ _ L). rewrite D1 in L.
      destruct (@program_any error cwd v T) as [[(y & E) _]|[E (As & Nc & Hs)]]; rewrite E in P; [discriminate P|].
      injection P as <-. split; [reflexivity|]. now apply any_unnamed_program with k v.
    + assert (T := Ts _ _ _ L). rewrite D1 in L.
      destruct (@path_any error cwd v T) as [[(y & E) _]|[E [As Nc]]]; rewrite E in P; [discriminate P|].
      injection P as <-. split; [reflexivity|]. now apply any_unnamed_path with k v.
    + rewrite D3 in L.
      assert (T := said_sayable _ (program_said f env l ps R _ _ _ v L (or_introl eq_refl))).
      destruct (@program_any error cwd v T) as [[(y & E) _]|[E (As & Nc & Hs)]]; rewrite E in P; [discriminate P|].
      injection P as <-. split; [reflexivity|]. now apply any_unnamed_browser with fm v args.
    + rewrite D2 in L. assert (T := said_sayable _ (words_said f env l ps R _ _ _ v L I)).
      destruct (@triple_any error cwd v T) as [[(y & E) _]|[E N]]; rewrite E in P; [discriminate P|].
      injection P as <-. split; [reflexivity|]. now apply any_unnamed_target with fm ws v.
    + assert (Tv := Ts _ _ _ L). rewrite D1 in L, Lr. rewrite D in Tv.
      destruct (@root_any error cwd d Tv) as [[(y & E) _]|[E N]]; rewrite E in P; [discriminate P|].
      injection P as <-. split; [reflexivity|]. apply any_unnamed_variable with n v r; auto. now rewrite D.
  - intros [-> [k v I L As Nc Hs|k v I L As Nc|fm v args L As Nc Hs|fm ws v L I N|n v r L Lr T N]].
    + rewrite <- D1 in L. assert (T := Ts _ _ _ L).
      destruct (@program_any error cwd v T) as [[_ N]|[E _]]; [now destruct N|]. now apply troubled_program with k v.
    + rewrite <- D1 in L. assert (T := Ts _ _ _ L).
      destruct (@path_any error cwd v T) as [[_ N]|[E _]]; [now destruct N|]. now apply troubled_path with k v.
    + assert (T := said_sayable _ (program_said f env l ps R _ _ _ v L (or_introl eq_refl))).
      destruct (@program_any error cwd v T) as [[_ N]|[E _]]; [now destruct N|].
      rewrite <- D3 in L. now apply troubled_browser with fm v args.
    + assert (T := said_sayable _ (words_said f env l ps R _ _ _ v L I)).
      destruct (@triple_any error cwd v T) as [[_ N']|[E _]]; [now destruct N'|].
      rewrite <- D2 in L. now apply troubled_target with fm ws v.
    + rewrite <- D1 in L, Lr. assert (Tv := Ts _ _ _ L). destruct (def v) as [d|] eqn:D; [|inversion N].
      apply troubled_variable with n v r d; auto. destruct (@root_any error cwd d Tv) as [[_ N']|[E _]]; [contradiction|exact E].
Qed.
End Merged.
Lemma any_sorted c : os_load_with_options windows f cwd home = Ok c -> sorted (c_env c).
Proof. intros Hc. destruct (any_merged c Hc) as (_ & _ & _ & _ & _ & _ & Ord). apply tables_in_order_sorted in Ord. apply Ord. Qed.
Lemma any_load_panic x : os_easy_load windows f p cwd o = Panic x <->
  x = PUnwrapNone /\ same_shapes (map snd l) /\ variables_readable env l /\ any_unnamed env l.
Proof.
  assert (W := any_steps). unfold os_easy_load. cbv zeta. fold cx. change (cx_current_dir cx) with cwd. fold home. split.
  - intros H. apply RootProof.bind_panic in H as [H|(c & Hc & H)].
    { exfalso. unfold os_load_with_options in H. rewrite Wk in H. assert (N := load_files_panic f ps). rewrite H in N. discriminate N. }
    destruct (apply_env (cx_env cx) c) as [de|e|y] eqn:Ha.
    + assert (Both : same_shapes (map snd l) /\ variables_readable env l) by (apply W; eauto).
      apply (unresolved_troubled windows c cx de Ha (any_sorted c Hc)) in H.
      apply (troubled_any c de Hc Ha) in H. tauto.
    + unfold os_from_unresolved in H. rewrite Ha in H. discriminate H.
    + assert (N := apply_env_panic (cx_env cx) c). rewrite Ha in N. discriminate N.
  - intros (-> & Sh & Vr & U). destruct (proj1 W (conj Sh Vr)) as (c & de & Hc & Ha). rewrite Hc. cbn [bind].
    assert (T := proj2 (troubled_any c de Hc Ha PUnwrapNone) (conj eq_refl U)).
    destruct (os_from_unresolved windows c cx) as [ec|e|y] eqn:H.
    + exfalso. exact (troubled_fails windows c cx de Ha PUnwrapNone T ec H).
    + exfalso. apply os_unresolved_err in H. rewrite Ha in H. discriminate H.
    + apply (unresolved_troubled windows c cx de Ha (any_sorted c Hc)) in H.
      apply (troubled_any c de Hc Ha) in H as [-> _]. reflexivity.
Qed.
Lemma any_parts ec : os_easy_load windows f p cwd o = Ok ec -> exists c de,
  os_load_with_options windows f cwd home = Ok c /\ apply_env (cx_env cx) c = Ok de /\ os_from_unresolved windows c cx = Ok ec.
Proof.
  intros H. unfold os_easy_load in H. cbv zeta in H. apply bind_okk in H as (c & Hc & H). change (cx_current_dir (into_context p o cwd)) with cwd in Hc.
  exists c. assert (H' := H). unfold os_from_unresolved in H. apply bind_okk in H as (de & Ha & _). eauto.
Qed.
Lemma any_load_ok : (exists ec, os_easy_load windows f p cwd o = Ok ec) <->
  same_shapes (map snd l) /\ variables_readable env l /\ ~ any_unnamed env l.
Proof.
  assert (P := any_load_panic PUnwrapNone). split.
  - intros (ec & H). destruct (any_parts ec H) as (c & de & Hc & Ha & _).
    assert (Both : same_shapes (map snd l) /\ variables_readable env l) by (apply any_steps; eauto).
    destruct Both as [Sh Vr]. split; [exact Sh|]. split; [exact Vr|]. intros U. rewrite (proj2 P) in H by auto. discriminate H.
  - intros (Sh & Vr & U). destruct (proj1 any_steps (conj Sh Vr)) as (c & de & Hc & Ha).
    destruct (os_easy_load windows f p cwd o) as [ec|e|x] eqn:H; [eauto|exfalso..].
    + unfold os_easy_load in H. cbv zeta in H. change (cx_current_dir (into_context p o cwd)) with cwd in H. fold cx home in H.
      rewrite Hc in H. cbn [bind] in H. apply os_unresolved_err in H. rewrite Ha in H. discriminate H.
    + rewrite <- H in P. apply (any_load_panic x) in H. tauto.
Qed.
Lemma any_load_values v0 r0 ws0 ec : read_as cwd (Some v0, r0, ws0) -> sturdy v0 -> (forall q, In q ps -> grounded q) ->
  os_easy_load windows f p cwd o = Ok ec -> any_values (Some v0, r0, ws0) env l ec.
Proof.
  intros H0 So Gr H. destruct (any_parts ec H) as (c & de & Hc & Ha & Hu). destruct (any_applied c de Hc Ha) as (D1 & D2 & D3 & D4).
  destruct (fields_at cwd v0 r0 ws0 H0 So ps Gr c cx de ec eq_refl Hu Ha) as (F1 & F2 & F3 & F4 & F5).
  - intros A k v E. rewrite D1 in E. exact (scalar_said f env l ps R A k v E).
  - intros k fm ws v E I. rewrite D2 in E. exact (words_said f env l ps R k fm ws v E I).
  - intros k fm ws v E I. rewrite D3 in E. exact (program_said f env l ps R k fm ws v E I).
  - unfold any_values. split; [intros A k Fk; rewrite <- D1; now apply F1|]. split; [intros k Fk; rewrite <- D2; now apply F2|].
    split; [rewrite <- D3; exact F3|]. split; [intros n; rewrite <- !D1; apply F4|]. intros k. rewrite <- D4. apply F5.
Qed.
End Load.

(** Where the files are. *)
Lemma searched_grounded ex v r ws fs q : sturdy v -> searched ex (Some v, r, ws) fs -> In q fs -> grounded q.
Proof.
  intros So S I. destruct S as [a A E|a b A E C E'|a b A E C E']; [destruct I as [<-|[]]|destruct I as [<-|[]]|destruct I];
  unfold into in *; cbn [fst snd] in *; do 3 eexists; eauto.
Qed.
Lemma visited_grounded ex v r ws home ps q : sturdy v -> any_visited ex (Some v, r, ws) home ps ->
  (forall h, home = Some h -> grounded h) -> In q ps -> grounded q.
Proof.
  intros So V Gh. assert (Nr : forall ps, any_near ex (Some v, r, ws) ps -> In q ps -> grounded q).
  { intros qs (pss & -> & F) I. cbn [fst snd] in F. induction F as [|k fs ks pss Sr F IH]; [destruct I|].
    cbn [concat] in I. apply in_app_iff in I as [I|I]; [|now apply IH]. unfold into in Sr. cbn [fst snd] in Sr. exact (searched_grounded ex v _ _ fs q So Sr I). }
  destruct V as [qs N|h m qs N _ _|h m qs fs N Rm _ Sr]; try now apply Nr. intros I. apply in_app_iff in I as [I|I]; [now apply (Nr qs)|].
  destruct (Gh h eq_refl) as (vh & rh & wh & Rh & Sh). assert (E := read_unique _ _ _ Rm Rh). subst m.
  exact (searched_grounded ex vh rh wh fs q Sh (Sr Sh) I).
Qed.
Lemma any_load_err f p cwd o ps :
  os_walk windows (fs_exists f) cwd (os_cx_cargo_home windows p (into_context p o cwd) cwd) = ps ->
  (forall l, ~ (reads f ps l /\ same_shapes (map snd l))) -> exists e, os_easy_load windows f p cwd o = Err e.
Proof.
  intros Wk N. unfold os_easy_load. cbv zeta. change (cx_current_dir (into_context p o cwd)) with cwd. unfold os_load_with_options. rewrite Wk.
  assert (K := load_files_ok f ps). assert (P := load_files_panic f ps). destruct (load_files f ps) as [c|e|x]; cbn; [|eauto|discriminate P].
  exfalso. destruct (proj1 K eq_refl) as (l & R). exact (N l R).
Qed.
(** Where a text leads is determined. *)
Lemma located_unique m s x y : located m s x -> located m s y -> exists k, read_as x k /\ read_as y k.
Proof.
  assert (U : forall s m m', read_as s m -> read_as s m' -> m = m') by exact read_unique.
  assert (Emp : forall v r ws, ~ read_as [] (Some v, r, ws)).
  { intros v r ws H. destruct (WinAnyProof.reads_start _ _ _ _ H) as (t & S). apply WinAnyProof.starts_iff in S as [S _]. discriminate S. }
  intros L L'. destruct L as [m v r ws s Q|v r ws s wq x NL Q X|v r ws s wq x NL Q X|v r ws s rq wq x r' Lg Ns Q X E|v r ws x r' Lg X E];
  inversion L' as [m2 v2 r2 ws2 s2 Q2|v2 r2 ws2 s2 wq2 x2 NL2 Q2 X2|v2 r2 ws2 s2 wq2 x2 NL2 Q2 X2|v2 r2 ws2 s2 rq2 wq2 x2 r2' Lg2 Ns2 Q2 X2 E2|v2 r2 ws2 x2 r2' Lg2 X2 E2]; subst;
  try contradiction; try (exfalso; eapply Emp; eassumption); try (assert (K := U _ _ _ Q Q2); try discriminate K; try (injection K as -> ->)); eauto.
  - injection K as ->. eauto.
  - injection K as ->. eauto.
  - destruct r' as [], r2' as []; eauto; exfalso; intuition congruence.
  - destruct r' as [], r2' as []; eauto; exfalso; intuition congruence.
Qed.
