(** Lemmas about panics on Windows. *)
From Verif.Model Require Import Base Str Path StdPath OsPaths BMap Error Value De Triple EasyTypes Context ApplyEnv
  Walk Load Process Resolve Easy OsLoad.
From Verif.Spec Require Import StrSpec ConfigSpec LoadSpec EnvSpec Utf8Spec TripleSpec FinalSpec WinSpec WinLoadSpec WinPanicSpec.
From Verif.Proof Require Import StrFacts BMapFacts Utf8Proof LoadProof EnvProof TripleProof FinalProof StdPathProof StdUnixProof StdParentProof
  EnvVarsProof RootProof PanicProof WinPrefixProof WinDirProof WinUseProof OsLoadProof WinLoadProof OsQueryBlameProof MergeProof.
From Verif.Proof Require WinAnyProof.
From Verif.Spec Require Import WinSpec WinLoadSpec WinPanicSpec.

(** ** Texts *)
Lemma path_file_name s n : std_file_name windows s = Some n <-> win_last s n.
Proof.
  destruct (WinAnyProof.reads_total s) as (v & r & ws & H). rewrite (WinAnyProof.reads_file_name s v r ws H n). unfold win_last.
  assert (D : WinAnySpec.is_dots n = false <-> n <> B "." /\ n <> B "..").
  { rewrite WinAnyProof.is_dots_iff, orb_false_iff. unfold not. rewrite <- !str_eqb_eq.
    destruct (str_eqb n (B ".")), (str_eqb n (B "..")); intuition discriminate. }
  rewrite D. apply and_iff_compat_r. split.
  - intros (l & ->). eauto.
  - intros (v' & r' & l & H'). destruct (WinAnyProof.reads_unique _ _ _ _ _ _ _ H H') as (_ & _ & ->). eauto.
Qed.
Lemma stem_text w : str_eqb w (B "..") = false ->
  match rsplit_at_dot w with (Some a, _) => Some a | (None, b) => b end = Some (stem w)
  /\ match rsplit_at_dot w with (Some _, b) => b | (None, _) => None end
     = match rsplit_dot w with Some (a, b) => if is_empty a then None else Some b | None => None end.
Proof.
  intros E. unfold rsplit_at_dot, stem. rewrite E.
  destruct (last_dot w) as [[N ->]|(a & b & -> & N & ->)].
  - now rewrite (rsplit_no_dot w N).
  - rewrite (rsplit_dots a b N), (firstn_app_len a _ _ eq_refl). destruct a as [|c a]; [now split|]. cbn [length Nat.eqb is_empty].
    split; [reflexivity|]. f_equal.
    replace ((c :: a) ++ "."%char :: b) with ((c :: a ++ ["."%char]) ++ b) by (cbn; now rewrite <- app_assoc).
    apply skipn_app_len. cbn. rewrite app_length. cbn. lia.
Qed.
Lemma path_stem s st : std_file_stem windows s = Some st <-> exists n, win_last s n /\ stem_of n st.
Proof.
  unfold std_file_stem. split.
  - destruct (std_file_name windows s) as [n|] eqn:E; [|discriminate]. apply (path_file_name s n) in E.
    destruct E as [E [Nd Nu]]. assert (X : str_eqb n (B "..") = false) by (destruct (str_eqb n (B "..")) eqn:X; [apply str_eqb_eq in X; contradiction|reflexivity]).
    rewrite (proj1 (stem_text n X)). intros [= <-]. exists n. split; [now repeat split|]. now apply stem_iff.
  - intros (n & H & S). assert (Nu := proj2 (proj2 H)). apply (path_file_name s n) in H. rewrite H.
    assert (X : str_eqb n (B "..") = false) by (destruct (str_eqb n (B "..")) eqn:X; [apply str_eqb_eq in X; contradiction|reflexivity]).
    rewrite (proj1 (stem_text n X)). apply stem_iff in S. now rewrite S.
Qed.
Lemma path_spec_path s : os_is_spec_path windows s = true <-> win_spec_like s.
Proof.
  unfold os_is_spec_path, win_spec_like. rewrite <- orb_assoc, orb_true_iff, has_sep. apply or_iff_compat_r.
  unfold std_extension. split.
  - destruct (std_file_name windows s) as [n|] eqn:E; [|discriminate]. apply (path_file_name s n) in E.
    assert (X : str_eqb n (B "..") = false) by (destruct (str_eqb n (B "..")) eqn:X; [apply str_eqb_eq in X; now destruct E as (_ & _ & E)|reflexivity]).
    rewrite (proj2 (stem_text n X)). destruct (rsplit_dot n) as [[a e]|] eqn:R; [|discriminate].
    destruct (is_empty a) eqn:Ea; [discriminate|]. intros H. apply str_eqb_eq in H as ->.
    apply rsplit_dot_some in R as [-> _]. exists a. split; [assumption|now apply is_empty_false].
  - intros (st & H & N). apply (path_file_name s _) in H. rewrite H, (json_split st N). reflexivity.
Qed.
Lemma path_nameless s : win_nameless s <->
  os_is_spec_path windows s = true /\ match std_file_stem windows s with Some st => to_str st = None | None => True end.
Proof.
  unfold win_nameless. rewrite (path_spec_path s). split; intros [S H]; (split; [assumption|]).
  - destruct (std_file_stem windows s) as [st|] eqn:F; [|exact I]. apply (path_stem s st) in F as (n & La & St).
    unfold to_str. destruct (utf8_valid st) eqn:V; [|reflexivity]. apply utf8_valid_iff in V. now destruct (H n st La St).
  - intros n st La St U. apply utf8_valid_iff in U.
    assert (F : std_file_stem windows s = Some st) by (apply (path_stem s st); eauto).
    rewrite F in H. unfold to_str in H. now rewrite U in H.
Qed.
Lemma path_absolute s : std_is_absolute windows s = true <-> complete s.
Proof.
  destruct (WinAnyProof.reads_total s) as (v & r & ws & H). rewrite (WinAnyProof.reads_absolute s v r ws H). unfold complete. split.
  - intros (x & -> & D). eauto.
  - intros (x & r' & ws' & H' & D). destruct (WinAnyProof.reads_unique _ _ _ _ _ _ _ H H') as (-> & -> & _). eauto.
Qed.

(** ** What goes wrong in a configuration *)
Inductive troubled (os : system) (cwd : str) (de : config) (x : panic) : Prop :=
| troubled_program k v :
    In k [BuildRustc; BuildRustcWrapper; BuildRustcWorkspaceWrapper; BuildRustdoc] ->
    look k de = Some v -> os_program_path (E := error) os v cwd = Panic x -> troubled os cwd de x
| troubled_path k v :
    In k [BuildTargetDir; BuildDepInfoBasedir] ->
    look k de = Some v -> os_path (E := error) os v cwd = Panic x -> troubled os cwd de x
| troubled_browser fm v args :
    look_program DocBrowser de = Some (fm, v :: args) -> os_program_path (E := error) os v cwd = Panic x -> troubled os cwd de x
| troubled_target fm ws v :
    look_list BuildTarget de = Some (fm, ws) -> In v ws -> os_triple (E := error) os (val v) (def v) (Some cwd) = Panic x ->
    troubled os cwd de x
| troubled_variable n v r d :
    look (EnvVarValue n) de = Some v -> look (EnvVarRelative n) de = Some r -> val r = true ->
    def v = Some d -> os_root (E := error) os d cwd = Panic x -> troubled os cwd de x.

Lemma opt_panics {E A A'} (f : A -> res E A') a x : f a = Panic x -> forall o', opt_traverse f (Some a) <> Ok o'.
Proof. intros H o'. cbn. now rewrite H. Qed.
Lemma traverse_panics {E A A'} (f : A -> res E A') l a x : In a l -> f a = Panic x -> forall l', traverse f l <> Ok l'.
Proof.
  induction l as [|b l IH]; intros [].
  - subst b. intros H l'. cbn. now rewrite H.
  - intros K l' H'. cbn in H'. destruct (f b); try discriminate H'. cbn in H'.
    destruct (traverse f l) as [l2| |] eqn:T; try discriminate H'. exact (IH H K l2 eq_refl).
Qed.
Section Unresolved.
Context (os : system) (c : config) (cx : context) (de : config).
Context (Ha : apply_env (cx_env cx) c = Ok de) (Srt : sorted (c_env c)).
Let cwd := cx_current_dir cx.

Lemma unresolved_troubled x : os_from_unresolved os c cx = Panic x -> troubled os cwd de x.
Proof.
  unfold os_from_unresolved. rewrite Ha. cbn [bind]. cbv zeta. fold cwd. intros H.
  apply RootProof.bind_panic in H as [H|(b & _ & H)].
  - unfold os_ebuild_of in H.
    apply RootProof.bind_panic in H as [H|(x1 & _ & H)].
    { apply opt_traverse_panic in H as (v & E & R). apply (troubled_program os cwd de x BuildRustc v); cbn; auto. }
    apply RootProof.bind_panic in H as [H|(x2 & _ & H)].
    { apply opt_traverse_panic in H as (v & E & R). apply (troubled_program os cwd de x BuildRustcWrapper v); cbn; auto. }
    apply RootProof.bind_panic in H as [H|(x3 & _ & H)].
    { apply opt_traverse_panic in H as (v & E & R). apply (troubled_program os cwd de x BuildRustcWorkspaceWrapper v); cbn; auto. }
    apply RootProof.bind_panic in H as [H|(x4 & _ & H)].
    { apply opt_traverse_panic in H as (v & E & R). apply (troubled_program os cwd de x BuildRustdoc v); cbn; auto. }
    apply RootProof.bind_panic in H as [H|(x5 & _ & H)].
    { apply opt_traverse_panic in H as (t & E & H). unfold os_targets_of in H.
      apply traverse_panic in H as (v & I & H). destruct (build_target_words de t E) as (fm & L).
      exact (troubled_target os cwd de x fm _ v L I H). }
    apply RootProof.bind_panic in H as [H|(x6 & _ & H)].
    { apply opt_traverse_panic in H as (v & E & R). apply (troubled_path os cwd de x BuildTargetDir v); cbn; auto. }
    apply RootProof.bind_panic in H as [H|(x7 & _ & H)]; [|discriminate].
    apply opt_traverse_panic in H as (v & E & R). apply (troubled_path os cwd de x BuildDepInfoBasedir v); cbn; auto.
  - apply RootProof.bind_panic in H as [H|(d & _ & H)].
    + unfold os_edoc_of in H. apply RootProof.bind_panic in H as [H|(? & _ & H)]; [|discriminate].
      apply opt_traverse_panic in H as (v & E & R). unfold os_epa_of in R. apply RootProof.bind_panic in R as [R|(? & _ & R)]; [|discriminate].
      apply (troubled_browser os cwd de x (fst (program_words v)) (pa_path v) (pa_args v)); [|assumption]. cbn. now rewrite E.
    + apply RootProof.bind_panic in H as [H|(en & _ & H)]; [|discriminate].
      apply btraverse_panic in H as (k & e & I & H).
      assert (Eq : c_env de = c_env c) by apply (apply_env_env _ _ _ Ha). rewrite Eq in I.
      apply sorted_in_bget in I; [|assumption]. rewrite <- Eq in I.
      unfold os_eenv_of in H. destruct e as [v|v f r]; [discriminate|].
      destruct (is_true r) eqn:T; [|discriminate]. apply RootProof.bind_panic in H as [H|(? & _ & H)]; [|discriminate].
      unfold os_env_resolve in H. destruct r as [r|]; [|discriminate]. cbn in T. rewrite T in H.
      destruct (def v) as [d0|] eqn:D; [|discriminate].
      apply RootProof.bind_panic in H as [H|(? & _ & H)]; [|discriminate].
      apply (troubled_variable os cwd de x k v r d0); [..|assumption|assumption|assumption]; cbn; unfold under; now rewrite I.
Qed.
Lemma troubled_fails x : troubled os cwd de x -> forall ec, os_from_unresolved os c cx <> Ok ec.
Proof.
  intros T ec H. unfold os_from_unresolved in H. rewrite Ha in H. cbn [bind] in H. cbv zeta in H. fold cwd in H.
  apply bind_okk in H as (b & Hb & H). apply bind_okk in H as (d & Hd & H). apply bind_okk in H as (en & He & _).
  unfold os_ebuild_of in Hb. cbv zeta in Hb.
  apply bind_okk in Hb as (x1 & X1 & Hb). apply bind_okk in Hb as (x2 & X2 & Hb). apply bind_okk in Hb as (x3 & X3 & Hb).
  apply bind_okk in Hb as (x4 & X4 & Hb). apply bind_okk in Hb as (x5 & X5 & Hb). apply bind_okk in Hb as (x6 & X6 & Hb).
  apply bind_okk in Hb as (x7 & X7 & _).
  destruct T as [k v I L P|k v I L P|fm v args L P|fm ws v L I P|n v r d0 L R V D P].
  - repeat (destruct I as [<-|I]; [cbn in L; rewrite L in *; eapply opt_panics; eauto; exact P|]). destruct I.
  - repeat (destruct I as [<-|I]; [cbn in L; rewrite L in *; eapply opt_panics; eauto; exact P|]). destruct I.
  - cbn in L. unfold os_edoc_of in Hd. apply bind_okk in Hd as (br & Hb' & _).
    destruct (d_browser (c_doc de)) as [a|]; [|discriminate L]. cbn in L. injection L as _ L1 _.
    cbn in Hb'. unfold os_epa_of in Hb'. rewrite L1, P in Hb'. discriminate Hb'.
  - cbn in L. destruct (b_target (c_build de)) as [t|]; [|discriminate L]. cbn in X5.
    destruct (os_targets_of os cwd t) as [ts| |] eqn:Tt; try discriminate X5. unfold os_targets_of in Tt.
    assert (I' : In v (as_array_no_split t)) by (destruct t; cbn in L; injection L as _ <-; exact I).
    exact (traverse_panics (fun v => os_triple (E := error) os (val v) (def v) (Some cwd)) _ v x I' P ts Tt).
  - cbn in L, R. unfold under in L, R. assert (G := WinLoadProof.btraverse_get _ _ _ He n).
    destruct (bget n (c_env de)) as [e|]; [|discriminate L]. destruct G as (w & Hw & _).
    destruct e as [v0|v0 f0 r0]; [discriminate R|]. cbn in L, R. injection L as ->. subst r0.
    unfold os_eenv_of in Hw. cbn [is_true] in Hw. rewrite V in Hw. unfold os_env_resolve in Hw. rewrite V, D, P in Hw. discriminate Hw.
Qed.
End Unresolved.

(** ** Values *)
Definition tied (cwd : place) (o : option definition) : Prop :=
  match o with Some d => (exists r, relative_to cwd d r) \/ at_top o | None => False end.
Lemma top_root {E} d cwd : at_top (Some d) -> @os_root windows E d cwd = Panic PUnwrapNone.
Proof.
  intros H. inversion H as [v f V F Eq]. cbn [os_root]. unfold os_parent_parent.
  change (at_place (v, [f])) with (dir v ([] ++ [f])). rewrite (dir_parent v V [] f) by (now constructor).
  now rewrite (dir_top v V).
Qed.
Lemma root_tied {E} cwd d : place_ok cwd -> tied cwd (Some d) ->
  (exists r, @os_root windows E d (at_place cwd) = Ok r) /\ ~ at_top (Some d)
  \/ @os_root windows E d (at_place cwd) = Panic PUnwrapNone /\ at_top (Some d).
Proof.
  intros K [(r & R)|T]; [left|right; split; [now apply top_root|exact T]].
  assert (H := proj1 (@root_spec E cwd d r K R)). split; [eauto|]. intros T. rewrite (@top_root E d _ T) in H. discriminate H.
Qed.
Lemma program_tied {E} cwd v : place_ok cwd -> tied cwd (def v) ->
  (exists p, @os_program_path windows E v (at_place cwd) = Ok p) /\ ~ (astray v /\ has_separator (val v))
  \/ @os_program_path windows E v (at_place cwd) = Panic PUnwrapNone /\ astray v /\ has_separator (val v).
Proof.
  intros K T. unfold os_program_path, astray. destruct (def v) as [d|] eqn:D; [|destruct T].
  assert (S := has_sep (val v)). destruct (contains slash (val v) || contains backslash (val v))%bool.
  2:{ left. rewrite andb_false_r. split; [eauto|]. intros [_ H]. now apply S in H. }
  rewrite andb_true_r. assert (S' := proj1 S eq_refl). destruct (@root_tied E cwd d K T) as [[(r & R) Nt]|[R Tp]].
  - left. rewrite R. split; [destruct (negb _); cbn; eauto|]. tauto.
  - assert (A := path_absolute (val v)). destruct (std_is_absolute windows (val v)); cbn [negb].
    + left. split; [eauto|]. intros [[_ N] _]. now apply N, A.
    + right. rewrite R. split; [reflexivity|]. split; [split; [exact Tp|]|exact S']. intros F. apply A in F. discriminate F.
Qed.
Lemma path_tied {E} cwd v : place_ok cwd -> tied cwd (def v) ->
  (exists p, @os_path windows E v (at_place cwd) = Ok p) /\ ~ astray v
  \/ @os_path windows E v (at_place cwd) = Panic PUnwrapNone /\ astray v.
Proof.
  intros K T. unfold os_path, astray. destruct (def v) as [d|] eqn:D; [|destruct T].
  destruct (@root_tied E cwd d K T) as [[(r & R) Nt]|[R Tp]].
  - left. rewrite R. split; [destruct (negb _); cbn; eauto|]. tauto.
  - assert (A := path_absolute (val v)). destruct (std_is_absolute windows (val v)); cbn [negb].
    + left. split; [eauto|]. intros [_ N]. now apply N, A.
    + right. rewrite R. split; [reflexivity|]. split; [exact Tp|]. intros F. apply A in F. discriminate F.
Qed.
Lemma triple_tied {E} cwd v : place_ok cwd -> tied cwd (def v) ->
  (exists t, @os_triple windows E (val v) (def v) (Some (at_place cwd)) = Ok t)
  /\ ~ (win_nameless (val v) \/ win_spec_like (val v) /\ at_top (def v))
  \/ @os_triple windows E (val v) (def v) (Some (at_place cwd)) = Panic PUnwrapNone
  /\ (win_nameless (val v) \/ win_spec_like (val v) /\ at_top (def v)).
Proof.
  intros K T. assert (N := path_nameless (val v)). assert (S := path_spec_path (val v)). unfold os_triple.
  destruct (os_is_spec_path windows (val v)).
  2:{ left. split; [eauto|]. intros [X|[X _]]; [apply N in X as [X _]|apply S in X]; discriminate X. }
  assert (S' := proj1 S eq_refl).
  destruct (std_file_stem windows (val v)) as [st|]; [|right; split; [reflexivity|left; apply N; auto]].
  destruct (to_str st) as [x|] eqn:Ts; [|right; split; [reflexivity|left; apply N; auto]].
  assert (Nn : ~ win_nameless (val v)) by (intros X; apply N in X as [_ X]; discriminate X).
  unfold os_spec_path. destruct (def v) as [d|] eqn:D; [|destruct T].
  assert (Ro : forall o, @os_root windows E d (at_place cwd) = o ->
    @os_root_opt windows E d (Some (at_place cwd)) = match o with Ok r => Ok (Some r) | Err e => Err e | Panic y => Panic y end).
  { intros o <-. destruct d as [q|n|[q|]]; try reflexivity; cbn; destruct (os_parent_parent windows q); reflexivity. }
  destruct (@root_tied E cwd d K T) as [[(r & R) Nt]|[R Tp]]; rewrite (Ro _ R).
  - left. split; [cbn; eauto|]. tauto.
  - right. split; [reflexivity|]. right. now split.
Qed.

(** Where the definitions come from. *)
Lemma found_tied cwd v l ex q : volume_ok v -> Forall win_name l -> In q (found ex v l) -> tied cwd (Some (DefPath q)).
Proof.
  intros V N I. assert (X : exists f, q = dir v (l ++ [f]) /\ win_name f).
  { unfold found in I. destruct (ex _); [|destruct (ex _)]; [destruct I as [<-|[]]..|destruct I]; eexists; (split; [reflexivity|]); [apply config_name|apply toml_name]. }
  destruct X as (f & -> & F). cbn. destruct l as [|c l _] using rev_ind.
  - right. change (dir v ([] ++ [f])) with (at_place (v, [f])). now constructor.
  - left. apply Forall_app in N as [N C]. exists (v, l).
    replace (dir v ((l ++ [c]) ++ [f])) with (at_place (in_place (v, l) [c; f])) by (unfold at_place, in_place; cbn [fst snd]; now rewrite <- app_assoc).
    constructor; [now split|now inversion C|exact F].
Qed.
Lemma near_tied ex cwd q : place_ok cwd -> In q (WinLoadSpec.near ex cwd) -> exists r, relative_to cwd (DefPath q) r.
Proof.
  intros [V N] I. unfold WinLoadSpec.near in I. apply in_flat_map in I as (k & Ik & I).
  assert (Nk := above_names _ _ Ik N).
  assert (X : exists f, q = dir (fst cwd) ((k ++ [B ".cargo"]) ++ [f]) /\ win_name f).
  { unfold found in I. destruct (ex _); [|destruct (ex _)]; [destruct I as [<-|[]]..|destruct I]; eexists; (split; [reflexivity|]); [apply config_name|apply toml_name]. }
  destruct X as (f & -> & F). exists (fst cwd, k).
  replace (dir (fst cwd) ((k ++ [B ".cargo"]) ++ [f])) with (at_place (in_place (fst cwd, k) [B ".cargo"; f]))
    by (unfold at_place, in_place; cbn [fst snd]; now rewrite <- app_assoc).
  constructor; [now split|apply cargo_name|exact F].
Qed.
Lemma visited_tied ex cwd home ps q : place_ok cwd -> (forall h, home = Some h -> place_ok h) -> win_visited ex cwd home ps ->
  In q ps -> tied cwd (Some (DefPath q)) /\ (at_top (Some (DefPath q)) -> exists h, home = Some h /\ snd h = []).
Proof.
  intros K Kh V I.
  assert (Nr : In q (WinLoadSpec.near ex cwd) -> tied cwd (Some (DefPath q)) /\ (at_top (Some (DefPath q)) -> exists h, home = Some h /\ snd h = [])).
  { intros I'. destruct (near_tied ex cwd q K I') as (r & R). split; [left; eauto|]. intros T.
    assert (H := proj1 (@root_spec error cwd _ r K R)). rewrite (@top_root error _ _ T) in H. discriminate H. }
  destruct V as [|h _|h _]; [now apply Nr..|]. apply in_app_iff in I as [I|I]; [now apply Nr|].
  destruct (Kh h eq_refl) as [Vh Nh]. assert (T := found_tied cwd _ _ ex q Vh Nh I). split; [exact T|]. intros Tp.
  exists h. split; [reflexivity|]. destruct h as [v l]. cbn [fst snd] in *. destruct l as [|c l _] using rev_ind; [reflexivity|]. exfalso.
  assert (X : exists f, q = dir v ((l ++ [c]) ++ [f]) /\ win_name f).
  { unfold found in I. destruct (ex _); [|destruct (ex _)]; [destruct I as [<-|[]]..|destruct I]; eexists; (split; [reflexivity|]); [apply config_name|apply toml_name]. }
  destruct X as (f & -> & F). apply Forall_app in Nh as [Nh C].
  assert (R : relative_to cwd (DefPath (dir v ((l ++ [c]) ++ [f]))) (v, l)).
  { replace (dir v ((l ++ [c]) ++ [f])) with (at_place (in_place (v, l) [c; f])) by (unfold at_place, in_place; cbn [fst snd]; now rewrite <- app_assoc).
    constructor; [now split|now inversion C|exact F]. }
  assert (H := proj1 (@root_spec error cwd _ _ K R)). rewrite (@top_root error _ _ Tp) in H. discriminate H.
Qed.

Section Sources.
Context (f : fs) (p : process_env) (cwd : place) (o : options) (env : env_map) (l : LoadSpec.files) (home : option place) (ps : list str).
Context (K : place_ok cwd) (Hh : win_home p o home) (V : win_visited (fs_exists f) cwd home ps) (R : reads f ps l).
(** Where something is said: a variable, or a file that is read. *)
Definition said (d : option definition) : Prop := (exists n, d = Some (DefEnv n)) \/ exists q, In q ps /\ d = Some (DefPath q).
Lemma said_tied d : said d -> tied cwd d /\ (at_top d -> exists h, home = Some h /\ snd h = []).
Proof.
  intros [(n & ->)|(q & I & ->)].
  - split; [left; exists cwd; constructor|]. intros H. inversion H.
  - exact (visited_tied _ cwd home ps q K (win_home_ok p o home Hh) V I).
Qed.
Lemma file_in x : In x l -> In (fst x) ps.
Proof. destruct R as [E _]. rewrite <- E. apply in_map. Qed.
Lemma scalar_said A (k : scalar_key A) v : scalar_of env l k = Some v -> said (def v).
Proof.
  unfold scalar_of, scalar_after. assert (F : first_defined (map (scalar_in k) l) = Some v -> said (def v)).
  { intros H. apply first_defined_in, in_map_iff in H as (x & H & I). unfold scalar_in in H. destruct (look k (snd x)); [|discriminate H].
    cbn in H. injection H as <-. right. exists (fst x). split; [now apply file_in|reflexivity]. }
  destruct (consulted (variables k) env) as [[n [a|]]|]; try exact F.
  destruct (switches_off k a); [discriminate|]. intros [= <-]. left. now exists n.
Qed.
Lemma words_said k fm ws v : words_of env l k = Some (fm, ws) -> In v ws -> said (def v).
Proof.
  unfold words_of, words_after. assert (F : join_lists (defined (map (list_in k) l)) = Some (fm, ws) -> In v ws -> said (def v)).
  { intros H I. destruct (LoadProof.join_lists_in _ _ _ _ H I) as (fm' & ws' & I1 & I2). apply in_defined, in_map_iff in I1 as (x & H1 & Ix).
    unfold list_in in H1. destruct (look_list k (snd x)) as [[fm0 ws0]|]; [|discriminate H1]. cbn in H1. injection H1 as <- <-.
    apply in_map_iff in I2 as (w & <- & _). right. exists (fst x). split; [now apply file_in|reflexivity]. }
  destruct (consulted (list_variables k) env) as [[n [[fm' ws']|]]|]; try exact F.
  intros [= <- <-] I. apply in_map_iff in I as (w & <- & _). left. now exists n.
Qed.
Lemma program_said k fm ws v : program_in_all env l k = Some (fm, ws) -> In v ws -> said (def v).
Proof.
  unfold program_in_all, program_after. assert (F : join_programs (defined (map (program_in k) l)) = Some (fm, ws) -> In v ws -> said (def v)).
  { intros H I. destruct (LoadProof.join_programs_in _ _ _ _ H I) as (fm' & ws' & I1 & I2). apply in_defined, in_map_iff in I1 as (x & H1 & Ix).
    unfold program_in in H1. destruct (look_program k (snd x)) as [[fm0 ws0]|]; [|discriminate H1]. cbn in H1. injection H1 as <- <-.
    apply in_map_iff in I2 as (w & <- & _). right. exists (fst x). split; [now apply file_in|reflexivity]. }
  destruct k; [|exact F]. destruct (join_programs _) as [ws0|] eqn:J; [exact F|].
  unfold words_after. destruct (consulted _ env) as [[n [[fm' ws']|]]|]; try (intros H; discriminate H).
  intros [= <- <-] I. apply in_map_iff in I as (w & <- & _). left. now exists n.
Qed.
End Sources.

(** ** Loading *)
Lemma win_steps f p cwd o env l : win_sources f p cwd o env l -> let cx := into_context p o (at_place cwd) in
  same_shapes (map snd l) /\ variables_readable env l <->
  exists c de, os_load_with_options windows f (at_place cwd) (os_cx_cargo_home windows p cx (at_place cwd)) = Ok c
    /\ apply_env (cx_env cx) c = Ok de.
Proof.
  intros S cx. assert (K := proj1 S). split.
  - intros (Sh & R1 & R2 & R3).
    assert (Hc : exists c, os_load_with_options windows f (at_place cwd) (os_cx_cargo_home windows p cx (at_place cwd)) = Ok c).
    { destruct S as (_ & En & home & ps & Hh & V & R). unfold os_load_with_options, cx.
      rewrite (home_spec p o cwd home K Hh), (visited_spec _ cwd home ps K (win_home_ok p o home Hh) V).
      apply fine_ok. apply load_files_ok. eauto. }
    destruct Hc as (c & Hc). destruct (win_merged f p cwd o env l c S Hc) as (N & G & H1 & H2 & H3 & H4 & Ord). fold cx in N, G.
    assert (Ok1 : is_ok (apply_env (cx_env cx) c) = true).
    { apply apply_env_ok; [assumption|]. split; [|split].
      - intros A k. apply (readable_ext _ _ _ G). apply R1.
      - intros k. apply (readable_ext _ _ _ G). apply R2.
      - intros B. apply (readable_ext _ _ _ G). apply R3. rewrite H3 in B. now apply no_browser. }
    apply fine_ok in Ok1 as (de & Ha). eauto.
  - intros (c & de & Hc & Ha). destruct (win_merged f p cwd o env l c S Hc) as (N & G & H1 & H2 & H3 & H4 & Ord). fold cx in N, G. split.
    + destruct S as (_ & En & home & ps & Hh & V & R). unfold os_load_with_options, cx in Hc.
      rewrite (home_spec p o cwd home K Hh), (visited_spec _ cwd home ps K (win_home_ok p o home Hh) V) in Hc.
      assert (T : is_ok (load_files f ps) = true) by (now rewrite Hc). apply load_files_ok in T as (l' & R' & Sh).
      now rewrite (reads_unique f ps l l' R R').
    + assert (T : is_ok (apply_env (cx_env cx) c) = true) by (now rewrite Ha).
      apply apply_env_ok in T; [|assumption]. destruct T as (T1 & T2 & T3). split; [|split].
      * intros A k. apply (readable_ext _ _ _ (fun n => eq_sym (G n))). apply T1.
      * intros k. apply (readable_ext _ _ _ (fun n => eq_sym (G n))). apply T2.
      * intros B. apply (readable_ext _ _ _ (fun n => eq_sym (G n))). apply T3. rewrite H3. now apply no_browser.
Qed.
Section Load.
Context (f : fs) (p : process_env) (cwd : place) (o : options) (env : env_map) (l : LoadSpec.files).
Context (S : win_sources f p cwd o env l).
Let cx := into_context p o (at_place cwd).
Context (c de : config).
Context (Hc : os_load_with_options windows f (at_place cwd) (os_cx_cargo_home windows p cx (at_place cwd)) = Ok c).
Context (Ha : apply_env (cx_env cx) c = Ok de).

Lemma troubled_iff x : troubled windows (at_place cwd) de x <-> x = PUnwrapNone /\ win_unnamed env l.
Proof.
  destruct (win_applied f p cwd o env l c de S Hc Ha) as (D1 & D2 & D3 & D4).
  destruct S as (K & En & home & ps & Hh & V & R).
  assert (Ts : forall A (k : scalar_key A) v, look k de = Some v -> tied cwd (def v)).
  { intros A k v H. rewrite D1 in H. exact (proj1 (said_tied f p cwd o home ps K Hh V _ (scalar_said f env l ps R A k v H))). }
  split.
  - intros [k v I L P|k v I L P|fm v args L P|fm ws v L I P|n v r d L Lr T D P].
    + assert (T := Ts _ _ _ L). rewrite D1 in L.
      destruct (@program_tied error cwd v K T) as [[(y & E) _]|[E [As Hs]]]; rewrite E in P; [discriminate P|].
      injection P as <-. split; [reflexivity|]. now apply win_unnamed_program with k v.
    + assert (T := Ts _ _ _ L). rewrite D1 in L.
      destruct (@path_tied error cwd v K T) as [[(y & E) _]|[E As]]; rewrite E in P; [discriminate P|].
      injection P as <-. split; [reflexivity|]. now apply win_unnamed_path with k v.
    + rewrite D3 in L.
      assert (T := proj1 (said_tied f p cwd o home ps K Hh V _ (program_said f env l ps R _ _ _ v L (or_introl eq_refl)))).
      destruct (@program_tied error cwd v K T) as [[(y & E) _]|[E [As Hs]]]; rewrite E in P; [discriminate P|].
      injection P as <-. split; [reflexivity|]. now apply win_unnamed_browser with fm v args.
    + rewrite D2 in L. assert (T := proj1 (said_tied f p cwd o home ps K Hh V _ (words_said f env l ps R _ _ _ v L I))).
      destruct (@triple_tied error cwd v K T) as [[(y & E) _]|[E N]]; rewrite E in P; [discriminate P|].
      injection P as <-. split; [reflexivity|]. now apply win_unnamed_target with fm ws v.
    + assert (Tv := Ts _ _ _ L). rewrite D1 in L, Lr. rewrite D in Tv.
      destruct (@root_tied error cwd d K Tv) as [[(y & E) _]|[E N]]; rewrite E in P; [discriminate P|].
      injection P as <-. split; [reflexivity|]. apply win_unnamed_variable with n v r; auto. now rewrite D.
  - intros [-> [k v I L As Hs|k v I L As|fm v args L As Hs|fm ws v L I N|n v r L Lr T N]].
    + rewrite <- D1 in L. assert (T := Ts _ _ _ L).
      destruct (@program_tied error cwd v K T) as [[_ N]|[E _]]; [now destruct N|]. now apply troubled_program with k v.
    + rewrite <- D1 in L. assert (T := Ts _ _ _ L).
      destruct (@path_tied error cwd v K T) as [[_ N]|[E _]]; [now destruct N|]. now apply troubled_path with k v.
    + assert (T := proj1 (said_tied f p cwd o home ps K Hh V _ (program_said f env l ps R _ _ _ v L (or_introl eq_refl)))).
      destruct (@program_tied error cwd v K T) as [[_ N]|[E _]]; [now destruct N|].
      rewrite <- D3 in L. now apply troubled_browser with fm v args.
    + assert (T := proj1 (said_tied f p cwd o home ps K Hh V _ (words_said f env l ps R _ _ _ v L I))).
      destruct (@triple_tied error cwd v K T) as [[_ N']|[E _]]; [now destruct N'|].
      rewrite <- D2 in L. now apply troubled_target with fm ws v.
    + rewrite <- D1 in L, Lr. assert (Tv := Ts _ _ _ L). destruct (def v) as [d|] eqn:D; [|destruct Tv].
      apply troubled_variable with n v r d; auto. now apply top_root.
Qed.
End Load.
Lemma win_load_panic f p cwd o env l x : win_sources f p cwd o env l ->
  os_easy_load windows f p (at_place cwd) o = Panic x <->
  x = PUnwrapNone /\ same_shapes (map snd l) /\ variables_readable env l /\ win_unnamed env l.
Proof.
  intros S. set (cx := into_context p o (at_place cwd)).
  assert (W := win_steps f p cwd o env l S). cbv zeta in W. fold cx in W.
  assert (Srt : forall c, os_load_with_options windows f (at_place cwd) (os_cx_cargo_home windows p cx (at_place cwd)) = Ok c -> sorted (c_env c)).
  { intros c Hc. destruct (win_merged f p cwd o env l c S Hc) as (_ & _ & _ & _ & _ & _ & Ord). apply tables_in_order_sorted in Ord. apply Ord. }
  unfold os_easy_load. cbv zeta. fold cx. change (cx_current_dir cx) with (at_place cwd). split.
  - intros H. apply RootProof.bind_panic in H as [H|(c & Hc & H)].
    { exfalso. destruct S as (K & _ & home & ps & Hh & V & R). unfold os_load_with_options, cx in H.
      rewrite (home_spec p o cwd home K Hh), (visited_spec _ cwd home ps K (win_home_ok p o home Hh) V) in H.
      assert (N := load_files_panic f ps). rewrite H in N. discriminate N. }
    destruct (apply_env (cx_env cx) c) as [de|e|y] eqn:Ha.
    + assert (Both : same_shapes (map snd l) /\ variables_readable env l) by (apply W; eauto).
      apply (unresolved_troubled windows c cx de Ha (Srt c Hc)) in H.
      apply (troubled_iff f p cwd o env l S c de Hc Ha) in H. tauto.
    + unfold os_from_unresolved in H. rewrite Ha in H. discriminate H.
    + assert (N := apply_env_panic (cx_env cx) c). rewrite Ha in N. discriminate N.
  - intros (-> & Sh & Vr & U). destruct (proj1 W (conj Sh Vr)) as (c & de & Hc & Ha). rewrite Hc. cbn [bind].
    assert (T := proj2 (troubled_iff f p cwd o env l S c de Hc Ha PUnwrapNone) (conj eq_refl U)).
    destruct (os_from_unresolved windows c cx) as [ec|e|y] eqn:H.
    + exfalso. exact (troubled_fails windows c cx de Ha PUnwrapNone T ec H).
    + exfalso. apply os_unresolved_err in H. rewrite Ha in H. discriminate H.
    + apply (unresolved_troubled windows c cx de Ha (Srt c Hc)) in H.
      apply (troubled_iff f p cwd o env l S c de Hc Ha) in H as [-> _]. reflexivity.
Qed.
Lemma win_load_fine f p cwd o env l : win_sources f p cwd o env l ->
  same_shapes (map snd l) -> variables_readable env l -> ~ win_unnamed env l ->
  exists ec, os_easy_load windows f p (at_place cwd) o = Ok ec.
Proof.
  intros S Sh Vr U. assert (P := win_load_panic f p cwd o env l PUnwrapNone S).
  destruct (proj1 (win_steps f p cwd o env l S) (conj Sh Vr)) as (c & de & Hc & Ha).
  destruct (os_easy_load windows f p (at_place cwd) o) as [ec|e|x] eqn:H; [eauto|exfalso..].
  - unfold os_easy_load in H. cbv zeta in H. change (cx_current_dir (into_context p o (at_place cwd))) with (at_place cwd) in H.
    rewrite Hc in H. cbn [bind] in H. apply os_unresolved_err in H. rewrite Ha in H. discriminate H.
  - apply (win_load_panic f p cwd o env l x S) in H. tauto.
Qed.

Lemma home_below f p cwd o env l : win_sources f p cwd o env l -> (forall h, win_home p o (Some h) -> snd h <> []) ->
  (forall A (k : scalar_key A) v, scalar_of env l k = Some v -> ~ at_top (def v))
  /\ (forall k fm ws v, words_of env l k = Some (fm, ws) -> In v ws -> ~ at_top (def v))
  /\ (forall k fm ws v, program_in_all env l k = Some (fm, ws) -> In v ws -> ~ at_top (def v)).
Proof.
  intros (K & En & home & ps & Hh & V & R) B.
  assert (T : forall d, said ps d -> ~ at_top d).
  { intros d Sd A. destruct (proj2 (said_tied f p cwd o home ps K Hh V _ Sd) A) as (h & -> & E). now apply (B h). }
  split; [|split].
  - intros A k v H. apply T. exact (scalar_said f env l ps R A k v H).
  - intros k fm ws v H I. apply T. exact (words_said f env l ps R _ _ _ v H I).
  - intros k fm ws v H I. apply T. exact (program_said f env l ps R _ _ _ v H I).
Qed.
