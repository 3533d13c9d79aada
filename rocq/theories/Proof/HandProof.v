(** Settings handed on to another process by its variables. *)
From Verif.Model Require Import Base Str Path BMap Error Value De EasyTypes Triple Context ApplyEnv Load Process
  Resolve Easy.
From Verif.Spec Require Import StrSpec Utf8Spec FlagsSpec PathSpec ConfigSpec LoadSpec EnvSpec RootSpec TripleSpec TargetSpec
  QuerySpec FinalSpec ReloadSpec HandSpec.
From Verif.Proof Require Import StrFacts FlagsProof Utf8Proof RootProof TripleProof EnvProof EnvVarsProof FinalProof LocalProof.
From Verif.Spec Require Import FinalSpec.

#[local] Arguments B : simpl never.

Lemma settled_path cwd v y : absolute (val v) -> path_at cwd v y -> y = val v.
Proof. intros H [K|d r K N _]; [reflexivity|contradiction]. Qed.
Lemma settled_program_at cwd v y : settled_program (val v) -> program_at cwd v y -> y = val v.
Proof. intros [H|H] [K|d r K N I _]; try reflexivity; contradiction. Qed.
Lemma settled_final {A} cwd (k : scalar_key A) v y : settled k (val v) -> final_at cwd k v y -> y = val v.
Proof.
  destruct k; cbn [settled final_at]; try (intros; congruence);
    first [apply settled_path|apply settled_program_at].
Qed.

Section Run.
Variables (f : fs) (p : process_env) (cwd : str) (o : options) (env : env_map) (l : files) (c : econfig).
Hypothesis S : sources f p cwd o env l.
Hypothesis H : easy_load_with_options f p cwd o = Ok c.

Lemma hand_value {A} (k : scalar_key A) a : field k = true -> handed_on env k a -> settled k a ->
  switches_off k a = false -> easy_look k c = Some a.
Proof.
  intros F (r & rest & t & V & G & U & R) T O.
  destruct (merged_of_sources _ _ _ _ _ _ _ S H) as (u & de & Hu & Ha & M & _).
  destruct (from_unresolved_fields _ _ _ _ Hu Ha) as (K & _). specialize (K A k F). rewrite M in K.
  unfold scalar_of, scalar_after, consulted in K. rewrite V in K. cbn [map first_defined] in K. rewrite G in K.
  apply utf8_valid_iff in U. rewrite U, R, O in K. destruct (easy_look k c) as [y|]; [|contradiction]. cbn [both] in K.
  apply settled_final in K; [|exact T]. now rewrite K.
Qed.

Lemma encoded_words s n : env_get (B "CARGO_ENCODED_" ++ name_of_flags n) env = Some s -> utf8 s ->
  words_of env l (flags_of_build n)
  = Some (AsArray, map (of_variable (B "CARGO_ENCODED_" ++ name_of_flags n)) (split_encoded s)).
Proof.
  intros G U. apply utf8_valid_iff in U. unfold words_of, words_after, consulted.
  destruct n; cbn [flags_of_build list_variables map first_defined fst snd name_of_flags] in *;
    change (B "CARGO_ENCODED_" ++ B "RUSTFLAGS") with (B "CARGO_ENCODED_RUSTFLAGS") in *;
    change (B "CARGO_ENCODED_" ++ B "RUSTDOCFLAGS") with (B "CARGO_ENCODED_RUSTDOCFLAGS") in *;
    now rewrite G, U.
Qed.
Lemma spaced_words s n : env_get (B "CARGO_ENCODED_" ++ name_of_flags n) env = None ->
  env_get (name_of_flags n) env = Some s -> utf8 s ->
  words_of env l (flags_of_build n)
  = Some (AsString, map (of_variable (name_of_flags n)) (split_space_separated s)).
Proof.
  intros N G U. apply utf8_valid_iff in U. unfold words_of, words_after, consulted.
  destruct n; cbn [flags_of_build list_variables map first_defined fst snd name_of_flags] in *;
    change (B "CARGO_ENCODED_" ++ B "RUSTFLAGS") with (B "CARGO_ENCODED_RUSTFLAGS") in *;
    change (B "CARGO_ENCODED_" ++ B "RUSTDOCFLAGS") with (B "CARGO_ENCODED_RUSTDOCFLAGS") in *;
    now rewrite N, G, U.
Qed.
Lemma vals_of_variable n (ws : list str) : map (@val str) (map (of_variable n) ws) = ws.
Proof. rewrite map_map. apply map_id. Qed.
(** The variables are text, or loading would have failed. *)
Lemma flags_text n s : env_get (B "CARGO_ENCODED_" ++ name_of_flags n) env = Some s
  \/ env_get (B "CARGO_ENCODED_" ++ name_of_flags n) env = None /\ env_get (name_of_flags n) env = Some s -> utf8 s.
Proof.
  intros K. destruct (merged_of_sources _ _ _ _ _ _ _ S H) as (u & de & _ & Ha & _).
  destruct (sources_cx _ _ _ _ _ _ S) as (N & G & _).
  assert (R : readable (list_variables (flags_of_build n)) env).
  { intros name. rewrite (consulted_ext _ _ _ G). apply (apply_env_ok _ u N). now rewrite Ha. }
  apply utf8_valid_iff. destruct (utf8_valid s) eqn:U; [reflexivity|]. exfalso. unfold readable, consulted in R.
  destruct n; cbn [flags_of_build list_variables map first_defined fst snd name_of_flags] in *;
    change (B "CARGO_ENCODED_" ++ B "RUSTFLAGS") with (B "CARGO_ENCODED_RUSTFLAGS") in *;
    change (B "CARGO_ENCODED_" ++ B "RUSTDOCFLAGS") with (B "CARGO_ENCODED_RUSTDOCFLAGS") in *;
    (destruct K as [K|[K K']]; rewrite K in R; [|rewrite K' in R]; rewrite U in R; now eapply R).
Qed.

Section Target.
Variables (pr : profile) (w : world) (a : target_arg) (s s' : state).
Hypothesis U : Forall (fun x => text_keys (c_target (snd x))) l.
Hypothesis Rs : reached pr w c s.
Hypothesis Ra : real_arg a.

Lemma answers q x : target_query q a -> run_query pr w c q s = (Ok x, s') ->
  exists t matches e, to_triple a = Ok t /\ settings_of env l (ec_de_target c) cwd matches (tt_triple t) e /\ x = part_of q e.
Proof.
  intros Q K. assert (T : exists t, to_triple a = Ok t).
  { destruct (to_triple a) as [t| |] eqn:E; [now exists t| |];
      destruct Q as [-> | [-> | [-> | [-> | -> ]]]]; cbn [run_query] in K;
      unfold mapM, q_linker, q_runner, q_rustflags, q_rustdocflags, q_target, bindM, lift in K; rewrite E in K; discriminate. }
  destruct T as [t T]. exists t.
  destruct (target_final f p cwd o env l c pr w q a t s x s' S H U Rs Q Ra T K _ (tables_loaded _ _ _ _ _ _ _ S H))
    as (m & e & _ & X & E). now exists m, e.
Qed.
Lemma override_build n x fm ws : words_of env l (flags_of_build n) = Some (fm, ws) ->
  overrides_target env (name_of_flags n) = true -> run_query pr w c (flags_query n a) s = (Ok x, s') ->
  x = AFlags (Some (mkEflags (map val ws))).
Proof.
  intros W O K. assert (Q : target_query (flags_query n a) a).
  { destruct n; unfold target_query; cbn [flags_query]; tauto. }
  destruct (answers _ _ Q K) as (t & m & e & _ & (_ & _ & X1 & X2) & ->).
  destruct n; cbn [flags_query part_of name_of_flags flags_of_build] in *; f_equal;
    [rewrite X1, O|rewrite X2, O]; unfold target_rustflags, target_rustdocflags; now rewrite W.
Qed.
Lemma hand_linker t v x : to_triple a = Ok t -> env_get (target_variable (tt_triple t) (B "LINKER")) env = Some v ->
  settled_program v -> run_query pr w c (QLinker a) s = (Ok x, s') -> x = APath (Some v).
Proof.
  intros T G V K. destruct (answers (QLinker a) x) as (t' & m & e & T' & (X & _) & ->); [unfold target_query; tauto|exact K|].
  rewrite T in T'. injection T' as <-. cbn [part_of]. f_equal. unfold target_linker, var in X. rewrite G in X.
  cbn [option_map app first_defined] in X. destruct (et_linker e) as [y|]; [|contradiction]. cbn [both] in X.
  apply settled_program_at in X; [|exact V]. now rewrite X.
Qed.
Lemma hand_runner t v path args x : to_triple a = Ok t ->
  env_get (target_variable (tt_triple t) (B "RUNNER")) env = Some v -> split_space_separated v = path :: args ->
  settled_program path -> run_query pr w c (QRunner a) s = (Ok x, s') -> x = APa (Some (mkEpa path args)).
Proof.
  intros T G W V K. destruct (answers (QRunner a) x) as (t' & m & e & T' & (_ & X & _) & ->); [unfold target_query; tauto|exact K|].
  rewrite T in T'. injection T' as <-. cbn [part_of]. f_equal. unfold target_runner, var_words in X. rewrite G in X.
  cbn [option_map app first_defined] in X. rewrite W in X. cbn [map] in X. destruct (et_runner e) as [[y z]|]; [|contradiction]. cbn [both option_map] in X.
  destruct X as (v1 & a1 & E & X1 & X2). cbn [snd fst epa_path epa_args] in *. injection E as <- <-.
  apply settled_program_at in X1; [|exact V]. cbn [val of_variable] in X1. rewrite vals_of_variable in X2. now subst.
Qed.
End Target.
Lemma hand_target v : env_get (B "CARGO_BUILD_TARGET") env = Some v -> (spec_like v -> absolute v) ->
  easy_words BuildTarget c = Some [v].
Proof.
  intros G V. assert (U : utf8_valid v = true).
  { destruct (merged_of_sources _ _ _ _ _ _ _ S H) as (u & de & _ & Ha & _).
    destruct (sources_cx _ _ _ _ _ _ S) as (N & Ge & _).
    assert (R : readable (list_variables BuildTarget) env).
    { intros name. rewrite (consulted_ext _ _ _ Ge). apply (apply_env_ok _ u N). now rewrite Ha. }
    destruct (utf8_valid v) eqn:U; [reflexivity|]. exfalso. unfold readable, consulted in R.
    cbn [list_variables map first_defined fst snd] in R. rewrite G, U in R. now eapply R. }
  destruct (merged_of_sources _ _ _ _ _ _ _ S H) as (u & de & Hu & Ha & _ & M & _).
  destruct (from_unresolved_fields _ _ _ _ Hu Ha) as (_ & R & _). specialize (R BuildTarget eq_refl). rewrite M in R.
  unfold words_of, words_after, consulted in R. cbn [list_variables map first_defined fst snd] in R. rewrite G, U in R.
  destruct (easy_words BuildTarget c) as [ts|]; [|contradiction]. cbn [both final_words snd] in R.
  inversion R as [|? y ? ts' R1 R2]; subst. inversion R2; subst. f_equal. f_equal.
  destruct R1 as [N|q N P]; [reflexivity|]. apply settled_path in P; auto.
Qed.
End Run.
