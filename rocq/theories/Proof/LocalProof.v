(** Each setting depends on its own keys and variables only. *)
From Verif.Model Require Import Base Str Path BMap Error Value De EasyTypes Triple Context ApplyEnv Load Process
  Resolve Easy.
From Verif.Spec Require Import StrSpec PathSpec ConfigSpec LoadSpec EnvSpec RootSpec TripleSpec TargetSpec FinalSpec
  OptionsSpec LocalSpec.
From Verif.Proof Require Import StrFacts BMapFacts MergeProof RootProof TripleProof EnvProof EnvTextProof EnvVarsProof LoadProof
  TargetProof FinalProof OptionsProof.
From Verif.Proof Require SecretProof.

#[local] Arguments B : simpl never.

(** ** Keys *)
Lemma consulted_agree {A} env env' (vars : list (reader A)) : vars_agree env env' vars ->
  consulted vars env = consulted vars env'.
Proof. intros H. unfold consulted. f_equal. apply map_ext_in. intros r I. now rewrite (H r I). Qed.
Lemma agree_scalar_of {A} env env' l l' (k : scalar_key A) : agree_scalar env env' l l' k ->
  scalar_of env l k = scalar_of env' l' k.
Proof. intros [V F]. unfold scalar_of, scalar_after. now rewrite F, (consulted_agree _ _ _ V). Qed.
Lemma agree_words_of env env' l l' k : agree_list env env' l l' k -> words_of env l k = words_of env' l' k.
Proof. intros [V F]. unfold words_of, words_after. now rewrite F, (consulted_agree _ _ _ V). Qed.
Lemma agree_program_of env env' l l' k : agree_program env env' l l' k ->
  program_in_all env l k = program_in_all env' l' k.
Proof.
  intros [V F]. unfold program_in_all, program_after, words_after. rewrite F.
  destruct k; [|reflexivity]. now rewrite (consulted_agree _ _ _ V).
Qed.

(** ** Results are determined *)
Lemma both_unique {A A'} (R : A -> A' -> Prop) x a b :
  (forall v y z, R v y -> R v z -> y = z) -> both R x a -> both R x b -> a = b.
Proof. intros U. destruct x, a, b; cbn; intros H H'; try contradiction; [f_equal; eauto|reflexivity]. Qed.
Lemma final_unique {A} cwd (k : scalar_key A) v y z : final_at cwd k v y -> final_at cwd k v z -> y = z.
Proof.
  destruct k; cbn [final_at]; try (intros; congruence);
    first [apply program_at_unique|apply path_at_unique].
Qed.
Lemma target_at_unique cwd v y z : target_at cwd v y -> target_at cwd v z -> y = z.
Proof.
  intros [H|p H K] [H'|p' H' K']; try contradiction; [reflexivity|]. now apply (path_at_unique cwd v).
Qed.
Lemma forall2_unique {A A'} (R : A -> A' -> Prop) : (forall v y z, R v y -> R v z -> y = z) ->
  forall l a b, Forall2 R l a -> Forall2 R l b -> a = b.
Proof.
  intros U l a b H. revert b. induction H as [|v y l a Hv _ IH]; intros b H'; inversion H'; [reflexivity|].
  subst. f_equal; [now apply (U v)|now apply IH].
Qed.
Lemma final_words_unique cwd k ws y z : final_words cwd k ws y -> final_words cwd k ws z -> y = z.
Proof.
  destruct k; cbn [final_words]; try (intros; congruence).
  apply forall2_unique. apply target_at_unique.
Qed.
Lemma command_at_unique cwd ws y z : command_at cwd ws y -> command_at cwd ws z -> y = z.
Proof.
  intros (v & a & E & P & Q) (v' & a' & E' & P' & Q'). rewrite E in E'. injection E' as <- <-.
  destruct y, z. cbn in *. f_equal; [now apply (program_at_unique cwd v)|congruence].
Qed.
Lemma env_at_unique cwd f r v y z : env_at cwd f r v y -> env_at cwd f r v z -> y = z.
Proof.
  intros (A1 & A2 & A3) (B1 & B2 & B3). destruct y, z. cbn in *. subst. f_equal.
  destruct (on r); [now apply (path_at_unique cwd v)|congruence].
Qed.

(** ** What the queries read *)
Record same_rustc (c c' : econfig) : Prop := {
  sr_cargo : cx_cargo (ec_cx c) = cx_cargo (ec_cx c');
  sr_rustc : eb_rustc (ec_build c) = eb_rustc (ec_build c');
  sr_wrapper : eb_rustc_wrapper (ec_build c) = eb_rustc_wrapper (ec_build c');
  sr_workspace : eb_rustc_workspace_wrapper (ec_build c) = eb_rustc_workspace_wrapper (ec_build c')
}.
Record same_target (triple : str) (c c' : econfig) : Prop := {
  st_rustc : same_rustc c c';
  st_dir : cx_current_dir (ec_cx c) = cx_current_dir (ec_cx c');
  st_flags : eb_de_rustflags (ec_build c) = eb_de_rustflags (ec_build c');
  st_docflags : eb_de_rustdocflags (ec_build c) = eb_de_rustdocflags (ec_build c');
  st_override : eb_override_target_rustflags (ec_build c) = eb_override_target_rustflags (ec_build c');
  st_override_doc : eb_override_target_rustdocflags (ec_build c) = eb_override_target_rustdocflags (ec_build c');
  st_vars : forall key, In key [B "LINKER"; B "RUNNER"; B "RUSTFLAGS"; B "RUSTDOCFLAGS"] ->
      env_get (target_variable triple key) (cx_env (ec_cx c)) = env_get (target_variable triple key) (cx_env (ec_cx c'));
  st_table : bget triple (ec_de_target c) = bget triple (ec_de_target c');
  st_cfgs : filter (fun x => is_cfg (fst x)) (ec_de_target c) = filter (fun x => is_cfg (fst x)) (ec_de_target c')
}.

Lemma cfgs_filter pr w cx b t tables : forall acc s,
  resolve_cfgs pr w cx b t tables acc s = resolve_cfgs pr w cx b t (filter (fun x => is_cfg (fst x)) tables) acc s.
Proof.
  induction tables as [|[k v] tables IH]; intros acc s; [reflexivity|]. cbn [filter fst].
  rewrite <- is_cfg_starts. destruct (starts_with (B "cfg(") k) eqn:E; cbn [resolve_cfgs]; rewrite ?E; cbn [negb].
  - apply SecretProof.bindM_ext; [reflexivity|]. intros m u. destruct acc as [[? ?] ?]. apply IH.
  - apply IH.
Qed.

Section Query.
Variables (pr : profile) (w : world) (c c' : econfig).
Hypothesis T : same_rustc c c'.
Let cx := ec_cx c. Let cx' := ec_cx c'. Let b := ec_build c. Let b' := ec_build c'.
Lemma base_local s : base_rustc w cx b s = base_rustc w cx' b' s.
Proof. unfold base_rustc, b, b', cx, cx'. now rewrite (sr_rustc _ _ T), (sr_cargo _ _ T). Qed.
Lemma rustc_local s : cx_rustc w cx b s = cx_rustc w cx' b' s.
Proof.
  unfold cx_rustc. apply SecretProof.bindM_ext; [reflexivity|]. intros s1 s2. destruct (s_rustc s1); [reflexivity|].
  apply SecretProof.bindM_ext; [apply base_local|]. intros r u. unfold b, b'.
  now rewrite (sr_wrapper _ _ T), (sr_workspace _ _ T).
Qed.
Lemma version_local s : rustc_for_version w cx b s = rustc_for_version w cx' b' s.
Proof.
  unfold rustc_for_version. apply SecretProof.bindM_ext; [apply base_local|]. intros r u. unfold b, b'.
  now rewrite (sr_wrapper _ _ T).
Qed.
Lemma cfg_local t s : target_cfg w cx b t s = target_cfg w cx' b' t s.
Proof.
  unfold target_cfg. apply SecretProof.bindM_ext; [reflexivity|]. intros s1 s2.
  destruct (cfg_get _ _); [reflexivity|]. apply SecretProof.bindM_ext; [apply rustc_local|]. reflexivity.
Qed.
Lemma eval_local e t s : eval_cfg pr w cx b e t s = eval_cfg pr w cx' b' e t s.
Proof.
  unfold eval_cfg. apply SecretProof.bindM_ext; [reflexivity|]. intros x u.
  apply SecretProof.bindM_ext; [apply cfg_local|]. reflexivity.
Qed.
Lemma cfgs_local t tables : forall acc s,
  resolve_cfgs pr w cx b t tables acc s = resolve_cfgs pr w cx' b' t tables acc s.
Proof.
  induction tables as [|[k v] tables IH]; intros acc s; [reflexivity|]. cbn [resolve_cfgs].
  destruct (negb _); [apply IH|]. apply SecretProof.bindM_ext; [apply eval_local|].
  intros m u. destruct acc as [[? ?] ?]. apply IH.
Qed.
Lemma host_local s : cx_host_triple pr w cx b s = cx_host_triple pr w cx' b' s.
Proof.
  unfold cx_host_triple. apply SecretProof.bindM_ext; [reflexivity|]. intros s1 s2. destruct (s_host s1); [reflexivity|].
  apply SecretProof.bindM_ext; [|reflexivity]. intros u. unfold or_else, cargo_host, cx, cx'. rewrite (sr_cargo _ _ T).
  match goal with |- (let (_, _) := ?m in _) = _ => destruct m as [[x|e|q] u'] end; [reflexivity| |reflexivity].
  unfold rustc_host. apply SecretProof.bindM_ext; [apply version_local|]. reflexivity.
Qed.
Lemma rustc_version_local s : cx_rustc_version pr w cx b s = cx_rustc_version pr w cx' b' s.
Proof.
  unfold cx_rustc_version. apply SecretProof.bindM_ext; [reflexivity|]. intros s1 s2.
  destruct (s_rustc_version s1); [reflexivity|].
  apply SecretProof.bindM_ext; [intros u; unfold ignore_err; now rewrite host_local|]. intros _ u.
  apply SecretProof.bindM_ext; [reflexivity|]. intros s3 s4. destruct (s_rustc_version s3); [reflexivity|].
  apply SecretProof.bindM_ext; [apply version_local|]. reflexivity.
Qed.
Lemma cargo_version_local s : cx_cargo_version pr w cx b s = cx_cargo_version pr w cx' b' s.
Proof.
  unfold cx_cargo_version. apply SecretProof.bindM_ext; [reflexivity|]. intros s1 s2.
  destruct (s_cargo_version s1); [reflexivity|].
  apply SecretProof.bindM_ext; [intros u; unfold ignore_err; now rewrite host_local|]. intros _ u.
  unfold cx, cx'. now rewrite (sr_cargo _ _ T).
Qed.
End Query.

Lemma resolve_local pr w c c' t s : same_target (tt_triple t) c c' ->
  resolve_target pr w (ec_cx c) (ec_build c) (ec_de_target c) t s
  = resolve_target pr w (ec_cx c') (ec_build c') (ec_de_target c') t s.
Proof.
  intros T. unfold resolve_target. destruct (starts_with _ _); [reflexivity|]. cbn zeta.
  assert (V : forall key, In key [B "LINKER"; B "RUNNER"; B "RUSTFLAGS"; B "RUSTDOCFLAGS"] ->
    cx_env_var (cx_env (ec_cx c)) (B "CARGO_TARGET_" ++ target_u_upper (tt_triple t) ++ (B "_" ++ key))
    = cx_env_var (cx_env (ec_cx c')) (B "CARGO_TARGET_" ++ target_u_upper (tt_triple t) ++ (B "_" ++ key))).
  { intros key I. rewrite target_var_name. unfold cx_env_var. now rewrite (st_vars _ _ _ T key I). }
  change (B "_LINKER") with (B "_" ++ B "LINKER"). change (B "_RUNNER") with (B "_" ++ B "RUNNER").
  change (B "_RUSTFLAGS") with (B "_" ++ B "RUSTFLAGS"). change (B "_RUSTDOCFLAGS") with (B "_" ++ B "RUSTDOCFLAGS").
  rewrite !V by (cbn; tauto). rewrite (st_table _ _ _ T).
  do 5 (apply SecretProof.bindM_ext; [reflexivity|]; intros). apply SecretProof.bindM_ext.
  - intros u. rewrite cfgs_filter, (st_cfgs _ _ _ T), <- cfgs_filter. apply cfgs_local. exact (st_rustc _ _ _ T).
  - intros [[? ?] ?] u. now rewrite (st_flags _ _ _ T), (st_docflags _ _ _ T), (st_override _ _ _ T), (st_override_doc _ _ _ T).
Qed.
Lemma target_local pr w c c' a s : (forall t, to_triple a = Ok t -> same_target (tt_triple t) c c') ->
  q_target pr w c a s = q_target pr w c' a s.
Proof.
  intros H. unfold q_target. unfold bindM, lift. destruct (to_triple a) as [t| |] eqn:E; [|reflexivity..].
  specialize (H t eq_refl). unfold q_target_of. apply SecretProof.bindM_ext; [|reflexivity]. intros u.
  unfold init_target_config. apply SecretProof.bindM_ext; [reflexivity|]. intros st u2.
  destruct (bget _ _); [reflexivity|]. apply SecretProof.bindM_ext; [intros; now apply resolve_local|].
  intros de u3. now rewrite (st_dir _ _ _ H).
Qed.

(** ** From the sources to what the queries read *)
Lemma filter_sorted {V} (g : str * V -> bool) (m : bmap V) : sorted m -> sorted (filter g m).
Proof.
  induction 1 as [|[k v] m S IH F]; cbn [filter]; [constructor|].
  destruct (g (k, v)); [|assumption]. constructor; [assumption|].
  rewrite Forall_forall in *. intros x I. apply filter_In in I as [I _]. now apply F.
Qed.
Lemma filter_bget {V} (g : str -> bool) (m : bmap V) k : sorted m ->
  bget k (filter (fun x => g (fst x)) m) = if g k then bget k m else None.
Proof.
  intros S. destruct (bget k (filter _ m)) as [v|] eqn:E.
  - apply bget_in, filter_In in E as [I E]. cbn in E. rewrite E. symmetry. now apply sorted_in_bget.
  - destruct (g k) eqn:G; [|reflexivity]. destruct (bget k m) as [v|] eqn:K; [|reflexivity].
    apply bget_in in K. assert (I : In (k, v) (filter (fun x => g (fst x)) m)) by (apply filter_In; auto).
    apply sorted_in_bget in I; [congruence|]. now apply filter_sorted.
Qed.

Lemma loaded_readable f p cwd o env l c : sources f p cwd o env l -> easy_load_with_options f p cwd o = Ok c ->
  forall A (k : scalar_key A), readable (variables k) env.
Proof.
  intros S H A k name. destruct (merged_of_sources _ _ _ _ _ _ _ S H) as (u & de & _ & Ha & _).
  destruct (sources_cx _ _ _ _ _ _ S) as (N & G & _). rewrite (consulted_ext _ _ _ G).
  apply (apply_env_ok _ u N); now rewrite Ha.
Qed.

Section Runs.
Variables (f f' : fs) (p p' : process_env) (cwd : str) (o o' : options) (env env' : env_map) (l l' : files)
  (c c' : econfig).
Hypothesis S : sources f p cwd o env l.
Hypothesis S' : sources f' p' cwd o' env' l'.
Hypothesis H : easy_load_with_options f p cwd o = Ok c.
Hypothesis H' : easy_load_with_options f' p' cwd o' = Ok c'.

Lemma value_final {A} (k : scalar_key A) : field k = true -> scalar_of env l k = scalar_of env' l' k ->
  easy_look k c = easy_look k c'.
Proof.
  intros K G.
  destruct (merged_of_sources _ _ _ _ _ _ _ S H) as (u & de & Hu & Ha & M & _).
  destruct (merged_of_sources _ _ _ _ _ _ _ S' H') as (u' & de' & Hu' & Ha' & M' & _).
  destruct (from_unresolved_fields _ _ _ _ Hu Ha) as (R & _).
  destruct (from_unresolved_fields _ _ _ _ Hu' Ha') as (R' & _).
  specialize (R A k K). specialize (R' A k K). rewrite M in R. rewrite M', <- G in R'.
  exact (both_unique _ _ _ _ (final_unique cwd k) R R').
Qed.
Lemma value_local {A} (k : scalar_key A) : field k = true -> agree_scalar env env' l l' k ->
  easy_look k c = easy_look k c'.
Proof. intros K G. apply value_final; [assumption|]. now apply agree_scalar_of. Qed.
Lemma list_local k : list_field k = true -> agree_list env env' l l' k -> easy_words k c = easy_words k c'.
Proof.
  intros K G. apply agree_words_of in G.
  destruct (merged_of_sources _ _ _ _ _ _ _ S H) as (u & de & Hu & Ha & _ & M & _).
  destruct (merged_of_sources _ _ _ _ _ _ _ S' H') as (u' & de' & Hu' & Ha' & _ & M' & _).
  destruct (from_unresolved_fields _ _ _ _ Hu Ha) as (_ & R & _).
  destruct (from_unresolved_fields _ _ _ _ Hu' Ha') as (_ & R' & _).
  specialize (R k K). specialize (R' k K). rewrite M in R. rewrite M', <- G in R'.
  exact (both_unique _ _ _ _ (final_words_unique cwd k) R R').
Qed.
Lemma browser_local : agree_program env env' l l' DocBrowser ->
  option_map program_of (ed_browser (ec_doc c)) = option_map program_of (ed_browser (ec_doc c')).
Proof.
  intros G. apply agree_program_of in G.
  destruct (merged_of_sources _ _ _ _ _ _ _ S H) as (u & de & Hu & Ha & _ & _ & M & _).
  destruct (merged_of_sources _ _ _ _ _ _ _ S' H') as (u' & de' & Hu' & Ha' & _ & _ & M' & _).
  destruct (from_unresolved_fields _ _ _ _ Hu Ha) as (_ & _ & R & _).
  destruct (from_unresolved_fields _ _ _ _ Hu' Ha') as (_ & _ & R' & _).
  rewrite M in R. rewrite M', <- G in R'. exact (both_unique _ _ _ _ (command_at_unique cwd) R R').
Qed.
Lemma env_local n : agree_scalar env env' l l' (EnvVarValue n) -> agree_scalar env env' l l' (EnvVarForce n) ->
  agree_scalar env env' l l' (EnvVarRelative n) -> bget n (ec_env c) = bget n (ec_env c').
Proof.
  intros G1 G2 G3. apply agree_scalar_of in G1, G2, G3.
  destruct (merged_of_sources _ _ _ _ _ _ _ S H) as (u & de & Hu & Ha & M & _).
  destruct (merged_of_sources _ _ _ _ _ _ _ S' H') as (u' & de' & Hu' & Ha' & M' & _).
  destruct (from_unresolved_fields _ _ _ _ Hu Ha) as (_ & _ & _ & R & _).
  destruct (from_unresolved_fields _ _ _ _ Hu' Ha') as (_ & _ & _ & R' & _).
  specialize (R n). specialize (R' n). rewrite !M in R. rewrite !M', <- G1, <- G2, <- G3 in R'.
  exact (both_unique _ _ _ _ (env_at_unique _ _ _) R R').
Qed.
Lemma rustc_agreed g : cargo_of o env g -> cargo_of o' env' g -> agree_rustc env env' l l' ->
  same_rustc c c'.
Proof.
  intros C C' (A1 & A2 & A3). split.
  - rewrite (loaded_context _ _ _ _ _ H), (loaded_context _ _ _ _ _ H').
    rewrite (cargo_cx _ _ _ _ _ (proj1 S) C), (cargo_cx _ _ _ _ _ (proj1 S') C'). reflexivity.
  - exact (value_local BuildRustc eq_refl A1).
  - exact (value_local BuildRustcWrapper eq_refl A2).
  - exact (value_local BuildRustcWorkspaceWrapper eq_refl A3).
Qed.
Lemma table_local name : agree_table env env' l l' name -> bget name (ec_de_target c) = bget name (ec_de_target c').
Proof.
  intros (E1 & (_ & E2) & (_ & E3) & (_ & E4) & (_ & E5)).
  destruct (tables_loaded _ _ _ _ _ _ _ S H) as (_ & H1 & H2 & H3 & H4 & H5).
  destruct (tables_loaded _ _ _ _ _ _ _ S' H') as (_ & H1' & H2' & H3' & H4' & H5').
  unfold agree_entry in E1.
  specialize (H1 name). rewrite E1, <- (H1' name) in H1. specialize (H2 name). rewrite E2, <- (H2' name) in H2.
  specialize (H3 name). rewrite E3, <- (H3' name) in H3. specialize (H4 name). rewrite E4, <- (H4' name) in H4.
  specialize (H5 name). rewrite E5, <- (H5' name) in H5. clear -H1 H2 H3 H4 H5. unfold under in *.
  destruct (bget name (ec_de_target c)) as [[a1 a2 a3 a4]|], (bget name (ec_de_target c')) as [[a1' a2' a3' a4']|];
    try discriminate; [|reflexivity].
  unfold runner_words, rustflags_words, rustdocflags_words in *. cbn in *.
  apply words_eq_program in H3. apply words_eq_flags in H4, H5. congruence.
Qed.
Lemma flags_local : agree_list env env' l l' BuildRustflags -> agree_list env env' l l' BuildRustdocflags ->
  eb_de_rustflags (ec_build c) = eb_de_rustflags (ec_build c')
  /\ eb_de_rustdocflags (ec_build c) = eb_de_rustdocflags (ec_build c')
  /\ eb_override_target_rustflags (ec_build c) = eb_override_target_rustflags (ec_build c')
  /\ eb_override_target_rustdocflags (ec_build c) = eb_override_target_rustdocflags (ec_build c').
Proof.
  intros G1 G2. assert (V1 := proj1 G1). assert (V2 := proj1 G2). apply agree_words_of in G1, G2.
  destruct (merged_of_sources _ _ _ _ _ _ _ S H) as (u & de & Hu & Ha & _ & M & _).
  destruct (merged_of_sources _ _ _ _ _ _ _ S' H') as (u' & de' & Hu' & Ha' & _ & M' & _).
  destruct (from_unresolved_ok _ _ _ Hu) as (d & Hd & Rb & _).
  destruct (from_unresolved_ok _ _ _ Hu') as (d' & Hd' & Rb' & _).
  rewrite Ha in Hd. injection Hd as <-. rewrite Ha' in Hd'. injection Hd' as <-.
  destruct (sources_cx _ _ _ _ _ _ S) as (_ & G & _). destruct (sources_cx _ _ _ _ _ _ S') as (_ & G' & _).
  apply apply_env_overrides in Ha, Ha'. unfold overrides in Ha, Ha'.
  rewrite (br_de_rustflags _ _ _ Rb), (br_de_rustflags _ _ _ Rb'), (br_de_rustdocflags _ _ _ Rb),
    (br_de_rustdocflags _ _ _ Rb'), (br_override _ _ _ Rb), (br_override _ _ _ Rb'), (br_override_doc _ _ _ Rb),
    (br_override_doc _ _ _ Rb').
  assert (Q1 := M BuildRustflags). assert (Q2 := M BuildRustdocflags).
  rewrite G1, <- M' in Q1. rewrite G2, <- M' in Q2. cbn [look_list] in Q1, Q2.
  apply words_eq_flags in Q1, Q2. split; [assumption|]. split; [assumption|].
  assert (X : forall n, env_get n env = env_get n env' ->
    EnvSpec.set (cx_env (into_context p o cwd)) n = EnvSpec.set (cx_env (into_context p' o' cwd)) n).
  { intros n E. unfold EnvSpec.set. now rewrite <- G, <- G', E. }
  rewrite !X in Ha.
  - rewrite <- Ha' in Ha. split; congruence.
  - exact (V2 _ (or_intror (or_introl eq_refl))).
  - exact (V2 _ (or_introl eq_refl)).
  - exact (V1 _ (or_intror (or_introl eq_refl))).
  - exact (V1 _ (or_introl eq_refl)).
Qed.
Lemma target_agreed g triple : cargo_of o env g -> cargo_of o' env' g -> agree_target env env' l l' triple ->
  same_target triple c c'.
Proof.
  intros C C' (A1 & A2 & A3 & A4 & A5). destruct (flags_local A2 A3) as (F1 & F2 & F3 & F4). split; auto.
  - now apply (rustc_agreed g).
  - now rewrite (loaded_context _ _ _ _ _ H), (loaded_context _ _ _ _ _ H').
  - intros key I. rewrite (loaded_context _ _ _ _ _ H), (loaded_context _ _ _ _ _ H').
    destruct (sources_cx _ _ _ _ _ _ S) as (_ & G & _). destruct (sources_cx _ _ _ _ _ _ S') as (_ & G' & _).
    rewrite <- G, <- G'. now apply A4.
  - apply table_local, A5. now left.
  - assert (O := tables_loaded _ _ _ _ _ _ _ S H). assert (O' := tables_loaded _ _ _ _ _ _ _ S' H').
    apply proj1, in_order_sorted in O, O'.
    apply sorted_ext; [now apply filter_sorted..|]. intros k.
    rewrite !(filter_bget is_cfg) by assumption. destruct (is_cfg k) eqn:K; [|reflexivity].
    apply table_local, A5. now right.
Qed.
Lemma build_target_agreed : agree_list env env' l l' BuildTarget ->
  eb_target (ec_build c) = eb_target (ec_build c').
Proof.
  intros A. assert (E := list_local BuildTarget eq_refl A). cbn [easy_words] in E.
  destruct (load_well_formed _ _ _ _ _ H) as (_ & _ & _ & W).
  destruct (load_well_formed _ _ _ _ _ H') as (_ & _ & _ & W').
  destruct (eb_target (ec_build c)) as [ts|], (eb_target (ec_build c')) as [ts'|]; try discriminate; [|reflexivity].
  specialize (W _ eq_refl). specialize (W' _ eq_refl). injection E as E. f_equal.
  revert ts' W' E. induction W as [|t ts M W IH]; intros [|t' ts'] W' E; try discriminate; [reflexivity|].
  inversion W'; subst. injection E as E1 E. f_equal; [now apply made_unique|now apply IH].
Qed.
Lemma query_local g q pr w s : cargo_of o env g -> cargo_of o' env' g -> agree_query env env' l l' q ->
  run_query pr w c q s = run_query pr w c' q s.
Proof.
  intros C C' A. assert (R := rustc_agreed g C C').
  assert (T : forall a t, (forall x, to_triple a = Ok x -> agree_target env env' l l' (tt_triple x)) ->
    q_target pr w c a t = q_target pr w c' a t).
  { intros a t Q. apply target_local. intros x E. now apply (target_agreed g), Q. }
  destruct q; cbn [agree_query] in A; cbn [run_query];
    unfold mapM, q_linker, q_runner, q_rustflags, q_rustdocflags;
    try (apply SecretProof.bindM_ext; [|reflexivity]; intros u;
         first [now apply T | apply SecretProof.bindM_ext; [intros; now apply T|reflexivity]]).
  - destruct A as [A1 A2]. apply SecretProof.bindM_ext; [|reflexivity]. intros u. unfold q_build_target_for_config.
    rewrite (build_target_agreed A2). apply SecretProof.bindM_ext; [reflexivity|]. intros [|t ts] v; [|reflexivity].
    destruct (eb_target (ec_build c')) as [[|t ts]|]; [|reflexivity|];
      (apply SecretProof.bindM_ext; [intros; apply host_local; auto|reflexivity]).
  - unfold q_build_target_for_cli. now rewrite (build_target_agreed A).
  - apply SecretProof.bindM_ext; [|reflexivity]. intros u. apply rustc_local; auto.
  - unfold q_cargo. rewrite (loaded_context _ _ _ _ _ H), (loaded_context _ _ _ _ _ H').
    now rewrite (cargo_cx _ _ _ _ _ (proj1 S) C), (cargo_cx _ _ _ _ _ (proj1 S') C').
  - apply SecretProof.bindM_ext; [|reflexivity]. intros u. apply host_local; auto.
  - apply SecretProof.bindM_ext; [|reflexivity]. intros u. apply rustc_version_local; auto.
  - apply SecretProof.bindM_ext; [|reflexivity]. intros u. apply cargo_version_local; auto.
Qed.
Lemma queries_local g pr w qs : cargo_of o env g -> cargo_of o' env' g ->
  (forall q, In q qs -> agree_query env env' l l' q) ->
  forall s, run_queries pr w c qs s = run_queries pr w c' qs s.
Proof.
  intros C C'. induction qs as [|q qs IH]; intros A s; cbn [run_queries]; [reflexivity|].
  rewrite (query_local g q pr w s C C' (A q (or_introl eq_refl))). apply IH. intros q' I. apply A. now right.
Qed.
End Runs.
