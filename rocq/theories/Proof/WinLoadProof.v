(** Lemmas about loading on Windows. *)
From Verif.Model Require Import Base Str Path StdPath OsPaths BMap Error Value De Triple EasyTypes
  Context ApplyEnv Process Walk Load Resolve Easy OsLoad.
From Verif.Spec Require Import StrSpec ConfigSpec LoadSpec EnvSpec FinalSpec WinSpec WinLoadSpec.
From Verif.Proof Require Import StrFacts Utf8Proof BMapFacts LoadProof EnvProof EnvVarsProof MergeProof FinalProof
  StdPathProof StdParentProof WinPrefixProof WinDirProof WinUseProof.

(** ** Which files *)
Lemma capital_text s : map capital s = ascii_uppercase s.
Proof. apply map_ext. exact capital_upper. Qed.
Lemma var_spec name vars r : variable_is vars name r -> os_var windows name vars = r.
Proof.
  assert (T : forall a b, str_eqb (ascii_uppercase a) (ascii_uppercase b) = true <-> same_letters a b).
  { intros a b. rewrite str_eqb_eq. unfold same_letters. rewrite !capital_text. tauto. }
  assert (F : forall a b, ~ same_letters a b -> str_eqb (ascii_uppercase a) (ascii_uppercase b) = false).
  { intros a b N. destruct (str_eqb _ _) eqn:E; [|reflexivity]. apply T in E. contradiction. }
  intros [before n v after -> S N|N].
  - induction N as [|[k w] before H N IH]; cbn [app os_var os_needs_prefix windows].
    + now rewrite (proj2 (T _ _) S).
    + cbn [fst] in H. now rewrite (F _ _ H).
  - induction N as [|[k w] vars H N IH]; [reflexivity|]. cbn [os_var os_needs_prefix windows]. cbn [fst] in H. now rewrite (F _ _ H).
Qed.
Lemma home_spec p o cwd h : place_ok cwd -> win_home p o h ->
  os_cx_cargo_home windows p (into_context p o (at_place cwd)) (at_place cwd) = option_map at_place h.
Proof.
  intros [Vc Nc] H. unfold os_cx_cargo_home, into_context. cbn [cx_cargo_home0].
  destruct H as [E|h E K|h E V K|h var E V Em D [Vh Nh]|var E V Em D]; rewrite E; cbn [option_map]; try reflexivity.
  - rewrite (var_spec _ _ _ V). destruct K as [Vh Nh].
    change (at_place h) with (dir (fst h) (snd h)) in *. unfold os_cargo_home.
    assert (A : std_is_absolute windows (dir (fst h) (snd h)) = true).
    { exact (dir_absolute (fst h) (intercalate back (snd h)) Vh). }
    rewrite A. assert (X : is_empty (dir (fst h) (snd h)) = false) by (unfold dir; now destruct (fst h)). now rewrite X.
  - rewrite (var_spec _ _ _ V). unfold in_place, at_place. cbn [fst snd].
    apply (home_default (fst h) (snd h)); auto.
  - rewrite (var_spec _ _ _ V). destruct Em as [-> | ->]; cbn; now rewrite D.
Qed.

Lemma visited_spec ex cwd home ps : place_ok cwd -> (forall h, home = Some h -> place_ok h) -> win_visited ex cwd home ps ->
  os_walk windows ex (at_place cwd) (option_map at_place home) = ps.
Proof.
  intros [V N] Hh H. unfold at_place. destruct H as [|home (S & k & I & E)|home Ns]; cbn [option_map].
  - exact (win_walk_none ex (fst cwd) (snd cwd) V N).
  - rewrite (walk_home ex (fst cwd) (snd cwd) _ V N), (win_walk_none ex (fst cwd) (snd cwd) V N). unfold near.
    assert (X : existsb (fun k => std_eqb windows (dir (fst home) (snd home)) (dir (fst cwd) (k ++ [B ".cargo"]))) (above (snd cwd)) = true).
    { apply existsb_exists. exists k. split; [exact I|]. destruct (Hh home eq_refl) as [Vh Nh]. apply dir_same; auto.
      apply Forall_app. split; [now apply (above_names (snd cwd))|repeat constructor; apply cargo_name]. }
    rewrite X. now rewrite app_nil_r.
  - destruct (Hh home eq_refl) as [Vh Nh]. rewrite (home_last ex (fst cwd) (snd cwd) (fst home) (snd home)) by auto.
    now rewrite (win_walk_none ex (fst cwd) (snd cwd) V N).
Qed.
Lemma win_home_ok p o h : win_home p o h -> forall x, h = Some x -> place_ok x.
Proof.
  intros [E|x E K|x E V K|x var E V Em D [Vh Nh]|var E V Em D] y; intros H; try discriminate H; injection H as <-; try exact K.
  split; [exact Vh|]. cbn. apply Forall_app. split; [exact Nh|]. repeat constructor; apply cargo_name.
Qed.

(** ** Where values are *)
Lemma root_spec {E} cwd d r : place_ok cwd -> relative_to cwd d r ->
  @os_root windows E d (at_place cwd) = Ok (at_place r) /\ place_ok r.
Proof.
  intros K [q c f [V N] C F|n]; [|split; [reflexivity|exact K]]. split; [|now split].
  unfold at_place, in_place. cbn [fst snd os_root]. unfold os_parent_parent.
  change (snd q ++ [c; f]) with (snd q ++ [c] ++ [f]). rewrite app_assoc.
  assert (N1 : Forall win_name (snd q ++ [c])) by (apply Forall_app; split; [exact N|now constructor]).
  rewrite (dir_parent _ V (snd q ++ [c]) f) by (apply Forall_app; split; [exact N1|now constructor]).
  now rewrite (dir_parent _ V (snd q) c).
Qed.
Lemma root_opt_spec {E} cwd d r : place_ok cwd -> relative_to cwd d r ->
  @os_root_opt windows E d (Some (at_place cwd)) = Ok (Some (at_place r)).
Proof.
  intros K R. assert (H := proj1 (@root_spec E cwd d r K R)). destruct R as [q c f [V N] C F|n]; [|reflexivity].
  cbn [os_root] in H. cbn [os_root_opt]. now rewrite H.
Qed.
Lemma volume_prefix s : on_volume s -> os_prefix windows s <> None.
Proof.
  intros [(c & t & L & ->)|(v & t & V & ->)].
  - change (parse_prefix (c :: ":"%char :: t) <> None). now rewrite drive_prefix.
  - now rewrite (under_prefix v V).
Qed.
Lemma join_spec r s p : place_ok r -> from_dir r s p -> std_join windows (at_place r) s = p.
Proof.
  intros [V N] [A|Pl R|c ns Ec T|Pl R]; unfold at_place, in_place in *; cbn [fst snd] in *.
  - now apply join_prefixed, volume_prefix.
  - apply join_dir; auto. now destruct (fst r).
  - rewrite Ec in V |- *. apply join_long; [exact V|exact N|now apply text_of_names].
  - apply join_rooted; auto. now destruct (fst r).
Qed.
Lemma absolute_spec r s p : std_is_absolute windows s = true -> from_dir r s p -> p = s.
Proof.
  intros A [H|Pl R|c ns Ec T|Pl R]; [reflexivity|exfalso..].
  - destruct (relative_root s R) as [_ P]. now rewrite (not_absolute s P) in A.
  - assert (R := of_names_relative s ns (text_of_names s ns T)). destruct (relative_root s R) as [_ P]. now rewrite (not_absolute s P) in A.
  - destruct (rooted_facts s R) as (P & _). now rewrite (not_absolute s P) in A.
Qed.
Lemma path_spec {E} cwd v p : place_ok cwd -> win_path_at cwd v p -> @os_path windows E v (at_place cwd) = Ok p.
Proof.
  intros K [d r q D R F]. unfold os_path. rewrite D. destruct (@root_spec E cwd d r K R) as [Hr Kr].
  destruct (std_is_absolute windows (val v)) eqn:A; cbn [negb].
  - now rewrite (absolute_spec _ _ _ A F).
  - rewrite Hr. cbn [bind]. now rewrite (join_spec _ _ _ Kr F).
Qed.
Lemma program_spec {E} cwd v p : place_ok cwd -> win_program_at cwd v p -> @os_program_path windows E v (at_place cwd) = Ok p.
Proof.
  intros K [Ns|q Hs [d r x D R F]]; unfold os_program_path.
  - destruct (def v) as [d|]; [|reflexivity].
    assert (X : (contains slash (val v) || contains backslash (val v))%bool = false).
    { destruct (contains slash (val v) || contains backslash (val v))%bool eqn:X; [|reflexivity]. now apply has_sep in X. }
    rewrite X. now rewrite andb_false_r.
  - rewrite D. apply has_sep in Hs. rewrite Hs, andb_true_r. destruct (@root_spec E cwd d r K R) as [Hr Kr].
    destruct (std_is_absolute windows (val v)) eqn:A; cbn [negb].
    + now rewrite (absolute_spec _ _ _ A F).
    + rewrite Hr. cbn [bind]. now rewrite (join_spec _ _ _ Kr F).
Qed.
Lemma command_spec {E} cwd a p args : place_ok cwd -> win_command_at cwd (program_words a) (p, args) ->
  @os_epa_of windows E (at_place cwd) a = Ok (mkEpa p args).
Proof.
  intros K (v & ws & E1 & P & E2). unfold program_words in E1. cbn in E1, E2, P. injection E1 as <- <-. cbn [fst snd] in *. subst args.
  unfold os_epa_of. now rewrite (program_spec cwd _ p K P).
Qed.
Lemma rposition_split f s : forall i, rposition f s = Some i -> exists a c t, s = a ++ c :: t /\ length a = i /\ f c = true.
Proof.
  induction s as [|c s IH]; intros i; cbn; [discriminate|]. destruct (rposition f s) as [j|].
  - intros [= <-]. destruct (IH j eq_refl) as (a & x & t & -> & <- & F). exists (c :: a), x, t. auto.
  - destruct (f c) eqn:F; [|discriminate]. intros [= <-]. exists [], c, s. auto.
Qed.
Lemma triple_plain s : win_name s -> (forall t, s <> t ++ B ".json") -> os_is_spec_path windows s = false.
Proof.
  intros W N. unfold os_is_spec_path.
  assert (Fn : std_file_name windows s = Some s).
  { apply (named_last s [] s). exact (names_last_part s [] s (one_name_text s W)). }
  destruct W as (_ & _ & _ & N1 & N2 & _).
  assert (C1 : contains slash s = false) by (destruct (contains slash s) eqn:C; [now apply contains_in in C|reflexivity]).
  assert (C2 : contains backslash s = false) by (destruct (contains backslash s) eqn:C; [now apply contains_in in C|reflexivity]).
  rewrite C1, C2, !orb_false_r. unfold std_extension. rewrite Fn. unfold rsplit_at_dot.
  destruct (str_eqb s (B "..")); [reflexivity|]. destruct (rposition is_dot s) as [i|] eqn:R; [|reflexivity].
  destruct (rposition_split _ _ _ R) as (a & c & t & E & L & D).
  assert (D' : c = "."%char) by (now apply Ascii.eqb_eq). subst c.
  assert (S2 : skipn (S i) s = t).
  { subst i s. clear. induction a as [|x a IH]; [reflexivity|exact IH]. }
  destruct i as [|i]; [reflexivity|].
  cbn [Nat.eqb]. rewrite S2. destruct (str_eqb t (B "json")) eqn:J; [|reflexivity].
  apply str_eqb_eq in J. exfalso. apply (N a). rewrite E, J. reflexivity.
Qed.
Lemma target_spec {E} cwd v p : place_ok cwd -> win_target_at cwd v p ->
  exists t, @os_triple windows E (val v) (def v) (Some (at_place cwd)) = Ok t /\ cli_target t = p.
Proof.
  intros K [W N|ns stem q T Ns U [d r x D R F]|d r q stem D R Ev [Vq Nq] Ws Ns U]; unfold os_triple.
  - rewrite (triple_plain _ W N). eauto.
  - destruct (spec_file (val v) stem _ Ns (names_last_part (val v) ns _ T)) as [S1 S2]. rewrite S1, S2.
    unfold to_str. rewrite U. unfold os_spec_path. rewrite D, (root_opt_spec cwd d r K R). cbn [bind].
    destruct (@root_spec E cwd d r K R) as [_ Kr]. rewrite (join_spec _ _ _ Kr F). cbn [bind]. eexists. split; [reflexivity|]. reflexivity.
  - assert (Q : Forall win_name (snd q ++ [stem ++ B ".json"])) by (apply Forall_app; split; [exact Nq|now constructor]).
    assert (P := dir_parts (fst q) Vq (snd q ++ [stem ++ B ".json"]) Q). rewrite map_app in P.
    destruct (spec_file (val v) stem (Pre [] (vprefix (fst q)) :: Root :: map Name (snd q)) Ns) as [S1 S2].
    { rewrite Ev. exact P. }
    rewrite S1, S2. unfold to_str. rewrite U. unfold os_spec_path. rewrite D, (root_opt_spec cwd d r K R). cbn [bind].
    destruct (@root_spec E cwd d r K R) as [_ Kr].
    assert (J : std_join windows (at_place r) (val v) = val v).
    { apply join_prefixed, volume_prefix. right. rewrite Ev. exists (fst q). eexists. split; [exact Vq|]. reflexivity. }
    rewrite J. cbn [bind]. eexists. split; reflexivity.
Qed.

(** ** The configuration *)
Lemma bind_okk {E A A'} (m : res E A) (f : A -> res E A') a : bind m f = Ok a -> exists x, m = Ok x /\ f x = Ok a.
Proof. destruct m; cbn; try discriminate. eauto. Qed.
Lemma agrees_opt {E A A'} (R : A -> A' -> Prop) (f : A -> res E A') o o' :
  (forall v p, R v p -> f v = Ok p) -> opt_traverse f o = Ok o' -> agrees R o o'.
Proof.
  intros H. destruct o as [v|]; cbn; [|now intros [= <-]]. intros E' p Hp. rewrite (H v p Hp) in E'. cbn in E'. now injection E' as <-.
Qed.
Lemma agrees_val {A} (o : option (value A)) : agrees (fun v a => a = val v) o (option_map val o).
Proof. destruct o; cbn; [now intros ? ->|reflexivity]. Qed.
Lemma agrees_targets cwd t ts : place_ok cwd -> os_targets_of (E := error) windows (at_place cwd) t = Ok ts ->
  forall l, Forall2 (win_target_at cwd) (as_array_no_split t) l -> map cli_target ts = l.
Proof.
  intros K. unfold os_targets_of. generalize (as_array_no_split t) as vs. intros vs. revert ts.
  induction vs as [|v vs IH]; intros ts H l F; inversion_clear F; cbn in H.
  - now injection H as <-.
  - apply bind_okk in H as (x & Hx & H). apply bind_okk in H as (xs & Hxs & H). injection H as <-.
    match goal with G : win_target_at cwd v _ |- _ => destruct (@target_spec error cwd v _ K G) as (x' & Hx' & <-) end.
    assert (x' = x) by congruence. subst. cbn. f_equal. now apply IH.
Qed.
Lemma btraverse_get {E V W} (f : V -> res E W) m : forall m', btraverse f m = Ok m' -> forall n,
  match bget n m with
  | Some v => exists w, f v = Ok w /\ bget n m' = Some w
  | None => bget n m' = None
  end.
Proof.
  induction m as [|[k v] m IH]; intros m' H n; cbn in H.
  - now injection H as <-.
  - apply bind_okk in H as (w & Hw & H). apply bind_okk in H as (r & Hr & H). injection H as <-.
    specialize (IH r Hr n). cbn. destruct (str_eqb n k); [eauto|exact IH].
Qed.
Lemma fields_spec c cx cwd de ec : place_ok cwd -> cx_current_dir cx = at_place cwd ->
  os_from_unresolved windows c cx = Ok ec -> apply_env (cx_env cx) c = Ok de ->
  (forall A (k : scalar_key A), field k = true -> agrees (win_final_at cwd k) (look k de) (easy_look k ec))
  /\ (forall k, list_field k = true -> agrees (win_final_words cwd k) (look_list k de) (easy_words k ec))
  /\ agrees (win_command_at cwd) (look_program DocBrowser de) (option_map (fun x => (epa_path x, epa_args x)) (ed_browser (ec_doc ec)))
  /\ (forall n, agrees (win_env_at cwd (look (EnvVarForce n) de) (look (EnvVarRelative n) de))
                  (look (EnvVarValue n) de) (bget n (ec_env ec)))
  /\ (forall k, easy_entry k ec = has_entry k de).
Proof.
  intros K Ec H Ha. unfold os_from_unresolved in H. rewrite Ha in H. cbn [bind] in H. cbv zeta in H. rewrite Ec in H.
  apply bind_okk in H as (b & Hb & H). apply bind_okk in H as (d & Hd & H). apply bind_okk in H as (en & He & H).
  injection H as <-. cbn [ec_build ec_doc ec_env].
  unfold os_ebuild_of in Hb. cbv zeta in Hb.
  apply bind_okk in Hb as (x1 & X1 & Hb). apply bind_okk in Hb as (x2 & X2 & Hb). apply bind_okk in Hb as (x3 & X3 & Hb).
  apply bind_okk in Hb as (x4 & X4 & Hb). apply bind_okk in Hb as (x5 & X5 & Hb). apply bind_okk in Hb as (x6 & X6 & Hb).
  apply bind_okk in Hb as (x7 & X7 & Hb). injection Hb as <-.
  apply (agrees_opt (win_program_at cwd)) in X1, X2, X3, X4; try (intros v p; now apply program_spec).
  apply (agrees_opt (win_path_at cwd)) in X6, X7; try (intros v p; now apply path_spec).
  split; [|split; [|split; [|split]]].
  - intros A k Fk. destruct k; try discriminate Fk; cbn -[under bget bmapv]; try assumption; try apply agrees_val;
    unfold under; rewrite bget_bmapv; destruct (bget name (c_registries de)); cbn; auto; apply agrees_val.
  - intros k Fk. destruct k; try discriminate Fk; cbn -[under bget bmapv].
    + unfold under. rewrite bget_bmapv. destruct (bget name (c_alias de)); cbn; [now intros ? ->|reflexivity].
    + destruct (b_target (c_build de)) as [t|]; cbn in X5 |- *; [|now injection X5 as <-].
      destruct (os_targets_of windows (at_place cwd) t) as [ts| |] eqn:T; try discriminate X5. injection X5 as <-.
      destruct t; intros ws F; cbn; f_equal; exact (agrees_targets cwd _ ts K T ws F).
    + destruct (b_rustflags (c_build de)); cbn; [now intros ? ->|reflexivity].
    + destruct (b_rustdocflags (c_build de)); cbn; [now intros ? ->|reflexivity].
  - unfold os_edoc_of in Hd. apply bind_okk in Hd as (br & Hbr & Hd). injection Hd as <-. cbn.
    destruct (d_browser (c_doc de)) as [a|]; cbn in Hbr |- *; [|now injection Hbr as <-].
    intros [p args] C. rewrite (command_spec cwd a p args K C) in Hbr. cbn in Hbr. injection Hbr as <-. reflexivity.
  - intros n. assert (G := btraverse_get _ _ _ He n). cbn -[bget]. unfold under.
    destruct (bget n (c_env de)) as [e|]; cbn; [|exact G]. destruct G as (w & Hw & G). rewrite G.
    destruct e as [v|v f r]; cbn in Hw |- *.
    + injection Hw as <-. intros x (R & F & V). cbn in *. destruct x; cbn in *. now subst.
    + unfold is_true in Hw. unfold win_env_at, on. intros x (R & F & V). destruct x as [xv xf xr]. cbn in *. subst xr.
      destruct r as [[r rd]|]; cbn in *; [destruct r|]; try (injection Hw as <-; now subst).
      destruct V as [d0 r0 q D Rt Fd]. rewrite D in Hw. destruct (@root_spec error cwd d0 r0 K Rt) as [Hr Kr]. rewrite Hr in Hw.
      cbn [bind] in Hw. rewrite (join_spec _ _ _ Kr Fd) in Hw. injection Hw as <-. now subst.
  - intros k. destruct k; cbn -[bget bmapv]; rewrite ?bget_bmapv; try reflexivity.
    + now destruct (bget name (c_alias de)).
    + assert (G := btraverse_get _ _ _ He name). destruct (bget name (c_env de)); [destruct G as (w & _ & ->)|rewrite G]; reflexivity.
    + now destruct (bget name (c_registries de)).
Qed.
Lemma opt_exists {E A A'} (f : A -> res E A') o : (forall v, o = Some v -> exists p, f v = Ok p) -> exists o', opt_traverse f o = Ok o'.
Proof. intros H. destruct o as [v|]; cbn; [|eauto]. destruct (H v eq_refl) as (p & ->). cbn. eauto. Qed.
Lemma btraverse_exists {E V W} (f : V -> res E W) m : (forall k v, In (k, v) m -> exists w, f v = Ok w) -> exists m', btraverse f m = Ok m'.
Proof.
  induction m as [|[k v] m IH]; intros H; cbn; [eauto|]. destruct (H k v (or_introl eq_refl)) as (w & ->). cbn.
  destruct IH as (m' & ->); [intros k' v' I; apply (H k' v'); now right|]. cbn. eauto.
Qed.
Lemma accepts c cx cwd de : place_ok cwd -> cx_current_dir cx = at_place cwd -> apply_env (cx_env cx) c = Ok de -> tables_in_order c ->
  (forall (k : scalar_key str) v, field k = true -> look k de = Some v -> exists p, win_final_at cwd k v p) ->
  (forall ws, look_list BuildTarget de = Some ws -> exists ts, win_final_words cwd BuildTarget ws ts) ->
  (forall ws, look_program DocBrowser de = Some ws -> exists p, win_command_at cwd ws p) ->
  (forall n v, look (EnvVarValue n) de = Some v -> on (look (EnvVarRelative n) de) = true -> exists p, win_path_at cwd v p) ->
  exists ec, os_from_unresolved windows c cx = Ok ec.
Proof.
  intros K Ec Ha Ord H1 H2 H3 H4. unfold os_from_unresolved. rewrite Ha. cbn [bind]. cbv zeta. rewrite Ec.
  assert (P : forall o, (forall v, o = Some v -> exists p, win_program_at cwd v p) ->
    exists o', opt_traverse (fun v => os_program_path (E := error) windows v (at_place cwd)) o = Ok o').
  { intros o H. apply opt_exists. intros v Hv. destruct (H v Hv) as (p & Hp). exists p. now apply program_spec. }
  assert (Q : forall o, (forall v, o = Some v -> exists p, win_path_at cwd v p) ->
    exists o', opt_traverse (fun v => os_path (E := error) windows v (at_place cwd)) o = Ok o').
  { intros o H. apply opt_exists. intros v Hv. destruct (H v Hv) as (p & Hp). exists p. now apply path_spec. }
  assert (Hb : exists b, os_ebuild_of windows (at_place cwd) (c_build de) = Ok b).
  { unfold os_ebuild_of. cbv zeta.
    destruct (P (b_rustc (c_build de)) (fun v => H1 BuildRustc v eq_refl)) as (? & ->). cbn [bind].
    destruct (P (b_rustc_wrapper (c_build de)) (fun v => H1 BuildRustcWrapper v eq_refl)) as (? & ->). cbn [bind].
    destruct (P (b_rustc_workspace_wrapper (c_build de)) (fun v => H1 BuildRustcWorkspaceWrapper v eq_refl)) as (? & ->). cbn [bind].
    destruct (P (b_rustdoc (c_build de)) (fun v => H1 BuildRustdoc v eq_refl)) as (? & ->). cbn [bind].
    assert (T : exists o', opt_traverse (os_targets_of (E := error) windows (at_place cwd)) (b_target (c_build de)) = Ok o').
    { apply opt_exists. intros t Ht. cbn [look_list] in H2. rewrite Ht in H2.
      assert (G : exists ts, Forall2 (win_target_at cwd) (as_array_no_split t) ts) by (destruct t; exact (H2 _ eq_refl)).
      destruct G as (ts & G). unfold os_targets_of. induction G as [|v p vs ps Hv G IH]; cbn; [eauto|].
      destruct (@target_spec error cwd v p K Hv) as (tx & -> & _). cbn. destruct IH as (txs & ->). cbn. eauto. }
    destruct T as (? & ->). cbn [bind].
    destruct (Q (b_target_dir (c_build de)) (fun v => H1 BuildTargetDir v eq_refl)) as (? & ->). cbn [bind].
    destruct (Q (b_dep_info_basedir (c_build de)) (fun v => H1 BuildDepInfoBasedir v eq_refl)) as (? & ->). cbn [bind]. eauto. }
  destruct Hb as (b & ->). cbn [bind].
  assert (Hd : exists d, os_edoc_of windows (at_place cwd) (c_doc de) = Ok d).
  { unfold os_edoc_of. cbn [look_program] in H3. destruct (d_browser (c_doc de)) as [a|]; cbn; [|eauto].
    destruct (H3 _ eq_refl) as ([p args] & C). rewrite (command_spec cwd a p args K C). cbn. eauto. }
  destruct Hd as (d & ->). cbn [bind].
  assert (He : exists en, btraverse (os_eenv_of windows (at_place cwd)) (c_env de) = Ok en).
  { apply btraverse_exists. intros n e I.
    assert (Srt : sorted (c_env de)).
    { rewrite (proj1 (apply_env_env _ _ _ Ha)). apply tables_in_order_sorted in Ord. apply Ord. }
    apply sorted_in_bget in I; [|exact Srt]. specialize (H4 n). cbn [look] in H4. unfold under in H4. rewrite I in H4.
    destruct e as [v|v f r]; cbn in *; [eauto|]. unfold is_true. destruct r as [[r rd]|]; cbn in *; [|eauto]. destruct r; [|eauto].
    destruct (H4 v eq_refl eq_refl) as (p & Hp). destruct Hp as [d0 r0 q D Rt Fd]. rewrite D.
    rewrite (proj1 (@root_spec error cwd d0 r0 K Rt)). cbn. eauto. }
  destruct He as (en & ->). cbn [bind]. eauto.
Qed.

(** From the sources. *)
Lemma win_merged f p cwd o env l c : win_sources f p cwd o env l ->
  let cx := into_context p o (at_place cwd) in
  os_load_with_options windows f (at_place cwd) (os_cx_cargo_home windows p cx (at_place cwd)) = Ok c ->
  one_value_each (cx_env cx) /\ (forall n, env_get n env = env_get n (cx_env cx))
  /\ (forall A (k : scalar_key A), look k c = first_defined (map (scalar_in k) l))
  /\ (forall k, look_list k c = join_lists (defined (map (list_in k) l)))
  /\ (forall k, look_program k c = join_programs (defined (map (program_in k) l)))
  /\ (forall k, has_entry k c = existsb (fun x => has_entry k (snd x)) l)
  /\ tables_in_order c.
Proof.
  intros (K & En & home & ps & Hh & V & R) cx H. destruct (environment_cx p o (at_place cwd) env En) as [N G].
  split; [exact N|]. split; [exact G|]. unfold os_load_with_options in H.
  subst cx. rewrite (home_spec p o cwd home K Hh), (visited_spec _ cwd home ps K (win_home_ok p o home Hh) V) in H.
  split; [exact (load_scalar f ps c l H R)|]. split; [exact (load_list f ps c l H R)|].
  split; [exact (load_program f ps c l H R)|]. split; [exact (load_entry f ps c l H R)|].
  apply tables_in_order_sorted. exact (load_files_sorted f ps c H).
Qed.
Lemma win_applied f p cwd o env l c de : win_sources f p cwd o env l ->
  let cx := into_context p o (at_place cwd) in
  os_load_with_options windows f (at_place cwd) (os_cx_cargo_home windows p cx (at_place cwd)) = Ok c ->
  apply_env (cx_env cx) c = Ok de ->
  (forall A (k : scalar_key A), look k de = scalar_of env l k)
  /\ (forall k, look_list k de = words_of env l k)
  /\ (forall k, look_program k de = program_in_all env l k)
  /\ (forall k, has_entry k de = entry_of env l k).
Proof.
  intros S cx H Ha. destruct (win_merged f p cwd o env l c S H) as (N & G & H1 & H2 & H3 & H4 & _). fold cx in N, G.
  split; [|split; [|split]].
  - intros A k. rewrite (apply_env_scalar _ _ _ N Ha), H1. symmetry. now apply scalar_after_ext.
  - intros k. rewrite (apply_env_list _ _ _ N Ha), H2. symmetry. now apply words_after_ext.
  - intros k. rewrite (apply_env_program _ _ _ Ha), H3. symmetry. now apply program_after_ext.
  - intros k. rewrite (apply_env_entry _ _ _ N Ha), H4. symmetry. now apply entry_after_ext.
Qed.
Lemma win_values f p cwd o env l ec : win_sources f p cwd o env l -> os_easy_load windows f p (at_place cwd) o = Ok ec ->
  (forall A (k : scalar_key A), field k = true -> agrees (win_final_at cwd k) (scalar_of env l k) (easy_look k ec))
  /\ (forall k, list_field k = true -> agrees (win_final_words cwd k) (words_of env l k) (easy_words k ec))
  /\ agrees (win_command_at cwd) (program_in_all env l DocBrowser)
       (option_map (fun x => (epa_path x, epa_args x)) (ed_browser (ec_doc ec)))
  /\ (forall n, agrees (win_env_at cwd (scalar_of env l (EnvVarForce n)) (scalar_of env l (EnvVarRelative n)))
                  (scalar_of env l (EnvVarValue n)) (bget n (ec_env ec)))
  /\ (forall k, easy_entry k ec = entry_of env l k).
Proof.
  intros S H. assert (K := proj1 S). unfold os_easy_load in H. cbv zeta in H. apply bind_okk in H as (c & Hc & H).
  change (cx_current_dir (into_context p o (at_place cwd))) with (at_place cwd) in Hc.
  assert (Ha : exists de, apply_env (cx_env (into_context p o (at_place cwd))) c = Ok de).
  { unfold os_from_unresolved in H. apply bind_okk in H as (de & Ha & _). eauto. }
  destruct Ha as (de & Ha). destruct (win_applied f p cwd o env l c de S Hc Ha) as (D1 & D2 & D3 & D4).
  destruct (fields_spec c (into_context p o (at_place cwd)) cwd de ec K eq_refl H Ha) as (F1 & F2 & F3 & F4 & F5).
  split; [intros A k Fk; rewrite <- D1; now apply F1|]. split; [intros k Fk; rewrite <- D2; now apply F2|].
  split; [rewrite <- D3; exact F3|]. split; [intros n; rewrite <- !D1; apply F4|]. intros k. rewrite <- D4. apply F5.
Qed.
Lemma win_accepted f p cwd o env l : win_sources f p cwd o env l -> same_shapes (map snd l) -> variables_readable env l ->
  win_resolvable cwd env l -> exists ec, os_easy_load windows f p (at_place cwd) o = Ok ec.
Proof.
  intros S Sh (R1 & R2 & R3) (F1 & F2 & F3 & F4). assert (K := proj1 S).
  set (cx := into_context p o (at_place cwd)).
  assert (Hc : exists c, os_load_with_options windows f (at_place cwd) (os_cx_cargo_home windows p cx (at_place cwd)) = Ok c).
  { destruct S as (_ & En & home & ps & Hh & V & R). unfold os_load_with_options.
    unfold cx. rewrite (home_spec p o cwd home K Hh), (visited_spec _ cwd home ps K (win_home_ok p o home Hh) V).
    apply fine_ok. apply load_files_ok. eauto. }
  destruct Hc as (c & Hc). destruct (win_merged f p cwd o env l c S Hc) as (N & G & H1 & H2 & H3 & H4 & Ord). fold cx in N, G.
  assert (Ok1 : is_ok (apply_env (cx_env cx) c) = true).
  { apply apply_env_ok; [assumption|]. split; [|split].
    - intros A k. apply (readable_ext _ _ _ G). apply R1.
    - intros k. apply (readable_ext _ _ _ G). apply R2.
    - intros B. apply (readable_ext _ _ _ G). apply R3. rewrite H3 in B. now apply no_browser. }
  apply fine_ok in Ok1 as (de & Ha). destruct (win_applied f p cwd o env l c de S Hc Ha) as (D1 & D2 & D3 & D4).
  unfold os_easy_load. cbv zeta. fold cx. change (cx_current_dir cx) with (at_place cwd). rewrite Hc. cbn [bind].
  apply (accepts c cx cwd de K eq_refl Ha Ord).
  - intros k v Fk. rewrite D1. now apply F1.
  - intros ws. rewrite D2. apply F2.
  - intros ws. rewrite D3. apply F3.
  - intros n v. rewrite !D1. apply F4.
Qed.
Lemma win_sources_unique f p cwd o env l env' l' : win_sources f p cwd o env l -> win_sources f p cwd o env' l' ->
  l = l' /\ forall n, env_get n env = env_get n env'.
Proof.
  intros (K & En & home & ps & Hh & V & R) (_ & En' & home' & ps' & Hh' & V' & R').
  assert (Eq : ps = ps').
  { rewrite <- (visited_spec _ cwd home ps K (win_home_ok p o home Hh) V),
      <- (visited_spec _ cwd home' ps' K (win_home_ok p o home' Hh') V'),
      <- (home_spec p o cwd home K Hh), <- (home_spec p o cwd home' K Hh'). reflexivity. }
  subst ps'. split; [now apply (reads_unique f ps)|]. intros n.
  now rewrite (proj2 (environment_cx p o (at_place cwd) env En)), (proj2 (environment_cx p o (at_place cwd) env' En')).
Qed.
Lemma win_required f p cwd o env l ec : win_sources f p cwd o env l -> os_easy_load windows f p (at_place cwd) o = Ok ec ->
  same_shapes (map snd l) /\ variables_readable env l.
Proof.
  intros S H. unfold os_easy_load in H. cbv zeta in H. apply bind_okk in H as (c & Hc & H).
  change (cx_current_dir (into_context p o (at_place cwd))) with (at_place cwd) in Hc.
  destruct (win_merged f p cwd o env l c S Hc) as (N & G & H1 & H2 & H3 & H4 & Ord). split.
  - destruct S as (K & En & home & ps & Hh & V & R). unfold os_load_with_options in Hc.
    rewrite (home_spec p o cwd home K Hh), (visited_spec _ cwd home ps K (win_home_ok p o home Hh) V) in Hc.
    assert (T : is_ok (load_files f ps) = true) by (now rewrite Hc). apply load_files_ok in T as (l' & R' & Sh).
    now rewrite (reads_unique f ps l l' R R').
  - unfold os_from_unresolved in H. apply bind_okk in H as (de & Ha & _).
    assert (T : is_ok (apply_env (cx_env (into_context p o (at_place cwd))) c) = true) by (now rewrite Ha).
    apply apply_env_ok in T; [|assumption]. destruct T as (T1 & T2 & T3). split; [|split].
    + intros A k. apply (readable_ext _ _ _ (fun n => eq_sym (G n))). apply T1.
    + intros k. apply (readable_ext _ _ _ (fun n => eq_sym (G n))). apply T2.
    + intros B. apply (readable_ext _ _ _ (fun n => eq_sym (G n))). apply T3. rewrite H3. now apply no_browser.
Qed.
Lemma win_sources_ex f p cwd o home ps : place_ok cwd -> (forall e, o_env o = Some e -> one_value_each e) -> win_home p o home ->
  win_visited (fs_exists f) cwd home ps -> is_ok (load_files f ps) = true -> exists env l, win_sources f p cwd o env l.
Proof.
  intros K En Hh V H. apply load_files_ok in H as (l & R & _). exists (cx_env (into_context p o (at_place cwd))), l.
  split; [assumption|]. split; [now apply environment_ex|]. eauto 10.
Qed.
