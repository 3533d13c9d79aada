(** Lemmas about the settings of targets on Windows. *)
From Verif.Model Require Import Base Str Path StdPath OsPaths BMap Error Value De CfgExpr Triple EasyTypes
  Context ApplyEnv Process Walk Load Resolve Easy OsLoad.
From Verif.Spec Require Import StrSpec ConfigSpec LoadSpec EnvSpec CfgSpec TargetSpec FinalSpec WinSpec WinLoadSpec
  OsTargetSpec WinTargetSpec.
From Verif.Proof Require Import StrFacts Utf8Proof BMapFacts LoadProof EnvProof EnvVarsProof EnvTextProof MergeProof StateProof TargetProof
  TargetEnvProof FinalProof StdPathProof StdParentProof WinPrefixProof WinDirProof WinUseProof WinLoadProof OsTargetProof.

(** ** Triples *)
Lemma mixed_parts v l s ns : volume_ok v -> px_verbatim (vprefix v) = false -> Forall win_name l -> of_names s ns ->
  map bare (parts windows (dir v l ++ (match l with [] => [] | _ => [back] end) ++ s)) = Pre [] (vprefix v) :: Root :: map Name (l ++ ns).
Proof.
  intros V Vb N (r & -> & Er & Hn & Nn & Sr).
  assert (T : exists w q, dir v l ++ (match l with [] => [] | _ => [back] end) ++ body (first_of ns) r = volume_text v ++ back :: body w q
    /\ w :: map snd q = l ++ ns /\ seps win_sep q).
  { unfold dir. rewrite <- app_assoc. cbn [app]. destruct ns as [|n ns]; [easy|]. unfold first_of. cbn [hd tl] in *. destruct l as [|w l].
    - exists n, r. cbn. rewrite Er. auto.
    - exists w, (rest_of (w :: l) ++ (back, n) :: r). rewrite intercalate_body. split.
      + f_equal. f_equal. unfold body, first_of. cbn [hd]. unfold tail. rewrite flat_map_app. cbn [flat_map fst snd]. now rewrite <- !app_assoc.
      + rewrite map_app. unfold rest_of. cbn [map tl snd]. rewrite map_map. cbn [snd]. rewrite map_id, Er. split; [reflexivity|].
        inversion_clear N as [|? ? W N']. inversion_clear Nn as [|? ? W1 N1]. apply Forall_app. split.
        * apply Forall_forall. intros t I. apply in_map_iff in I as (x & <- & I). split; [reflexivity|]. apply name_nosep.
          now apply (proj1 (Forall_forall _ _) N').
        * constructor; [|exact Sr]. split; [reflexivity|]. now apply name_nosep. }
  destruct T as (w & q & -> & E & Sq).
  assert (Nall : Forall win_name (w :: map snd q)) by (rewrite E; apply Forall_app; auto).
  rewrite (parts_of windows windows_steady _ (ByRoot back) w q).
  - unfold pre_parts. change (cs_prefix (comps_of windows (volume_text v ++ back :: body w q))) with (os_prefix windows (volume_text v ++ back :: body w q)).
    rewrite (under_prefix v V). cbn [app start_parts]. do 2 f_equal. rewrite (vverb v V), <- E. clear - Nall.
    induction Nall as [|x l' X N' IH]; [reflexivity|]. unfold singles in *. cbn [flat_map map]. now rewrite (name_sing _ x X), IH.
  - now rewrite (under_pre_text v V).
  - split; [now apply under_root|reflexivity].
  - exact I.
  - rewrite (vsep v V), Vb. apply name_nosep. now inversion_clear Nall.
  - now rewrite (vsep v V), Vb.
Qed.
Lemma plain_verbatim v : plain_volume v -> px_verbatim (vprefix v) = false.
Proof. now destruct v. Qed.
(** A target of the configuration can be asked for as it is. *)
Lemma target_own cwd v p t : place_ok cwd -> win_target_at cwd v p ->
  os_triple (E := error) windows (val v) (def v) (Some (at_place cwd)) = Ok t -> os_triple (E := error) windows p None None = Ok t.
Proof.
  intros K H Ht. assert (H' := H). destruct (@target_spec error cwd v p K H) as (t' & Ht' & Ep).
  assert (t' = t) as -> by congruence. clear Ht'. revert Ht.
  destruct H as [W N|ns stem q T Ns U [d r x D R F]|d r q stem D R Ev [Vq Nq] Ws Ns U]; unfold os_triple.
  - now rewrite (triple_plain _ W N).
  - destruct (spec_file (val v) stem _ Ns (names_last_part (val v) ns _ T)) as [S1 S2]. rewrite S1, S2.
    unfold to_str. rewrite U. unfold os_spec_path. rewrite D, (root_opt_spec cwd d r K R). cbn [bind].
    destruct (@root_spec error cwd d r K R) as [_ Kr]. rewrite (join_spec _ _ _ Kr F). cbn [bind]. intros [= <-].
    assert (P : exists k, map bare (parts windows x) = k ++ [Name (stem ++ B ".json")]).
    { assert (O := text_of_names _ _ T). destruct Kr as [Vr Nr]. destruct F as [V|Pv Rl|c ns' Lc T'|Pv Rt].
      - eexists. exact (names_last_part (val v) ns _ T).
      - unfold at_place. rewrite (mixed_parts _ _ _ _ Vr (plain_verbatim _ Pv) Nr O). rewrite app_assoc, map_app. cbn [map].
        rewrite 2 app_comm_cons. eauto.
      - assert (Eq : ns' = ns ++ [stem ++ B ".json"]).
        { assert (Q := of_names_parts _ _ O). assert (Q' := of_names_parts _ _ (text_of_names _ _ T')). rewrite Q in Q'. apply map_name_inj. auto. }
        subst ns'. unfold at_place, in_place. cbn [fst snd].
        assert (Nn : Forall win_name (snd r ++ ns ++ [stem ++ B ".json"])) by (apply Forall_app; split; [exact Nr|now destruct O as (_ & _ & _ & _ & Nn & _)]).
        rewrite (dir_parts _ Vr _ Nn), app_assoc, map_app. cbn [map]. rewrite 2 app_comm_cons. eauto.
      - exfalso. destruct Rt as (k & t & Eq & Sk & _). destruct (of_names_relative _ _ O) as (_ & Q & _). exact (Q k t Eq Sk). }
    destruct P as (k & P). destruct (spec_file x stem k Ns P) as [P1 P2]. rewrite P1, P2, U. reflexivity.
  - assert (Q : Forall win_name (snd q ++ [stem ++ B ".json"])) by (apply Forall_app; split; [exact Nq|now constructor]).
    assert (P := dir_parts (fst q) Vq (snd q ++ [stem ++ B ".json"]) Q). rewrite map_app in P.
    destruct (spec_file (val v) stem (Pre [] (vprefix (fst q)) :: Root :: map Name (snd q)) Ns) as [S1 S2].
    { rewrite Ev. exact P. }
    rewrite S1, S2. unfold to_str. rewrite U. cbn [os_spec_path bind]. unfold os_spec_path. rewrite D, (root_opt_spec cwd d r K R). cbn [bind].
    destruct (@root_spec error cwd d r K R) as [_ Kr].
    assert (J : std_join windows (at_place r) (val v) = val v).
    { apply join_prefixed, volume_prefix. right. rewrite Ev. exists (fst q). eexists. split; [exact Vq|]. reflexivity. }
    rewrite J. cbn [bind]. auto.
Qed.

(** ** The settings *)
Lemma os_unresolved_ok os c cx ec : os_from_unresolved os c cx = Ok ec -> exists de, apply_env (cx_env cx) c = Ok de
  /\ ec_cx ec = cx /\ ec_de_target ec = c_target de
  /\ eb_override_target_rustflags (ec_build ec) = b_override_target_rustflags (c_build de)
  /\ eb_override_target_rustdocflags (ec_build ec) = b_override_target_rustdocflags (c_build de)
  /\ eb_de_rustflags (ec_build ec) = b_rustflags (c_build de) /\ eb_de_rustdocflags (ec_build ec) = b_rustdocflags (c_build de).
Proof.
  unfold os_from_unresolved. intros H. apply bind_okk in H as (de & Ha & H). cbv zeta in H. exists de. split; [exact Ha|].
  apply bind_okk in H as (b & Hb & H). apply bind_okk in H as (d & _ & H). apply bind_okk in H as (en & _ & H).
  assert (E : forall x y : econfig, Ok (E := error) x = Ok y -> y = x) by (intros ? ? [= ->]; reflexivity).
  apply E in H. subst ec. cbn [ec_cx ec_de_target ec_build]. split; [reflexivity|]. split; [reflexivity|].
  unfold os_ebuild_of in Hb. cbv zeta in Hb.
  do 7 (apply bind_okk in Hb as (? & _ & Hb)).
  assert (Eb : forall u v : ebuild, Ok (E := error) u = Ok v -> v = u) by (intros ? ? [= ->]; reflexivity).
  apply Eb in Hb. subst b. cbn [eb_override_target_rustflags eb_override_target_rustdocflags eb_de_rustflags eb_de_rustdocflags]. auto.
Qed.
Lemma win_programs cwd t e : place_ok cwd -> os_etarget_of windows (at_place cwd) t = Ok e ->
  agrees (win_program_at cwd) (t_linker t) (et_linker e)
  /\ agrees (win_command_at cwd) (option_map program_words (t_runner t)) (option_map (fun p => (epa_path p, epa_args p)) (et_runner e))
  /\ et_rustflags e = option_map eflags_of (t_rustflags t)
  /\ et_rustdocflags e = option_map eflags_of (t_rustdocflags t).
Proof.
  intros K H. unfold os_etarget_of in H. apply bind_okk in H as (li & H1 & H). apply bind_okk in H as (ru & H2 & H). injection H as <-.
  cbn [et_linker et_runner et_rustflags et_rustdocflags]. split; [|split; [|auto]].
  - revert H1. apply agrees_opt. intros v p. now apply program_spec.
  - destruct (t_runner t) as [a|]; cbn in *.
    + apply bind_okk in H2 as (x & H2 & H). injection H as <-. intros [p args] C. rewrite (command_spec cwd a p args K C) in H2.
      now injection H2 as <-.
    + now injection H2 as <-.
Qed.
Lemma win_tables f p cwd o env l ec : win_sources f p cwd o env l -> os_easy_load windows f p (at_place cwd) o = Ok ec ->
  tables_of l (ec_de_target ec).
Proof.
  intros S H. unfold os_easy_load in H. cbv zeta in H. apply bind_okk in H as (c & Hc & H).
  change (cx_current_dir (into_context p o (at_place cwd))) with (at_place cwd) in Hc.
  destruct (win_merged f p cwd o env l c S Hc) as (N & G & H1 & H2 & H3 & H4 & Ord).
  destruct (os_unresolved_ok windows c _ ec H) as (de & Ha & _ & Et & _).
  rewrite Et, (proj2 (proj2 (apply_env_env _ _ _ Ha))).
  split; [apply Ord|]. split; [intros t; apply (H4 (TargetEntry t))|].
  split; [intros t; apply (H1 _ (TargetLinker t))|].
  split; [intros t; apply (H3 (TargetRunner t))|].
  split; [intros t; apply (H2 (TargetRustflags t))|intros t; apply (H2 (TargetRustdocflags t))].
Qed.
Lemma win_keys l : Forall (fun x => text_keys (c_target (snd x))) l -> forall tables, tables_of l tables -> keys_utf8 tables.
Proof.
  intros U tables (Ord & H4 & _) k v I. specialize (H4 k).
  rewrite (sorted_in_bget _ _ _ (proj1 (in_order_sorted _) Ord) I) in H4. cbn in H4. symmetry in H4. apply existsb_exists in H4 as ((q0 & c0) & Ix & Hx).
  cbn in Hx. destruct (bget k (c_target c0)) as [v0|] eqn:Kb; [|discriminate]. apply bget_in in Kb.
  rewrite Forall_forall in U. apply utf8_valid_iff. exact (U _ Ix _ _ Kb).
Qed.
Lemma win_settings_ext env env' l m cwd matches t e : (forall n, env_get n env = env_get n env') ->
  win_settings_of env l m cwd matches t e -> win_settings_of env' l m cwd matches t e.
Proof.
  intros H. unfold win_settings_of, target_linker, target_runner, target_rustflags, target_rustdocflags,
    overrides_target, set, words_of.
  rewrite (var_ext _ _ _ _ H), !(var_words_ext _ _ _ _ H), !(words_after_ext _ _ _ _ H), !H. auto.
Qed.
Lemma win_target_final f p cwd o env l ec pr w q a t s x s' :
  win_sources f p cwd o env l -> os_easy_load windows f p (at_place cwd) o = Ok ec ->
  Forall (fun x => text_keys (c_target (snd x))) l ->
  os_reached windows (B ".exe") pr w ec s -> target_query q a -> os_real_arg windows a -> os_to_triple windows a = Ok t ->
  os_run_query windows (B ".exe") pr w ec q s = (Ok x, s') ->
  forall tables, tables_of l tables ->
  exists matches e, decided_by w s' (cli_target t) tables matches
    /\ win_settings_of env l tables cwd matches (tt_triple t) e /\ x = part_of q e.
Proof.
  intros S H U Rs Q Ra Ht Hq tables Tb. assert (K := proj1 S).
  assert (Tb' := win_tables _ _ _ _ _ _ _ S H).
  unfold os_easy_load in H. cbv zeta in H. apply bind_okk in H as (c & Hc & H).
  change (cx_current_dir (into_context p o (at_place cwd))) with (at_place cwd) in Hc.
  destruct (win_merged f p cwd o env l c S Hc) as (N & G & H1 & H2 & H3 & H4 & Ord).
  set (cx := into_context p o (at_place cwd)) in *.
  destruct (os_unresolved_ok windows c cx ec H) as (de & Ha & Ecx & Et & B1 & B2 & B3 & B4).
  assert (Eq : c_target c = tables).
  { rewrite <- (proj2 (proj2 (apply_env_env _ _ _ Ha))), <- Et. now apply tables_unique with l. }
  assert (Ed : ec_de_target ec = tables) by (rewrite Et, (proj2 (proj2 (apply_env_env _ _ _ Ha))); exact Eq).
  assert (Ku := win_keys l U tables Tb).
  destruct (target_answer windows (B ".exe") _ _ _ _ _ _ _ _ _ Rs Q Ra Ht Hq) as (e & s1 & s2 & r & -> & He & Hr & Hx & Gr & P).
  rewrite Ecx, Ed in Hr. rewrite Ecx in Hx. change (cx_current_dir cx) with (at_place cwd) in Hx.
  apply resolve_target_ok in Hr. cbv zeta in Hr. destruct Hr as (C & V & D & L1 & L2 & L3 & L4).
  exists (matched_in pr t s2), e. split; [now apply decided_decided_by|]. split.
  - apply (win_settings_ext (cx_env cx)); [intros n; symmetry; apply G|].
    destruct (win_programs cwd r e K Hx) as (X1 & X2 & X3 & X4). rewrite L1 in X1. rewrite L2 in X2.
    split; [exact X1|]. split; [exact X2|].
    assert (W : forall k, words_of (cx_env cx) l k = look_list k de).
    { intros k. now rewrite (apply_env_list _ _ _ N Ha), H2. }
    rewrite !W, X3, X4, !opt_eflags, L3, L4, B1, B2, B3, B4.
    assert (O := apply_env_overrides _ _ _ Ha). unfold overrides in O. injection O as O1 O2. rewrite O1, O2. split; reflexivity.
  - destruct Q as [-> | [-> | [-> | [-> | -> ]]]]; reflexivity.
Qed.

(** ** Success *)
Lemma win_cfg_there pr w c t s : win_cfg_available pr w c s (cli_target t) ->
  exists x s1, os_target_cfg windows (B ".exe") w (ec_cx c) (ec_build c) t s = (Ok x, s1).
Proof.
  intros [(x & H)|(rustc & s1 & out & H & O)].
  - exists x, s. unfold os_target_cfg. rewrite bindM_eq. cbn [get]. now rewrite H.
  - unfold os_target_cfg. rewrite bindM_eq. cbn [get].
    destruct (cfg_get (cli_target t) (s_cfg s)) as [x|]; [unfold ret; eauto|].
    cbn [os_run_query] in H. unfold mapM in H. apply bindM_ok in H as (r & s2 & H & E). injection E as -> ->.
    rewrite bindM_eq, H, bindM_eq. unfold run_read at 1.
    change (cfg_command rustc t) with (cfg_question rustc (cli_target t)). rewrite O. eexists; eexists; reflexivity.
Qed.
Lemma win_programs_there cwd t : place_ok cwd ->
  (forall v, t_linker t = Some v -> exists p, win_program_at cwd v p) ->
  (forall ws, option_map program_words (t_runner t) = Some ws -> exists p, win_command_at cwd ws p) ->
  exists e, os_etarget_of windows (at_place cwd) t = Ok e.
Proof.
  intros K H1 H2. unfold os_etarget_of.
  assert (X1 : exists li, opt_traverse (fun v => os_program_path (E := error) windows v (at_place cwd)) (t_linker t) = Ok li).
  { destruct (t_linker t) as [v|]; cbn; [|eauto]. destruct (H1 v eq_refl) as (p & P). rewrite (program_spec cwd v p K P). cbn. eauto. }
  assert (X2 : exists ru, opt_traverse (os_epa_of (E := error) windows (at_place cwd)) (t_runner t) = Ok ru).
  { destruct (t_runner t) as [a|]; cbn; [|eauto]. destruct (H2 _ eq_refl) as ((p & args) & P). rewrite (command_spec cwd a p args K P). cbn. eauto. }
  destruct X1 as (li & ->). cbn [bind]. destruct X2 as (ru & ->). cbn [bind]. eauto.
Qed.
Lemma win_target_success f p cwd o env l ec pr w q a t s :
  win_sources f p cwd o env l -> os_easy_load windows f p (at_place cwd) o = Ok ec ->
  Forall (fun x => text_keys (c_target (snd x))) l ->
  os_reached windows (B ".exe") pr w ec s -> target_query q a -> os_real_arg windows a -> os_to_triple windows a = Ok t ->
  is_cfg (tt_triple t) = false -> target_vars_readable env (tt_triple t) ->
  forall tables, tables_of l tables ->
  (forall k v, In (k, v) tables -> is_cfg k = true -> is_ok (parse_expr pr k) = true) ->
  (has_cfg tables -> win_cfg_available pr w ec s (cli_target t)) ->
  win_target_resolvable cwd env tables (tt_triple t) ->
  exists x s', os_run_query windows (B ".exe") pr w ec q s = (Ok x, s').
Proof.
  intros S H U Rs Q Ra Ht C V tables Tb Pk Av Rv. assert (K := proj1 S).
  assert (Tb' := win_tables _ _ _ _ _ _ _ S H).
  unfold os_easy_load in H. cbv zeta in H. apply bind_okk in H as (c & Hc & H).
  change (cx_current_dir (into_context p o (at_place cwd))) with (at_place cwd) in Hc.
  destruct (win_merged f p cwd o env l c S Hc) as (N & G & H1 & H2 & H3 & H4 & Ord).
  set (cx := into_context p o (at_place cwd)) in *.
  destruct (os_unresolved_ok windows c cx ec H) as (de & Ha & Ecx & Et & B1 & B2 & B3 & B4).
  assert (Eq : c_target c = tables).
  { rewrite <- (proj2 (proj2 (apply_env_env _ _ _ Ha))), <- Et. now apply tables_unique with l. }
  assert (Ed : ec_de_target ec = tables) by (rewrite Et, (proj2 (proj2 (apply_env_env _ _ _ Ha))); exact Eq).
  assert (Ku := win_keys l U tables Tb).
  rewrite (target_query_run windows (B ".exe") pr w ec q a s Q). unfold os_q_target. rewrite bindM_assoc, bindM_eq.
  unfold lift at 1. rewrite Ht. unfold os_q_target_of. rewrite !bindM_eq. unfold os_init_target_config. rewrite bindM_eq.
  cbn [get]. destruct (bget (cli_target t) (s_target s)) as [x|] eqn:E.
  - unfold ret at 1. rewrite bindM_eq. cbn [get]. rewrite E. do 2 eexists. reflexivity.
  - rewrite bindM_eq, Ed, Ecx.
    assert (V' : target_vars_readable (cx_env cx) (tt_triple t)) by (destruct V as [V1 V2]; split; intros *; rewrite <- G; eauto).
    destruct (resolve_target_success windows (B ".exe") pr w cx (ec_build ec) t tables s Ku C V' Pk) as (r & s2 & R).
    { intros Hcf. rewrite <- Ecx. now apply (win_cfg_there pr), Av. }
    rewrite R. rewrite bindM_eq. unfold lift at 1.
    apply resolve_target_ok in R. cbv zeta in R. destruct R as (_ & _ & _ & L1 & L2 & _).
    destruct (win_programs_there cwd r K) as (e & Ee).
    + intros v Hv. rewrite L1 in Hv. refine (proj1 (Rv (matched_in pr t s2)) v _). refine (eq_trans _ Hv). unfold target_linker.
      now rewrite (var_ext _ _ _ _ G).
    + intros ws Hv. rewrite L2 in Hv. refine (proj2 (Rv (matched_in pr t s2)) ws _). refine (eq_trans _ Hv). unfold target_runner.
      now rewrite (var_words_ext _ _ _ _ G).
    + change (cx_current_dir cx) with (at_place cwd). rewrite Ee. cbn. rewrite bget_binsert, str_eqb_refl. do 2 eexists. reflexivity.
Qed.

(** ** The compiler *)
Lemma pop_name n : win_name n -> std_pop windows n = [].
Proof.
  intros W. assert (R := name_relative n W). assert (P := plain_no_prefix n R).
  assert (Cp : cs_prefix (comps_of windows n) = None) by exact P.
  assert (Pt : pre_text windows n = []) by (unfold pre_text, prefix_len; now rewrite Cp).
  assert (Cs : cs_sep windows (comps_of windows n) = win_sep) by (unfold cs_sep, prefix_verbatim; now rewrite Cp).
  assert (Ns := name_nosep n W). unfold nosep in Ns. rewrite Forall_forall in Ns.
  destruct (dissect windows windows_sane n) as (st & w & r & E & So & Bo & Nw & Sr & St). unfold std_pop.
  rewrite (parent_closed windows windows_sane n st w r E So Nw Sr St). rewrite Pt in *. cbn [app] in E.
  destruct r as [|[k x] r].
  2:{ exfalso. inversion_clear Sr as [|? ? [Sk _] _]. rewrite Cs in Sk. cbn [fst] in Sk. assert (Nk : win_sep k = false).
      { apply Ns. rewrite E. unfold body, tail. apply in_or_app. right. apply in_or_app. right. now left. }
      now rewrite Sk in Nk. }
  unfold body, tail in E. cbn [flat_map] in E. rewrite app_nil_r in E. destruct st as [k| | |]; cbn [start_text app] in *.
  - exfalso. destruct So as [_ So]. assert (Nk : win_sep k = false) by (apply Ns; rewrite E; now left).
    cbn in So. now rewrite So in Nk.
  - destruct So as (_ & y & So & _). now rewrite Cp in So.
  - cbn in Bo. subst w. exfalso. now apply (proj1 (proj2 W)).
  - subst w. unfold up. cbn. unfold idle. rewrite (name_sing _ n W). reflexivity.
Qed.
Lemma compiler_is w ec n :
  (eb_rustc (ec_build ec) = None -> win_name (cx_cargo (ec_cx ec))
     \/ exists d x, cx_cargo (ec_cx ec) = at_place (in_place d [x]) /\ place_ok d /\ win_name x) ->
  compiler (ec_build ec) (cx_cargo (ec_cx ec)) (w_exists w n) (os_compiler windows (B ".exe") w ec n).
Proof.
  intros H. unfold os_compiler. destruct (eb_rustc (ec_build ec)) as [r|] eqn:E; [now constructor|].
  destruct (H eq_refl) as [W|((v & l) & x & C & (V & N) & W)].
  - unfold os_rustc_path. rewrite (pop_name _ W). change (std_join windows [] (B "rustc" ++ B ".exe")) with (B "rustc.exe").
    destruct (w_exists w n (B "rustc.exe")) eqn:T; [now apply compiler_here|now apply compiler_bare].
  - rewrite C. unfold at_place, in_place in *. cbn [fst snd] in *. rewrite rustc_beside; [|exact V|apply Forall_app; auto].
    destruct (w_exists w n (dir v (l ++ [B "rustc.exe"]))) eqn:T.
    + now apply (compiler_beside _ _ _ (v, l) x).
    + now apply (compiler_name _ _ _ (v, l) x).
Qed.
Lemma win_rustc f p cwd o env l ec pr w s :
  win_sources f p cwd o env l -> os_easy_load windows f p (at_place cwd) o = Ok ec ->
  os_reached windows (B ".exe") pr w ec s ->
  forall cargo, win_cargo o env cargo -> 
  win_name cargo \/ (exists d x, cargo = at_place (in_place d [x]) /\ place_ok d /\ win_name x) ->
  exists r s', os_run_query windows (B ".exe") pr w ec QRustc s = (Ok (AProgram r), s')
  /\ (o_rustc o = Some r \/ exists n c, n <= s_clock s' /\ compiler (ec_build ec) cargo (w_exists w n) c /\ with_wrappers (ec_build ec) c r).
Proof.
  intros S H Rs cargo Hc Sh. destruct (rustc_answer windows (B ".exe") pr w ec s Rs) as (r & s' & Q & Kn & Er).
  exists r, s'. split; [exact Q|].
  unfold os_easy_load in H. cbv zeta in H. apply bind_okk in H as (c & Hl & H).
  change (cx_current_dir (into_context p o (at_place cwd))) with (at_place cwd) in Hl.
  destruct (win_merged f p cwd o env l c S Hl) as (_ & G & _).
  destruct (os_unresolved_ok windows c _ ec H) as (de & _ & Ecx & _).
  assert (Ec : cx_cargo (ec_cx ec) = cargo).
  { rewrite Ecx. cbn [into_context cx_cargo]. cbv zeta. destruct Hc as [x E|x E1 E2|E1 E2].
    - now rewrite E.
    - rewrite E1. rewrite G in E2. cbn [into_context cx_env] in E2. now rewrite E2.
    - rewrite E1. rewrite G in E2. cbn [into_context cx_env] in E2. now rewrite E2. }
  destruct (Kn r Er) as [I|(n & L & E)].
  - left. rewrite Ecx in I. exact I.
  - right. exists n, (os_compiler windows (B ".exe") w ec n). split; [exact L|]. split.
    + rewrite <- Ec. apply compiler_is. intros _. rewrite Ec. exact Sh.
    + subst r. unfold with_wrappers, opt_list.
      destruct (eb_rustc_wrapper (ec_build ec)), (eb_rustc_workspace_wrapper (ec_build ec)); reflexivity.
Qed.
