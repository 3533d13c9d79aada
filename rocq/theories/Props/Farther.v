(** C70: what one more file can change.

    Throughout, the second run has the same variables and the same files, with the same
    contents, and in addition the files [far], farther away than all others.  Everything else
    (options, process, file system) may differ. *)
From Verif.Model Require Import Base Str Path BMap Error Value De EasyTypes Triple Serde Load Context Process Resolve Easy.
From Verif.Spec Require Import StrSpec PathSpec ConfigSpec LoadSpec EnvSpec RootSpec QuerySpec TargetSpec FinalSpec.
From Verif.Proof Require Import StrFacts Utf8Proof BMapFacts LoadProof EnvTextProof EnvVarsProof FinalProof RootProof LocalProof FartherProof.
From Verif.Props Require Import Final Local.

Section Farther.
Context (f f' : fs) (p p' : process_env) (cwd : str) (o o' : options) (env : env_map) (l far : files) (c c' : econfig).
Let runs : Prop := two_runs f f' p p' cwd o o' env env l (l ++ far) c c'.

(** A value stays. *)
Theorem C70_value A (k : scalar_key A) x : runs -> easy_look k c = Some x -> easy_look k c' = Some x.
Proof.
  intros (S & S' & H & H') E. destruct (field k) eqn:K; [|destruct k; discriminate].
  assert (V := C53_values _ _ _ _ _ _ _ S H A k K). assert (V' := C53_values _ _ _ _ _ _ _ S' H' A k K).
  rewrite E in V. destruct (scalar_of env l k) as [v|] eqn:Q; [|contradiction]. cbn in V.
  rewrite (scalar_before env l far k v Q) in V'. destruct (easy_look k c') as [y|]; [|contradiction]. cbn in V'.
  f_equal. now apply (final_unique cwd k v).
Qed.
(** A list keeps its words as the last ones. *)
Theorem C70_list k ws : runs -> easy_words k c = Some ws -> exists more, easy_words k c' = Some (more ++ ws).
Proof.
  intros (S & S' & H & H') E. destruct (list_field k) eqn:K; [|destruct k; discriminate].
  assert (V := C53_lists _ _ _ _ _ _ _ S H k K). assert (V' := C53_lists _ _ _ _ _ _ _ S' H' k K).
  rewrite E in V. destruct (words_of env l k) as [w|] eqn:Q; [|contradiction]. cbn [both] in V.
  destruct (words_before env l far k w Q) as [more Q']. rewrite Q' in V'.
  destruct (easy_words k c') as [ws'|]; [|contradiction]. cbn [both] in V'. unfold final_words in *.
  destruct k; cbn [snd fst] in *; try (exists (map val more); f_equal; rewrite V', V; apply map_app).
  apply Forall2_app_inv_l in V' as (a & b & Ha & Hb & ->). exists a. f_equal. f_equal.
  now apply (forall2_unique (target_at cwd) (target_at_unique cwd) (snd w)).
Qed.
(** A browser in the files keeps its path and its arguments as the first ones. *)
Theorem C70_browser e : runs -> Exists (fun x => look_program DocBrowser (snd x) <> None) l ->
  ed_browser (ec_doc c) = Some e -> exists more, ed_browser (ec_doc c') = Some (mkEpa (epa_path e) (epa_args e ++ more)).
Proof.
  intros (S & S' & H & H') X E.
  assert (V := C53_browser _ _ _ _ _ _ _ S H). assert (V' := C53_browser _ _ _ _ _ _ _ S' H').
  rewrite E in V. cbn [option_map] in V.
  assert (J := said_program DocBrowser l X).
  destruct J as [w J]. destruct (programs_before _ (defined (map (program_in DocBrowser) far)) w J) as [more J'].
  unfold program_in_all in V, V'. rewrite map_app, defined_app, J' in V'. rewrite J in V. cbn [program_after] in V, V'.
  destruct (ed_browser (ec_doc c')) as [e'|]; [|contradiction]. cbn [both option_map] in V, V'.
  destruct V as (v & a & Ew & P & Q), V' as (v' & a' & Ew' & P' & Q'). cbn [fst snd] in *.
  rewrite Ew in Ew'. cbn [app] in Ew'. injection Ew' as <- <-. exists (map val more). f_equal.
  destruct e, e'. cbn in *. f_equal; [now apply (program_at_unique cwd v)|]. rewrite Q', Q. now rewrite map_app.
Qed.
(** Entries of tables stay. *)
Theorem C70_entry k : runs -> easy_entry k c = true -> easy_entry k c' = true.
Proof.
  intros (S & S' & H & H'). rewrite (C53_entries _ _ _ _ _ _ _ S H k), (C53_entries _ _ _ _ _ _ _ S' H' k).
  unfold entry_of. rewrite existsb_app. destruct (existsb _ l), (existsb _ far); cbn [orb]; auto.
  destruct k; cbn; auto; discriminate.
Qed.
(** An entry of [env] stays, with its value and the parts that the files tell. *)
Theorem C70_env n e : runs -> bget n (ec_env c) = Some e ->
  exists e', bget n (ec_env c') = Some e' /\ (ee_force e = true -> ee_force e' = true)
    /\ (Exists (fun x => look (EnvVarForce n) (snd x) <> None) l -> ee_force e' = ee_force e)
    /\ (Exists (fun x => look (EnvVarRelative n) (snd x) <> None) l -> ee_value e' = ee_value e)
    /\ (Forall (fun x => look (EnvVarRelative n) (snd x) = None) far -> ee_value e' = ee_value e).
Proof.
  intros (S & S' & H & H') E.
  assert (V := C53_env _ _ _ _ _ _ _ n S H). assert (V' := C53_env _ _ _ _ _ _ _ n S' H').
  rewrite E in V. destruct (first_defined (map (scalar_in (EnvVarValue n)) l)) as [v|] eqn:Q; [|contradiction].
  rewrite (map_app (scalar_in (EnvVarValue n)) l far), (first_before _ _ v Q) in V'.
  destruct (bget n (ec_env c')) as [e'|]; [|contradiction]. exists e'. split; [reflexivity|]. cbn [both] in V, V'.
  destruct V as (A1 & A2 & A3), V' as (B1 & B2 & B3).
  assert (Said : forall A (k : scalar_key A), Exists (fun x => look k (snd x) <> None) l ->
    first_defined (map (scalar_in k) (l ++ far)) = first_defined (map (scalar_in k) l)).
  { intros A k X. destruct (said k l X) as [u F]. now rewrite map_app, (first_before _ _ u F), F. }
  assert (Ev : forall r, first_defined (map (scalar_in (EnvVarRelative n)) (l ++ far)) = r ->
    first_defined (map (scalar_in (EnvVarRelative n)) l) = r -> ee_value e' = ee_value e).
  { intros r R1 R2. rewrite R1 in B3. rewrite R2 in A3. destruct (on r); [now apply (path_at_unique cwd v)|congruence]. }
  split; [|split; [|split]].
  - rewrite A2, B2, map_app, first_defined_app. destruct (first_defined (map (scalar_in (EnvVarForce n)) l)); [auto|discriminate].
  - intros X. now rewrite A2, B2, (Said _ _ X).
  - intros X. apply (Ev _ eq_refl). now rewrite (Said _ _ X).
  - intros X. apply (Ev _ eq_refl). rewrite map_app, first_defined_app.
    destruct (first_defined (map (scalar_in (EnvVarRelative n)) l)); [reflexivity|].
    symmetry. now apply unsaid.
Qed.
(** The linker of a target stays if a variable or the table of that target tells it, and so
    does the program of the runner. *)
Theorem C70_linker pr w a t s s1 s' s1' x x' : runs -> Forall (fun y => text_keys (c_target (snd y))) (l ++ far) ->
  reached pr w c s -> reached pr w c' s' -> real_arg a -> to_triple a = Ok t ->
  env_get (target_variable (tt_triple t) (B "LINKER")) env <> None
  \/ Exists (fun y => look (TargetLinker (tt_triple t)) (snd y) <> None) l ->
  run_query pr w c (QLinker a) s = (Ok x, s1) -> run_query pr w c' (QLinker a) s' = (Ok x', s1') -> x' = x.
Proof.
  intros (S & S' & H & H') Tk Rs Rs' Ra Ht X Q Q'.
  destruct (C53_tables _ _ _ _ _ _ _ S H) as [m M], (C53_tables _ _ _ _ _ _ _ S' H') as [m' M'].
  destruct (C53_target f p cwd o env l c pr w (QLinker a) a t s x s1 S H (proj1 (proj1 (Forall_app _ _ _) Tk)) Rs (or_intror (or_introl eq_refl)) Ra Ht Q m M)
    as (mt & e & _ & (L & _) & ->).
  destruct (C53_target f' p' cwd o' env (l ++ far) c' pr w (QLinker a) a t s' x' s1' S' H' Tk Rs' (or_intror (or_introl eq_refl)) Ra Ht Q' m' M')
    as (mt' & e' & _ & (L' & _) & ->).
  cbn [part_of]. f_equal.
  assert (K : exists v, target_linker env m mt (tt_triple t) = Some v /\ target_linker env m' mt' (tt_triple t) = Some v).
  { unfold target_linker. cbn [app first_defined].
    destruct (var env (tt_triple t) (B "LINKER")) as [v|] eqn:Ev; [now exists v|].
    destruct X as [X|X].
    { exfalso. apply X. unfold var in Ev. destruct (env_get _ env); [discriminate Ev|reflexivity]. }
    assert (O : own m (tt_triple t) t_linker = first_defined (map (scalar_in (TargetLinker (tt_triple t))) l))
      by apply (proj1 (proj2 (proj2 M))).
    assert (O' : own m' (tt_triple t) t_linker = first_defined (map (scalar_in (TargetLinker (tt_triple t))) (l ++ far)))
      by apply (proj1 (proj2 (proj2 M'))).
    destruct (said _ l X) as [v F]. rewrite map_app, (first_before _ _ v F) in O'. exists v. rewrite O, O', F. auto. }
  destruct K as (v & K & K'). rewrite K in L. rewrite K' in L'.
  destruct (et_linker e) as [q|], (et_linker e') as [q'|]; try contradiction. f_equal. now apply (program_at_unique cwd v).
Qed.
Theorem C70_runner pr w a t s s1 s' s1' e x' : runs -> Forall (fun y => text_keys (c_target (snd y))) (l ++ far) ->
  reached pr w c s -> reached pr w c' s' -> real_arg a -> to_triple a = Ok t ->
  env_get (target_variable (tt_triple t) (B "RUNNER")) env <> None
  \/ Exists (fun y => look_program (TargetRunner (tt_triple t)) (snd y) <> None) l ->
  run_query pr w c (QRunner a) s = (Ok (APa (Some e)), s1) -> run_query pr w c' (QRunner a) s' = (Ok x', s1') ->
  exists more, x' = APa (Some (mkEpa (epa_path e) (epa_args e ++ more))).
Proof.
  intros (S & S' & H & H') Tk Rs Rs' Ra Ht X Q Q'.
  destruct (C53_tables _ _ _ _ _ _ _ S H) as [m M], (C53_tables _ _ _ _ _ _ _ S' H') as [m' M'].
  destruct (C53_target f p cwd o env l c pr w (QRunner a) a t s _ s1 S H (proj1 (proj1 (Forall_app _ _ _) Tk)) Rs
              (or_intror (or_intror (or_introl eq_refl))) Ra Ht Q m M) as (mt & g & _ & (_ & L & _) & Eg).
  destruct (C53_target f' p' cwd o' env (l ++ far) c' pr w (QRunner a) a t s' x' s1' S' H' Tk Rs'
              (or_intror (or_intror (or_introl eq_refl))) Ra Ht Q' m' M') as (mt' & g' & _ & (_ & L' & _) & ->).
  cbn [part_of] in *. injection Eg as Eg. rewrite <- Eg in L.
  assert (K : exists u more, target_runner env m mt (tt_triple t) = Some u
                /\ target_runner env m' mt' (tt_triple t) = Some (fst u, snd u ++ more)).
  { unfold target_runner. cbn [app first_defined].
    destruct (var_words env (tt_triple t) (B "RUNNER")) as [u|] eqn:Ev.
    { exists u, []. rewrite app_nil_r. now destruct u. }
    destruct X as [X|X].
    { exfalso. apply X. unfold var_words in Ev. destruct (env_get _ env); [discriminate Ev|reflexivity]. }
    assert (O : own m (tt_triple t) runner_words = join_programs (defined (map (program_in (TargetRunner (tt_triple t))) l)))
      by apply (proj1 (proj2 (proj2 (proj2 M)))).
    assert (O' : own m' (tt_triple t) runner_words
                 = join_programs (defined (map (program_in (TargetRunner (tt_triple t))) (l ++ far))))
      by apply (proj1 (proj2 (proj2 (proj2 M')))).
    destruct (said_program _ l X) as [u F].
    destruct (programs_before _ (defined (map (program_in (TargetRunner (tt_triple t))) far)) u F) as [more F'].
    rewrite map_app, defined_app, F' in O'. exists u, more. rewrite O, O', F. auto. }
  destruct K as (u & more & K & K'). rewrite K in L. rewrite K' in L'. cbn [both option_map] in L.
  destruct (et_runner g') as [e'|]; [|contradiction]. cbn [both option_map] in L'.
  destruct L as (v & b & Ew & P & R), L' as (v' & b' & Ew' & P' & R'). cbn [fst snd] in *.
  rewrite Ew in Ew'. cbn [app] in Ew'. injection Ew' as <- <-. exists (map val more). f_equal. f_equal.
  destruct e, e'. cbn in *. f_equal; [now apply (program_at_unique cwd v)|]. rewrite R', R. now rewrite map_app.
Qed.
End Farther.
Print Assumptions C70_value.
Print Assumptions C70_list.
Print Assumptions C70_browser.
Print Assumptions C70_entry.
Print Assumptions C70_env.
Print Assumptions C70_linker.
Print Assumptions C70_runner.

(** ** Closer files *)
(** With files [near] closer than all others: what is not said there stays. *)
Theorem C70_closer_value f f' p p' cwd o o' env near l c c' A (k : scalar_key A) :
  two_runs f f' p p' cwd o o' env env l (near ++ l) c c' -> field k = true ->
  easy_look k c' <> easy_look k c -> Exists (fun x => look k (snd x) <> None) near.
Proof.
  intros (S & S' & H & H') K N.
  destruct (Exists_dec (fun x => look k (snd x) <> None) near) as [X|X]; [|exact X|].
  { intros x. destruct (look k (snd x)); [left; discriminate|right; auto]. }
  exfalso. apply N. symmetry. apply (value_final f f' p p' cwd o o' env env l (near ++ l) c c' S S' H H' k K).
  unfold scalar_of. f_equal. rewrite map_app, first_defined_app, (unsaid k near); [reflexivity|].
  apply Forall_Exists_neg in X. revert X. apply Forall_impl. intros x. destruct (look k (snd x)); [|reflexivity].
  intros X. exfalso. now apply X.
Qed.
Print Assumptions C70_closer_value.
(** A list of arrays keeps its words as the first ones. *)
Theorem C70_closer_list f f' p p' cwd o o' env near l c c' k ws :
  two_runs f f' p p' cwd o o' env env l (near ++ l) c c' ->
  Forall (fun x => forall w, look_list k (snd x) = Some w -> fst w = AsArray) (near ++ l) ->
  easy_words k c = Some ws -> exists more, easy_words k c' = Some (ws ++ more).
Proof.
  intros (S & S' & H & H') X E. destruct (list_field k) eqn:K; [|destruct k; discriminate].
  assert (V := C53_lists _ _ _ _ _ _ _ S H k K). assert (V' := C53_lists _ _ _ _ _ _ _ S' H' k K).
  rewrite E in V. destruct (words_of env l k) as [w|] eqn:Q; [|contradiction]. cbn [both] in V.
  assert (Q' : exists more, words_of env (near ++ l) k = Some (fst w, snd w ++ more)).
  { revert Q. unfold words_of, words_after.
    assert (Ar : forall y, Forall (fun x => forall w, look_list k (snd x) = Some w -> fst w = AsArray) y ->
      forall x, In x (defined (map (list_in k) y)) -> fst x = AsArray).
    { intros y Y x I. apply defined_in, in_map_iff in I as (z & Ez & I). rewrite Forall_forall in Y.
      unfold list_in in Ez. destruct (look_list k (snd z)) as [u|] eqn:Lu; [|discriminate Ez].
      injection Ez as <-. cbn. exact (Y z I u Lu). }
    apply Forall_app in X as [X1 X2].
    assert (J := fun w => lists_after (defined (map (list_in k) near)) (defined (map (list_in k) l)) w (Ar _ X1) (Ar _ X2)).
    rewrite map_app, defined_app.
    destruct (consulted (list_variables k) env) as [[n [[fm u]|]]|]; [|apply J|apply J].
    intros [= <-]. exists []. cbn. now rewrite app_nil_r. }
  destruct Q' as [more Q']. rewrite Q' in V'.
  destruct (easy_words k c') as [ws'|]; [|contradiction]. cbn [both] in V'. unfold final_words in *.
  destruct k; cbn [snd fst] in *; try (exists (map val more); f_equal; rewrite V', V; apply map_app).
  apply Forall2_app_inv_l in V' as (a & b & Ha & Hb & ->). exists b. f_equal. f_equal.
  now apply (forall2_unique (target_at cwd) (target_at_unique cwd) (snd w)).
Qed.
Print Assumptions C70_closer_list.

(** ** Examples: the files of C53, without and with the one in CARGO_HOME *)
Definition no_home : options := mkOptions None None None (Some None) None.
Definition c70_l : files := map (c61_read c53_fs) [B "/p/a/.cargo/config.toml"; B "/p/.cargo/config"].
Definition c70_far : files := map (c61_read c53_fs) [B "/h/c/config"].
Ltac c70_sources paths :=
  split; [intros n v; apply env_filter_get|]; eexists; exists paths;
  split; [now apply home_option|];
  split; [apply visited_walk; vm_compute; reflexivity|]; split; [reflexivity|];
  repeat (constructor; [eexists; split; [reflexivity|vm_compute; reflexivity]|]); constructor.
Definition c70_load := easy_load_with_options c53_fs c53_process (B "/p/a") no_home.
Example C70_ex_runs : exists c c',
  two_runs c53_fs c53_fs c53_process c53_process (B "/p/a") no_home options_default c61_env c61_env c70_l (c70_l ++ c70_far) c c'
  /\ c70_load = Ok c /\ c53_load = Ok c'.
Proof.
  destruct c70_load as [c| |] eqn:E; [|vm_compute in E; discriminate..].
  destruct c53_load as [c'| |] eqn:E'; [|vm_compute in E'; discriminate..].
  exists c, c'. split; [|auto]. split; [|split; [|split; [exact E|exact E']]].
  - c70_sources [B "/p/a/.cargo/config.toml"; B "/p/.cargo/config"].
  - exact c61_sources.
Qed.
Example C70_ex : match c70_load, c53_load with
  | Ok c, Ok c' =>
      easy_look BuildJobs c = Some 4%Z /\ easy_look BuildJobs c' = Some 4%Z
      /\ easy_words BuildRustflags c = Some [B "-m"; B "-n"] /\ easy_words BuildRustflags c' = Some [B "-f"; B "-m"; B "-n"]
      /\ easy_entry (TargetEntry (B "cfg(unix)")) c = true /\ bget (B "V") (ec_env c) = Some (mkEenv (B "/p/x") false false)
  | _, _ => False
  end
  /\ Exists (fun x => look (EnvVarRelative (B "V")) (snd x) <> None) c70_l
  /\ Forall (fun y => text_keys (c_target (snd y))) (c70_l ++ c70_far)
  /\ Forall (fun x => forall w, look_list BuildRustflags (snd x) = Some w -> fst w = AsArray) (c70_l ++ c70_far).
Proof.
  split; [vm_compute; repeat split|].
  split; [right; left; vm_compute; discriminate|].
  split.
  { repeat (apply Forall_cons; [intros k v I; apply utf8_valid_iff; vm_compute in I; repeat (destruct I as [I|I]; [injection I as <- _; reflexivity|]); destruct I|]).
    apply Forall_nil. }
  repeat (apply Forall_cons; [intros w E; vm_compute in E; (discriminate E || (injection E as <-; reflexivity))|]). apply Forall_nil.
Qed.

(** ** What does not hold *)
Definition c70_fs (docs : list (str * toml)) : fs :=
  mkFsys (fun p => existsb (fun d => str_eqb p (fst d)) docs)
         (fun p => match find (fun d => str_eqb p (fst d)) docs with Some d => ReadTree (snd d) | None => ReadErr KNotFound end).
Definition c70_one (near : toml) : fs := c70_fs [(B "/p/.cargo/config.toml", near)].
Definition c70_two (near far : toml) : fs := c70_fs [(B "/p/.cargo/config.toml", near); (B "/.cargo/config.toml", far)].
Definition c70_process : process_env := mkProcess [(B "BROWSER", B "ff")] None.
Definition c70_env : env_map := env_filter (p_vars c70_process).
Definition c70_near_l (near : toml) : files := map (c61_read (c70_one near)) [B "/p/.cargo/config.toml"].
Definition c70_far_l (near far : toml) : files := map (c61_read (c70_two near far)) [B "/.cargo/config.toml"].
Definition c70_runs (near far : toml) (c c' : econfig) : Prop :=
  two_runs (c70_one near) (c70_two near far) c70_process c70_process (B "/p") no_home no_home c70_env c70_env
    (c70_near_l near) (c70_near_l near ++ c70_far_l near far) c c'.
Ltac c70_go near far c c' E E' :=
  destruct (easy_load_with_options (c70_one near) c70_process (B "/p") no_home) as [c| |] eqn:E; [|vm_compute in E; discriminate..];
  destruct (easy_load_with_options (c70_two near far) c70_process (B "/p") no_home) as [c'| |] eqn:E';
    [|vm_compute in E'; discriminate..];
  exists near, far, c, c'; split;
  [split; [c70_sources [B "/p/.cargo/config.toml"]|split; [c70_sources [B "/p/.cargo/config.toml"; B "/.cargo/config.toml"]|split; [exact E|exact E']]]|];
  vm_compute in E, E'; injection E as <-; injection E' as <-.
(** The value of an [env] entry stays: no, a farther file may make it relative, ... *)
Theorem C70_env_refuted : exists near far c c', c70_runs near far c c'
  /\ bget (B "V") (ec_env c) = Some (mkEenv (B "x") false false)
  /\ bget (B "V") (ec_env c') = Some (mkEenv (B "/p/x") false false).
Proof.
  set (near := c53_tab [("env", c53_tab [("V", c53_tab [("value", TomlStr (B "x"))])])]%string).
  set (far := c53_tab [("env", c53_tab [("V", c53_tab [("value", TomlStr (B "y")); ("relative", TomlBool true)])])]%string).
  c70_go near far c c' E E'. split; reflexivity.
Qed.
Print Assumptions C70_env_refuted.
(** ... the linker of a target stays: no, if it comes from a [cfg(..)] table, ... *)
Theorem C70_cfg_linker_refuted : exists near far c c', c70_runs near far c c'
  /\ fst (run_query release c53_world c (QLinker (ArgText (B "t1"))) (state_init (ec_cx c))) = Ok (APath (Some (B "ld1")))
  /\ fst (run_query release c53_world c' (QLinker (ArgText (B "t1"))) (state_init (ec_cx c'))) = Ok (APath (Some (B "ld2"))).
Proof.
  set (near := c53_tab [("target", c53_tab [("cfg(unix)", c53_tab [("linker", TomlStr (B "ld1"))])])]%string).
  set (far := c53_tab [("target", c53_tab [("t1", c53_tab [("linker", TomlStr (B "ld2"))])])]%string).
  c70_go near far c c' E E'. split; vm_compute; reflexivity.
Qed.
Print Assumptions C70_cfg_linker_refuted.
(** ... the flags of a target only get more: no, those of [build] are dropped, ... *)
Theorem C70_build_flags_refuted : exists near far c c', c70_runs near far c c'
  /\ fst (run_query release c53_world c (QRustflags (ArgText (B "t1"))) (state_init (ec_cx c))) = Ok (AFlags (Some (mkEflags [B "-n"])))
  /\ fst (run_query release c53_world c' (QRustflags (ArgText (B "t1"))) (state_init (ec_cx c'))) = Ok (AFlags (Some (mkEflags [B "-f"]))).
Proof.
  set (near := c53_tab [("build", c53_tab [("rustflags", c53_arr ["-n"]%string)])]%string).
  set (far := c53_tab [("target", c53_tab [("t1", c53_tab [("rustflags", c53_arr ["-f"]%string)])])]%string).
  c70_go near far c c' E E'. split; vm_compute; reflexivity.
Qed.
Print Assumptions C70_build_flags_refuted.
(** ... the browser stays: no, if it comes from the variable BROWSER. *)
Theorem C70_browser_refuted : exists near far c c', c70_runs near far c c'
  /\ ed_browser (ec_doc c) = Some (mkEpa (B "ff") []) /\ ed_browser (ec_doc c') = Some (mkEpa (B "w3m") []).
Proof.
  set (near := c53_tab []). set (far := c53_tab [("doc", c53_tab [("browser", TomlStr (B "w3m"))])]%string).
  c70_go near far c c' E E'. split; reflexivity.
Qed.
Print Assumptions C70_browser_refuted.

(** ** An example for [C70_linker] and [C70_runner] *)
Example C70_ex_target : exists near far c c', c70_runs near far c c'
  /\ Forall (fun y => text_keys (c_target (snd y))) (c70_near_l near ++ c70_far_l near far)
  /\ reached release c53_world c (state_init (ec_cx c)) /\ reached release c53_world c' (state_init (ec_cx c'))
  /\ real_arg (ArgText (B "t1")) /\ exists t, to_triple (ArgText (B "t1")) = Ok t
  /\ Exists (fun y => look (TargetLinker (tt_triple t)) (snd y) <> None) (c70_near_l near)
  /\ Exists (fun y => look_program (TargetRunner (tt_triple t)) (snd y) <> None) (c70_near_l near)
  /\ fst (run_query release c53_world c (QLinker (ArgText (B "t1"))) (state_init (ec_cx c))) = Ok (APath (Some (B "ld1")))
  /\ fst (run_query release c53_world c' (QLinker (ArgText (B "t1"))) (state_init (ec_cx c'))) = Ok (APath (Some (B "ld1")))
  /\ fst (run_query release c53_world c (QRunner (ArgText (B "t1"))) (state_init (ec_cx c))) = Ok (APa (Some (mkEpa (B "q") [B "-a"])))
  /\ fst (run_query release c53_world c' (QRunner (ArgText (B "t1"))) (state_init (ec_cx c')))
     = Ok (APa (Some (mkEpa (B "q") [B "-a"; B "r"; B "-b"]))).
Proof.
  set (near := c53_tab [("target", c53_tab [("t1", c53_tab [("linker", TomlStr (B "ld1")); ("runner", c53_arr ["q"; "-a"]%string)])])]%string).
  set (far := c53_tab [("target", c53_tab [("t1", c53_tab [("linker", TomlStr (B "ld2")); ("runner", c53_arr ["r"; "-b"]%string)])])]%string).
  c70_go near far c c' E E'.
  split.
  { repeat (apply Forall_cons; [intros k v I; apply utf8_valid_iff; vm_compute in I; repeat (destruct I as [I|I]; [injection I as <- _; reflexivity|]); destruct I|]).
    apply Forall_nil. }
  split; [exists []; split; [constructor|reflexivity]|]. split; [exists []; split; [constructor|reflexivity]|]. split; [exact I|]. eexists. split; [vm_compute; reflexivity|].
  split; [left; vm_compute; discriminate|]. split; [left; vm_compute; discriminate|].
  repeat split; vm_compute; reflexivity.
Qed.
