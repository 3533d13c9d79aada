(** C54: writing the resolved configuration. *)
From Verif.Model Require Import Base Str Path BMap Error Value De Serde Triple EasyTypes Load Context
  Process Resolve Easy EasySerde.
From Verif.Spec Require Import StrSpec Utf8Spec ConfigSpec EnvSpec LoadSpec RootSpec SerdeSpec TargetSpec
  FinalSpec EasySerdeSpec.
From Verif.Proof Require Import BMapFacts Utf8Proof LossyProof FinalProof EasySerdeProof.

(** [eser_config c targets]: the configuration [c] is written after [targets] were asked about. *)

(** It can be written exactly if the paths are text. *)
Theorem C54_written_iff c targets :
  (exists t, eser_config c targets = Some t) <-> paths_are_text c targets.
Proof.
  rewrite w_config, <- writes_iff. unfold when_ok. destruct (writes c targets); split; try easy; eauto.
  intros (t & [=]).
Qed.
Print Assumptions C54_written_iff.

(** What is written is a configuration file that says the same: every value with its key, paths
    resolved, tokens included, and the targets that were asked about. *)
Theorem C54_read_back c targets t :
  well_formed c -> fits c -> told_apart targets -> eser_config c targets = Some t ->
  exists c', de_config t = Some c' /\ plain c' /\ says_settings c c' /\ says_targets targets c'.
Proof.
  intros W F T E. rewrite w_config in E. unfold when_ok in E. destruct (writes c targets); [|discriminate].
  injection E as <-. exists (back c targets). split; [now apply read_back|]. split; [now split|].
  split; [apply back_settings|now apply back_targets].
Qed.
Print Assumptions C54_read_back.

(** Everything that is loaded can be read back, ... *)
Theorem C54_loaded f p cwd o c :
  (forall e, o_env o = Some e -> one_value_each e) -> easy_load_with_options f p cwd o = Ok c ->
  well_formed c /\ fits c.
Proof. intros N H. split; [exact (load_well_formed f p cwd o c H)|exact (load_fits f p cwd o c N H)]. Qed.
Print Assumptions C54_loaded.
(** ... and the names of targets are different, if they are text. *)
Theorem C54_names pr w c s :
  reached pr w c s -> (forall t e, In (t, e) (s_target s) -> utf8 t) -> told_apart (s_target s).
Proof.
  intros R U a t e b u e' d n E Ht Hu.
  assert (Ut : utf8 t) by (apply (U t e); rewrite E, in_app_iff; right; now left).
  assert (Uu : utf8 u).
  { apply (U u e'). rewrite E, in_app_iff. right. right. rewrite in_app_iff. right. now left. }
  apply utf8_valid_iff, lossy_valid in Ut, Uu. apply lossy_iff in Ht, Hu.
  assert (t = u) by congruence. subst u.
  pose proof (proj1 (in_order_sorted _) (reached_in_order pr w c s R)) as S. rewrite E in S.
  clear -S. induction a as [|x a IH]; [|apply IH; now inversion S].
  inversion S as [|x m S' F]; subst. rewrite Forall_forall in F.
  specialize (F (t, e')). unfold lt_key in F. cbn in F. rewrite StrFacts.str_cmp_refl in F.
  discriminate F. apply in_app_iff. right. now left.
Qed.
Print Assumptions C54_names.

(** A target is written with the settings that were answered. *)
Theorem C54_asked pr w c q a t s x s' :
  target_query q a -> to_triple a = Ok t -> run_query pr w c q s = (Ok x, s') ->
  exists e, bget (cli_target t) (s_target s') = Some e /\ x = part_of q e.
Proof. exact (asked_shown pr w c q a t s x s'). Qed.
Print Assumptions C54_asked.
(** Until a target is asked about, no target is written, whatever the files say. *)
Theorem C54_not_asked c t : eser_config c (s_target (state_init (ec_cx c))) = Some t -> at_path [B "target"] t = None.
Proof.
  change (s_target (state_init (ec_cx c))) with (@nil (str * etarget)). rewrite w_config. unfold when_ok.
  destruct (writes c []); [|discriminate]. intros [= <-]. unfold ser_config. cbn [at_path].
  assert (K : forall A k (s : A -> bool) f a r, str_eqb (B "target") k = false ->
            entry (B "target") (sskip k s f a ++ r) = entry (B "target") r).
  { intros A k s f a r N. unfold sskip. destruct (s a); [reflexivity|]. unfold entry. cbn -[B]. now rewrite N. }
  rewrite !K by reflexivity. cbn [u_config c_target u_targets map sskip bis_empty app].
  rewrite <- (app_nil_r (sskip _ _ _ _)), K; reflexivity.
Qed.
Print Assumptions C54_not_asked.

(** Nothing is written only if nothing is configured. *)
Theorem C54_empty c targets :
  eser_config c targets = Some (TomlTab []) <-> blank_settings c /\ targets = [].
Proof. exact (empty_written c targets). Qed.
Print Assumptions C54_empty.

(** The variables, the directory, the tables of targets in the files and where values are from
    do not matter. *)
Theorem C54_only_settings a b targets :
  well_formed a -> well_formed b -> same_shown a b -> eser_config a targets = eser_config b targets.
Proof. exact (shown_same a b targets). Qed.
Print Assumptions C54_only_settings.

(** ** An example *)
Definition c54_tab (l : list (string * toml)) : toml := TomlTab (map (fun x => (B (fst x), snd x)) l).
Definition c54_file : toml := c54_tab [
  ("build", c54_tab [("jobs", TomlInt (-1)); ("rustc", TomlStr (B "bin/rc"));
                     ("rustflags", TomlStr (B "-a  -b")); ("target", TomlStr (B "x/my.json"))]);
  ("env", c54_tab [("V", c54_tab [("value", TomlStr (B "x")); ("relative", TomlBool true)]);
                   ("W", c54_tab [("value", TomlStr (B "w")); ("force", TomlBool true)])]);
  ("registry", c54_tab [("token", TomlStr (B "secret"))]);
  ("target", c54_tab [("t1", c54_tab [("linker", TomlStr (B "ld"))]);
                      ("t2", c54_tab [("runner", TomlStr (B "./run -x"))])])]%string.
Definition c54_load (dir : str) : result econfig :=
  easy_load_with_options
    (mkFsys (fun p => str_eqb p (dir ++ B "/.cargo/config"))
            (fun p => if str_eqb p (dir ++ B "/.cargo/config") then ReadTree c54_file else ReadErr KNotFound))
    (mkProcess [] None) dir options_default.
Definition c54_world : world := mkWorld (fun _ _ => false) (fun _ _ => NotStarted KNotFound).
(** Written after asking about [t2]. *)
Definition c54_text (dir : str) : option toml :=
  match c54_load dir with
  | Ok c => eser_config c (s_target (run_queries release c54_world c [QRunner (ArgText (B "t2"))] (state_init (ec_cx c))))
  | _ => None
  end.
Example C54_ex :
  c54_text (B "/p") = Some (c54_tab
    [("build", c54_tab [("jobs", TomlInt (-1)); ("rustc", TomlStr (B "/p/bin/rc"));
                        ("target", TomlArr [TomlStr (B "/p/x/my.json")]);
                        ("rustflags", TomlArr [TomlStr (B "-a"); TomlStr (B "-b")])]);
     ("env", c54_tab [("V", TomlStr (B "/p/x"));
                      ("W", c54_tab [("value", TomlStr (B "w")); ("force", TomlBool true)])]);
     ("registry", c54_tab [("token", TomlStr (B "secret"))]);
     ("target", c54_tab [("t2", c54_tab [("runner", TomlArr [TomlStr (B "/p/./run"); TomlStr (B "-x")]);
                                         ("rustflags", TomlArr [TomlStr (B "-a"); TomlStr (B "-b")])])])])%string.
Proof. vm_compute. reflexivity. Qed.
Example C54_ex_hypotheses : exists c s t,
  c54_load (B "/p") = Ok c /\ reached release c54_world c s /\ well_formed c /\ fits c
  /\ told_apart (s_target s) /\ eser_config c (s_target s) = Some t.
Proof.
  destruct (c54_load (B "/p")) as [c| |] eqn:E; [|vm_compute in E; discriminate..].
  set (qs := [QRunner (ArgText (B "t2"))]).
  exists c, (run_queries release c54_world c qs (state_init (ec_cx c))).
  assert (R : reached release c54_world c (run_queries release c54_world c qs (state_init (ec_cx c)))).
  { exists qs. split; [repeat constructor|reflexivity]. }
  destruct (C54_loaded _ _ _ options_default c (fun e (H : None = Some e) => ltac:(discriminate H)) E) as (W & F).
  pose proof C54_ex as X. unfold c54_text in X. rewrite E in X. eexists.
  split; [reflexivity|]. split; [exact R|]. split; [exact W|]. split; [exact F|]. split; [|exact X].
  apply (C54_names release c54_world c _ R). intros t e Hin. apply utf8_valid_iff.
  vm_compute in E. injection E as <-. vm_compute in Hin. destruct Hin as [[= <- _]|[]]. reflexivity.
Qed.
(** A directory that is not text. *)
Example C54_ex_not_text : c54_text (bytes [47; 255]%N) = None.
Proof. vm_compute. reflexivity. Qed.

(** Names that are not text: two targets may be written under one name. *)
Theorem C54_always_told_apart_refuted : exists pr w c s, reached pr w c s /\ ~ told_apart (s_target s).
Proof.
  destruct (c54_load (B "/p")) as [c| |] eqn:E; [|vm_compute in E; discriminate..].
  set (at_dir d := mkTriple (B "x") (Some (bytes [47; d; 47]%N ++ B "x.json"))).
  set (qs := [QTarget (ArgTriple (at_dir 255%N)); QTarget (ArgTriple (at_dir 254%N))]).
  exists release, c54_world, c, (run_queries release c54_world c qs (state_init (ec_cx c))).
  split.
  { exists qs. split; [|reflexivity]. repeat constructor; cbn.
    - exists (B "x.json"), (Some (DefPath (bytes [47; 255]%N ++ B "/.cargo/config"))), None. vm_compute. reflexivity.
    - exists (B "x.json"), (Some (DefPath (bytes [47; 254]%N ++ B "/.cargo/config"))), None. vm_compute. reflexivity. }
  vm_compute in E. injection E as <-. intros T.
  match type of T with told_apart ?x => set (m := x) in T end.
  destruct m as [|[t e] [|[u e'] d]] eqn:Em; subst m; [vm_compute in Em; discriminate..|].
  apply (T [] t e [] u e' d (B "/" ++ replacement_character ++ B "/x.json")); [reflexivity| |]; apply lossy_iff; vm_compute in Em;
    injection Em as <- _ <- _ _; reflexivity.
Qed.
Print Assumptions C54_always_told_apart_refuted.
