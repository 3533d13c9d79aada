(** Queries and the programs behind them: C34, C35, C36, C37, C38, C39. *)
From Verif.Model Require Import Base Str Path BMap Error Value De CfgExpr Triple EasyTypes Context
  ApplyEnv Process Resolve Easy.
From Verif.Spec Require Import StrSpec PathSpec ConfigSpec EnvSpec Utf8Spec TripleSpec RootSpec TargetSpec QuerySpec.
From Verif.Proof Require Import Utf8Proof RootProof StateProof TargetProof VersionProof QueryProof.

(** ** Examples of programs *)
Definition ex_lines (l : list string) : str := flat_map (fun s => B s ++ [nl]) l.
Definition ex_says (out : str) : outcome := Exited true (B "exit status: 0") out [].
Definition ex_cargo_vv : str :=
  ex_lines ["cargo 1.75.0"; "release: 1.75.0"; "host: x86_64-unknown-linux-gnu"]%string.
Definition ex_rustc_vv : str :=
  ex_lines ["rustc 1.76.0-nightly"; "binary: rustc"; "release: 1.76.0-nightly"; "host: aarch64-apple-darwin"]%string.
Definition ex_tools (cargo rustc : outcome) : world :=
  mkWorld (fun _ p => str_eqb p (B "/bin/rustc"))
    (fun _ c => if str_eqb (cmd_program c) (B "/bin/cargo") then cargo
                else if str_eqb (last (cmd_args c) []) (B "-vV") then rustc
                else ex_says (B "unix")).
Definition ex_context : context := mkContext [] (B "/bin/cargo") (B "/cwd") None None None.
Definition ex_build : build_config :=
  mkBuild None None (Some (mkValue (B "/wrap") None)) (Some (mkValue (B "/wswrap") None)) None None None None None None None false false.
Definition ex_config : config :=
  mkConfig [] ex_build (c_doc config_default) [] (c_future_incompat_report config_default) (c_cargo_new config_default)
    (c_http config_default) (c_net config_default) [] (c_registry config_default)
    [(B "cfg(unix)", mkTarget (Some (mkValue (B "ld") None)) None None None)] (c_term config_default).
Definition ex_after (pr : profile) (w : world) (qs : list query) (q : query) : option (result answer) :=
  match from_unresolved ex_config ex_context with
  | Ok c => Some (fst (run_query pr w c q (run_queries pr w c qs (state_init (ec_cx c)))))
  | _ => None
  end.

(** ** C34 *)
(** In a world that does not change, a query about a target has the answer it has on a new
    configuration, whatever was asked before. *)
Theorem C34_transparent pr w c s q a :
  steady w -> reached pr w c s -> target_query q a -> real_arg a ->
  fst (run_query pr w c q s) = fst (run_query pr w c q (state_init (ec_cx c))).
Proof.
  intros St Rs Q Ra. apply (target_query_value pr w c St q a); auto; [now apply reached_full|].
  apply reached_full. exists []. now split.
Qed.
Print Assumptions C34_transparent.
(** The same for all queries, but for the assertion of C36. *)
Theorem C34_all_queries pr w c s q :
  steady w -> reached pr w c s -> real_query q ->
  fst (run_query pr w c q s) = fst (run_query pr w c q (state_init (ec_cx c)))
  \/ (debug_assertions pr = true /\ fst (run_query pr w c q s) = Panic PDebugAssert).
Proof. intros St Rs Rq. apply (query_as_new pr w c St q s); [assumption|]. now apply reached_full. Qed.
Print Assumptions C34_all_queries.
(** A failure leaves nothing behind ... *)
Theorem C34_failed_not_cached pr w c q a s r s' :
  target_query q a -> run_query pr w c q s = (r, s') -> is_ok r = false -> s_target s' = s_target s.
Proof. exact (target_failed pr w c q a s r s'). Qed.
Print Assumptions C34_failed_not_cached.
(** ... and a success is remembered, whatever is asked in between and however the world
    changes: the state (with the programs run) stays as it is. *)
Theorem C34_repeat pr w c q a s x s' qs :
  target_query q a -> run_query pr w c q s = (Ok x, s') ->
  let s'' := run_queries pr w c qs s' in run_query pr w c q s'' = (Ok x, s'').
Proof. intros Q H s''. apply (target_repeat pr w c q a s x s'); auto. apply queries_grow. Qed.
Print Assumptions C34_repeat.

Example C34_ex :
  let w := ex_tools (ex_says ex_cargo_vv) (ex_says ex_rustc_vv) in
  let q := QLinker (ArgText (B "t")) in
  steady w /\ ex_after debug w [] q = Some (Ok (APath (Some (B "ld"))))
  /\ ex_after debug w [QHostTriple; QLinker (ArgText (B "u")); q; QRustcVersion] q = Some (Ok (APath (Some (B "ld")))).
Proof. vm_compute. repeat split. Qed.
(** A failure that is gone at the next try. *)
Definition ex_late : world :=
  mkWorld (fun _ _ => false) (fun n _ => if Nat.ltb n 2 then NotStarted KNotFound else ex_says (B "unix")).
Example C34_ex_failed :
  let q := QLinker (ArgText (B "t")) in
  option_map is_err (ex_after release ex_late [] q) = Some true
  /\ ex_after release ex_late [q] q = Some (Ok (APath (Some (B "ld")))).
Proof. vm_compute. repeat split. Qed.

(** ** C35 *)
Theorem C35_stable pr w c q s x s' qs :
  tool_query q -> run_query pr w c q s = (Ok x, s') ->
  let s'' := run_queries pr w c qs s' in run_query pr w c q s'' = (Ok x, s'').
Proof. intros Q H s''. apply (tool_repeat pr w c q s x s'); auto. apply queries_grow. Qed.
Print Assumptions C35_stable.
(** In particular nothing is run. *)
Theorem C35_no_process pr w c q s x s' qs :
  tool_query q -> run_query pr w c q s = (Ok x, s') ->
  let s'' := run_queries pr w c qs s' in s_trace (snd (run_query pr w c q s'')) = s_trace s''.
Proof. intros Q H s''. unfold s''. now rewrite (C35_stable pr w c q s x s' qs Q H). Qed.
Print Assumptions C35_no_process.
Definition ex_changing : world :=
  mkWorld (fun _ _ => false) (fun n _ => ex_says (if Nat.ltb n 1 then ex_cargo_vv else ex_rustc_vv)).
Example C35_ex :
  ex_after release ex_changing [] QCargoVersion = Some (Ok (ACargoVersion (mkCargoVersion 1 75 0 false)))
  /\ ex_after release ex_changing [QCargoVersion; QRustcVersion; QRustc] QCargoVersion
     = Some (Ok (ACargoVersion (mkCargoVersion 1 75 0 false)))
  /\ ex_after release ex_changing [QHostTriple; QRustc; QRustcVersion] QHostTriple
     = Some (Ok (AStr (B "x86_64-unknown-linux-gnu"))).
Proof. vm_compute. repeat split. Qed.

(** ** C36 *)
Theorem C36_release pr w c s q p :
  debug_assertions pr = false -> reached pr w c s -> version_query q -> fst (run_query pr w c q s) <> Panic p.
Proof.
  intros D Rs Q H. apply (version_panic pr w c) in H as (_ & D' & _); [congruence|now apply (reached_told pr)|assumption].
Qed.
Print Assumptions C36_release.
(** The only way to a panic: the host is not known, but a version is. *)
Theorem C36_cause pr w c s q p :
  reached pr w c s -> version_query q -> fst (run_query pr w c q s) = Panic p ->
  p = PDebugAssert /\ debug_assertions pr = true /\ s_host s = None
  /\ (s_cargo_version s <> None \/ s_rustc_version s <> None).
Proof. intros Rs. apply version_panic. now apply (reached_told pr). Qed.
Print Assumptions C36_cause.
Theorem C36_first_call pr w c q p : version_query q -> fst (run_query pr w c q (state_init (ec_cx c))) <> Panic p.
Proof.
  intros Q H. apply C36_cause in H as (_ & _ & _ & [H|H]); [now destruct H|now destruct H| |assumption].
  exists []. now split.
Qed.
Print Assumptions C36_first_call.
(** No panic in any profile if the tools do not change and tell the host where they tell
    the version. *)
Theorem C36_complete_output pr w c s q p :
  steady w -> complete w (ec_cx c) (ec_build c) -> reached pr w c s -> version_query q ->
  fst (run_query pr w c q s) <> Panic p.
Proof.
  intros St Co Rs Q H. apply C36_cause in H as (_ & _ & N & K); [|assumption|assumption].
  destruct (reached_quiet pr w c St Co s Rs N) as [E1 E2]. destruct K; congruence.
Qed.
Print Assumptions C36_complete_output.
(** Without that, the second call panics in a debug build. *)
Theorem C36_debug_refuted :
  exists w c s q, steady w /\ reached debug w c s /\ version_query q /\ fst (run_query debug w c q s) = Panic PDebugAssert.
Proof.
  destruct (from_unresolved ex_config ex_context) as [c|e|p] eqn:E; [|vm_compute in E; discriminate..].
  set (w := ex_tools (ex_says (B "release: 1.75.0")) (NotStarted KNotFound)).
  exists w, c, (run_queries debug w c [QHostTriple] (state_init (ec_cx c))), QHostTriple.
  split; [split; reflexivity|]. split; [exists [QHostTriple]; split; [repeat constructor|reflexivity]|].
  split; [now left|]. vm_compute in E. injection E as <-. vm_compute. reflexivity.
Qed.
Print Assumptions C36_debug_refuted.
Example C36_ex :
  let w := ex_tools (ex_says ex_cargo_vv) (ex_says ex_rustc_vv) in
  ex_after debug w [QRustcVersion; QCargoVersion; QHostTriple] QRustcVersion
    = Some (Ok (ARustcVersion (mkRustcVersion 1 76 (Some 0%N) true)))
  /\ says_host (trim_newlines ex_cargo_vv) (B "x86_64-unknown-linux-gnu").
Proof.
  split; [vm_compute; reflexivity|]. apply (host_iff (trim_newlines ex_cargo_vv, mkCommand [] [])). reflexivity.
Qed.

(** ** C37 *)
Theorem C37_rustc_text out cmd v : rustc_version_of (out, cmd) = Ok v <-> says_rustc out v.
Proof. exact (rustc_version_iff (out, cmd) v). Qed.
Print Assumptions C37_rustc_text.
Theorem C37_cargo_text out cmd v : cargo_version_of (out, cmd) = Ok v <-> says_cargo out v.
Proof. exact (cargo_version_iff (out, cmd) v). Qed.
Print Assumptions C37_cargo_text.
Theorem C37_host_text out cmd h : host_of (out, cmd) = Ok h <-> says_host out h.
Proof. exact (host_iff (out, cmd) h). Qed.
Print Assumptions C37_host_text.
(** The line is unique. *)
Theorem C37_unique out v v' : says_rustc out v -> says_rustc out v' -> v = v'.
Proof. intros H H'. apply (C37_rustc_text out (mkCommand [] [])) in H, H'. congruence. Qed.
Print Assumptions C37_unique.

(** An answer is what a program has printed; which one, see C38. *)
Theorem C37_rustc_answer pr w c s v s' :
  reached pr w c s -> run_query pr w c QRustcVersion s = (Ok (ARustcVersion v), s') ->
  exists cmd out, rustc_question w (ec_cx c) (ec_build c) (s_clock s') cmd /\ In cmd (s_trace s')
  /\ ran w (s_clock s') cmd out /\ says_rustc out v.
Proof.
  intros Rs H. apply (reached_told pr) in Rs. destruct (rv_told_result pr w c s Rs) as [T K].
  cbn [run_query] in H. unfold mapM in H. apply bindM_ok in H as (x & s1 & H & E). injection E as -> <-.
  unfold q_rustc_version in H. rewrite H in T, K. exact (told_rv _ _ _ T v K).
Qed.
Print Assumptions C37_rustc_answer.
Theorem C37_cargo_answer pr w c s v s' :
  reached pr w c s -> run_query pr w c QCargoVersion s = (Ok (ACargoVersion v), s') ->
  exists out, In (cargo_question (ec_cx c)) (s_trace s') /\ ran w (s_clock s') (cargo_question (ec_cx c)) out /\ says_cargo out v.
Proof.
  intros Rs H. apply (reached_told pr) in Rs. destruct (cv_told_result pr w c s Rs) as [T K].
  cbn [run_query] in H. unfold mapM in H. apply bindM_ok in H as (x & s1 & H & E). injection E as -> <-.
  unfold q_cargo_version in H. rewrite H in T, K. exact (told_cv _ _ _ T v K).
Qed.
Print Assumptions C37_cargo_answer.
(** The host: the option, or what cargo says, or what rustc says where cargo does not. *)
Theorem C37_host_answer pr w c s h s' :
  reached pr w c s -> run_query pr w c QHostTriple s = (Ok (AStr h), s') ->
  let cx := ec_cx c in let now := s_clock s' in
  cx_host0 cx = Some h
  \/ (cx_host0 cx = None /\
      ((exists out v, In (cargo_question cx) (s_trace s') /\ ran w now (cargo_question cx) out
          /\ says_cargo out v /\ says_host out h)
       \/ (exists n, n < now /\ forall out v h', read_outcome (cargo_question cx) (w_run w n (cargo_question cx)) = Ok out ->
             says_cargo out v -> ~ says_host out h')
          /\ exists cmd out v, rustc_question w cx (ec_build c) now cmd /\ In cmd (s_trace s')
             /\ ran w now cmd out /\ says_rustc out v /\ says_host out h)).
Proof.
  intros Rs H. apply (reached_told pr) in Rs. destruct (host_told_result pr w c s Rs) as (T & _ & K).
  cbn [run_query] in H. unfold mapM in H. apply bindM_ok in H as (x & s1 & H & E). injection E as -> <-.
  unfold q_host_triple in H. rewrite H in T, K. exact (told_host _ _ _ T h K).
Qed.
Print Assumptions C37_host_answer.
(** With tools that do not change and no assertions: exactly then. *)
Theorem C37_cargo_always pr w c s v :
  steady w -> debug_assertions pr = false -> reached pr w c s ->
  let q := cargo_question (ec_cx c) in
  fst (run_query pr w c QCargoVersion s) = Ok (ACargoVersion v)
  <-> exists out, read_outcome q (w_run w 0 q) = Ok out /\ says_cargo out v.
Proof.
  intros St D Rs q. apply (reached_told pr) in Rs. cbn [run_query]. rewrite mapM_fst.
  destruct (cv_answers pr w c St s Rs) as [E|[D' _]]; [|unfold asserts in D'; congruence].
  unfold q_cargo_version. rewrite E. unfold cargoP, cargo_vv, rd. fold q.
  destruct (read_outcome q (w_run w 0 q)) as [out|e|p] eqn:Er; cbn.
  - split.
    + intros H. exists out. split; [reflexivity|]. apply (C37_cargo_text out q). destruct (cargo_version_of (out, q)); cbn in H; congruence.
    + intros (out' & [= <-] & H). apply (C37_cargo_text out q) in H. now rewrite H.
  - split; [discriminate|intros (? & [=] & _)].
  - split; [discriminate|intros (? & [=] & _)].
Qed.
Print Assumptions C37_cargo_always.
Example C37_ex :
  says_rustc (trim_newlines ex_rustc_vv) (mkRustcVersion 1 76 (Some 0%N) true)
  /\ (forall v, ~ says_rustc (B "release: 1") v) /\ (forall v, ~ says_rustc (B "release: 1.4294967296.0") v)
  /\ says_rustc (B "release: 1.4294967295") (mkRustcVersion 1 4294967295 None false)
  /\ (forall v, ~ says_cargo (B "release: 1.4294967295") v)
  /\ says_cargo (B "release: 1.2.3-beta.1") (mkCargoVersion 1 2 3 false).
Proof.
  assert (N : forall out, (exists e, rustc_version_of (out, mkCommand [] []) = Err e) -> forall v, ~ says_rustc out v).
  { intros out (e & H) v K. apply (C37_rustc_text out (mkCommand [] [])) in K. congruence. }
  assert (N' : forall out, (exists e, cargo_version_of (out, mkCommand [] []) = Err e) -> forall v, ~ says_cargo out v).
  { intros out (e & H) v K. apply (C37_cargo_text out (mkCommand [] [])) in K. congruence. }
  split; [apply (C37_rustc_text _ (mkCommand [] [])); reflexivity|].
  split; [apply N; eexists; reflexivity|]. split; [apply N; eexists; reflexivity|].
  split; [apply (C37_rustc_text _ (mkCommand [] [])); reflexivity|].
  split; [apply N'; eexists; reflexivity|]. apply (C37_cargo_text _ (mkCommand [] [])); reflexivity.
Qed.

(** ** C38 *)
(** [rustc()] always answers. *)
Theorem C38_rustc pr w c s :
  reached pr w c s ->
  exists r s', run_query pr w c QRustc s = (Ok (AProgram r), s')
  /\ rustc_command w (ec_cx c) (ec_build c) (s_clock s') r.
Proof.
  intros Rs. apply (reached_told pr) in Rs. destruct (rustc_ok w c s) as (r & s' & H). exists r, s'.
  cbn [run_query]. unfold mapM, q_rustc. rewrite bindM_eq, H. split; [reflexivity|].
  assert (T := keeps_rustc w c s Rs). rewrite H in T. apply cx_rustc_ok in H. exact (told_rustc _ _ _ T r H).
Qed.
Print Assumptions C38_rustc.
(** All the programs that are ever run. *)
Theorem C38_programs pr w c s cmd :
  reached pr w c s -> In cmd (s_trace s) ->
  cmd = cargo_question (ec_cx c)
  \/ rustc_question w (ec_cx c) (ec_build c) (s_clock s) cmd
  \/ exists rustc target, s_rustc s = Some rustc /\ rustc_command w (ec_cx c) (ec_build c) (s_clock s) rustc
     /\ cmd = cfg_question rustc target.
Proof.
  intros Rs I. apply (reached_told pr) in Rs. destruct (told_trace _ _ _ Rs cmd I) as [H|[H|(r & T & H & K)]]; auto.
  right. right. exists r, T. split; [assumption|]. split; [|assumption]. exact (told_rustc _ _ _ Rs r H).
Qed.
Print Assumptions C38_programs.
(** An explicit option replaces all of it in [rustc()] ... *)
Theorem C38_explicit pr w c s r :
  reached pr w c s -> cx_rustc0 (ec_cx c) = Some r -> exists s', run_query pr w c QRustc s = (Ok (AProgram r), s').
Proof.
  intros Rs E. destruct (C38_rustc pr w c s Rs) as (r' & s' & H & [K|[K _]]); [|congruence].
  exists s'. congruence.
Qed.
Print Assumptions C38_explicit.
(** ... but not in the question for the version. *)
Theorem C38_explicit_version_refuted :
  exists w c s r cmd, reached release w c s /\ cx_rustc0 (ec_cx c) = Some r
  /\ In cmd (s_trace (snd (run_query release w c QRustcVersion s)))
  /\ cmd <> cargo_question (ec_cx c) /\ cmd_program cmd <> epa_path r /\ ~ In (epa_path r) (cmd_args cmd).
Proof.
  set (r := mkEpa (B "/my/rustc") []).
  set (cx := mkContext [] (B "/bin/cargo") (B "/cwd") (Some r) None None).
  set (w := ex_tools (ex_says ex_cargo_vv) (ex_says ex_rustc_vv)).
  destruct (from_unresolved config_default cx) as [c|e|p] eqn:E; [|vm_compute in E; discriminate..].
  exists w, c, (state_init (ec_cx c)), r, (mkCommand (B "/bin/rustc") [B "-vV"]).
  vm_compute in E. injection E as <-.
  split; [exists []; now split|]. split; [reflexivity|]. split; [vm_compute; auto|].
  split; [discriminate|]. split; [discriminate|]. intros [H|[]]. discriminate H.
Qed.
Print Assumptions C38_explicit_version_refuted.
Example C38_ex :
  let w := ex_tools (ex_says ex_cargo_vv) (ex_says ex_rustc_vv) in
  ex_after release w [] QRustc = Some (Ok (AProgram (mkEpa (B "/wrap") [B "/wswrap"; B "/bin/rustc"])))
  /\ match from_unresolved ex_config ex_context with
     | Ok c => s_trace (run_queries release w c [QRustcVersion; QRunner (ArgText (B "t"))] (state_init (ec_cx c)))
               = [mkCommand (B "/wrap") [B "/wswrap"; B "/bin/rustc"; B "--print"; B "cfg"; B "--target"; B "t"];
                  mkCommand (B "/wrap") [B "/bin/rustc"; B "-vV"]; mkCommand (B "/bin/cargo") [B "-vV"]]
     | _ => False
     end.
Proof. vm_compute. repeat split. Qed.

(** ** C39 *)
Lemma traverse_forall2 {E A A'} (f : A -> res E A') l ts :
  traverse f l = Ok ts <-> Forall2 (fun a t => f a = Ok t) l ts.
Proof.
  revert ts. induction l as [|a l IH]; intros ts; cbn.
  - split; [intros [= <-]; constructor|now inversion 1].
  - split.
    + destruct (f a) as [t|?|?] eqn:Ea; cbn; try discriminate. destruct (traverse f l) as [ts'|?|?]; cbn; try discriminate.
      intros [= <-]. constructor; [assumption|]. now apply IH.
    + inversion 1; subst. apply IH in H4. now rewrite H2, H4.
Qed.
(** Arguments are taken as they are; nothing is run. *)
Theorem C39_arguments pr w c s l ts :
  l <> [] -> Forall2 (fun a t => to_triple a = Ok t) l ts ->
  run_query pr w c (QBuildTargetForConfig l) s = (Ok (ATriples ts), s).
Proof.
  intros N H. cbn [run_query]. unfold mapM, q_build_target_for_config. apply traverse_forall2 in H as K. rewrite K, bindM_eq, bind_lift.
  destruct H; [now destruct N|reflexivity].
Qed.
Print Assumptions C39_arguments.
(** Without arguments: the targets of the configuration, if there are any ... *)
Theorem C39_configured conf cx c pr w s fm ws :
  one_value_each (cx_env cx) -> from_unresolved conf cx = Ok c ->
  words_after (list_variables BuildTarget) (cx_env cx) (look_list BuildTarget conf) = Some (fm, ws) -> ws <> [] ->
  exists ts, run_query pr w c (QBuildTargetForConfig []) s = (Ok (ATriples ts), s)
  /\ Forall2 (target_at (cx_current_dir cx)) ws (map cli_target ts)
  /\ run_query pr w c (QBuildTargetForCli []) s = (Ok (AStrs (map lossy (map cli_target ts))), s).
Proof.
  intros N Hc E Ne. assert (R := from_unresolved_targets conf cx c N Hc). rewrite E in R.
  destruct (eb_target (ec_build c)) as [ts|] eqn:Et; [|destruct R]. cbn in R. exists ts.
  cbn [run_query]. unfold mapM, q_build_target_for_config, q_build_target_for_cli. cbn [traverse]. rewrite bindM_eq, bind_lift, Et.
  destruct ts as [|t ts]; [inversion R; now destruct Ne|]. split; [reflexivity|]. split; [assumption|].
  unfold ret. now rewrite map_map.
Qed.
Print Assumptions C39_configured.
(** ... the host otherwise, and nothing for the command line. *)
Theorem C39_host conf cx c pr w s :
  one_value_each (cx_env cx) -> from_unresolved conf cx = Ok c ->
  match words_after (list_variables BuildTarget) (cx_env cx) (look_list BuildTarget conf) with
  | Some (_, ws) => ws = [] | None => True
  end ->
  run_query pr w c (QBuildTargetForCli []) s = (Ok (AStrs []), s)
  /\ (forall h s', run_query pr w c QHostTriple s = (Ok (AStr h), s') ->
       run_query pr w c (QBuildTargetForConfig []) s = (t <- triple_from h ;; Ok (ATriples [t]), s'))
  /\ (forall e s', run_query pr w c QHostTriple s = (Err e, s') -> run_query pr w c (QBuildTargetForConfig []) s = (Err e, s')).
Proof.
  intros N Hc E. assert (R := from_unresolved_targets conf cx c N Hc).
  assert (Et : eb_target (ec_build c) = None \/ eb_target (ec_build c) = Some []).
  { destruct (words_after _ _ _) as [[fm ws]|], (eb_target (ec_build c)) as [ts|]; auto; cbn in R; [|now destruct R].
    subst ws. right. destruct ts; [reflexivity|inversion R]. }
  cbn [run_query]. unfold mapM, q_build_target_for_config, q_build_target_for_cli, q_host_triple. cbn [traverse].
  split; [destruct Et as [-> | -> ]; reflexivity|].
  assert (K : forall s, (match eb_target (ec_build c) with
      | Some (t :: rest) => ret (t :: rest)
      | _ => h <~ cx_host_triple pr w (ec_cx c) (ec_build c);; t <~ lift (triple_from h);; ret [t]
      end) s = (h <~ cx_host_triple pr w (ec_cx c) (ec_build c);; t <~ lift (triple_from h);; ret [t]) s)
    by (destruct Et as [-> | -> ]; reflexivity).
  rewrite !bindM_eq. cbn [lift]. rewrite !K, !bindM_eq.
  destruct (cx_host_triple pr w (ec_cx c) (ec_build c) s) as [[h|e|p] s1]; cbn.
  - split; [|discriminate]. intros h' s' [= <- <-]. now destruct (triple_from h).
  - split; [discriminate|]. now intros e' s' [= <- <-].
  - split; discriminate.
Qed.
Print Assumptions C39_host.
Theorem C39_cli_arguments pr w c s l :
  l <> [] -> run_query pr w c (QBuildTargetForCli l) s = (Ok (AStrs l), s).
Proof. now destruct l. Qed.
Print Assumptions C39_cli_arguments.
(** Text is kept as it is. *)
Theorem C39_text_kept s : utf8 s -> lossy s = s.
Proof. intros H. apply lossy_valid. now apply utf8_valid_iff. Qed.
Print Assumptions C39_text_kept.

Definition ex_targets_config (l : list string) : config :=
  mkConfig [] (mkBuild None None None None None (Some (SoaArray (map (fun s => mkValue (B s) (Some (DefPath (B "/p/.cargo/config")))) l)))
                 None None None None None false false)
    (c_doc config_default) [] (c_future_incompat_report config_default) (c_cargo_new config_default)
    (c_http config_default) (c_net config_default) [] (c_registry config_default) [] (c_term config_default).
Definition ex_targets_after (l : list string) (q : query) : option (result answer) :=
  match from_unresolved (ex_targets_config l) ex_context with
  | Ok c => Some (fst (run_query release (ex_tools (ex_says ex_cargo_vv) (ex_says ex_rustc_vv)) c q (state_init (ec_cx c))))
  | _ => None
  end.
Example C39_ex :
  ex_targets_after ["t"; "a/b.json"]%string (QBuildTargetForCli []) = Some (Ok (AStrs [B "t"; B "/p/a/b.json"]))
  /\ ex_targets_after ["t"; "a/b.json"]%string (QBuildTargetForConfig [])
     = Some (Ok (ATriples [mkTriple (B "t") None; mkTriple (B "b") (Some (B "/p/a/b.json"))]))
  /\ ex_targets_after [] (QBuildTargetForConfig []) = Some (Ok (ATriples [mkTriple (B "x86_64-unknown-linux-gnu") None]))
  /\ ex_targets_after [] (QBuildTargetForCli []) = Some (Ok (AStrs []))
  /\ ex_targets_after ["t"]%string (QBuildTargetForConfig [ArgText (B "u")]) = Some (Ok (ATriples [mkTriple (B "u") None])).
Proof. vm_compute. repeat split. Qed.
