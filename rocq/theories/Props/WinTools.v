(** C81: cargo, rustc and the targets to build for on Windows. *)
From Verif.Model Require Import Base Str Path StdPath OsPaths BMap Error Value De CfgExpr Triple EasyTypes Serde Load
  Context ApplyEnv Process Resolve Easy OsLoad.
From Verif.Spec Require Import StrSpec ConfigSpec LoadSpec EnvSpec CfgSpec TargetSpec FinalSpec QuerySpec WinSpec WinLoadSpec
  OsTargetSpec WinTargetSpec OsQuerySpec CfgErrorSpec ErrorSpec BlameSpec QueryBlameSpec.
From Verif.Proof Require QueryProof.
From Verif.Proof Require Import StateProof VersionProof WinLoadProof OsTargetProof WinTargetProof OsQueryProof
  OsQueryBlameProof WinQueryProof.
From Verif.Props Require Import WinTarget.

(** ** Where the answers come from *)
Lemma win_told f p cwd o env l cargo ec pr w s :
  win_loaded f p cwd o env l cargo ec -> os_reached windows (B ".exe") pr w ec s ->
  told w ec (win_found w (ec_build ec) cargo) s.
Proof.
  intros (S & H & Hc & Sh) Rs. destruct (win_context _ _ _ _ _ _ _ _ S H Hc) as (E & _).
  exact (reached_told windows (B ".exe") pr w ec _ (win_mono w ec cargo) (win_now w ec cargo E Sh) s Rs).
Qed.
(** Every program that is run is one of three. *)
Theorem C81_programs f p cwd o env l cargo ec pr w s cmd :
  win_loaded f p cwd o env l cargo ec -> os_reached windows (B ".exe") pr w ec s -> In cmd (s_trace s) ->
  cmd = asked_cargo cargo
  \/ asked_rustc (win_found w (ec_build ec) cargo) (ec_build ec) (s_clock s) cmd
  \/ exists rustc T, cmd = cfg_question rustc T
     /\ (o_rustc o = Some rustc
         \/ (o_rustc o = None /\ wrapped_rustc (win_found w (ec_build ec) cargo) (ec_build ec) (s_clock s) rustc)).
Proof.
  intros L Rs I. assert (T := win_told _ _ _ _ _ _ _ _ _ _ _ L Rs). destruct L as (S & H & Hc & Sh).
  destruct (win_context _ _ _ _ _ _ _ _ S H Hc) as (E1 & E2 & _).
  destruct (told_trace _ _ _ s T cmd I) as [K|[K|(r & t & K & E)]].
  - left. now rewrite <- E1.
  - right. now left.
  - right. right. exists r, t. split; [exact E|]. rewrite <- E2. exact (told_rustc _ _ _ s T r K).
Qed.
Print Assumptions C81_programs.
(** The cargo that is answered is the one that is run. *)
Theorem C81_cargo f p cwd o env l cargo ec pr w s :
  win_loaded f p cwd o env l cargo ec -> os_run_query windows (B ".exe") pr w ec QCargo s = (Ok (AStr cargo), s).
Proof. intros (S & H & Hc & _). now rewrite <- (proj1 (win_context _ _ _ _ _ _ _ _ S H Hc)). Qed.
Print Assumptions C81_cargo.
Theorem C81_rustc_version f p cwd o env l cargo ec pr w s v s' :
  win_loaded f p cwd o env l cargo ec -> os_reached windows (B ".exe") pr w ec s ->
  os_run_query windows (B ".exe") pr w ec QRustcVersion s = (Ok (ARustcVersion v), s') ->
  rustc_said (win_found w (ec_build ec) cargo) w (ec_build ec) s' v.
Proof.
  intros L Rs Q. assert (T := win_told _ _ _ _ _ _ _ _ _ _ _ L Rs). destruct L as (S & H & Hc & Sh).
  destruct (win_context _ _ _ _ _ _ _ _ S H Hc) as (E1 & _).
  destruct (rv_told_result windows (B ".exe") pr w ec _ (win_mono w ec cargo) (win_now w ec cargo E1 Sh) s T) as [T' K].
  cbn [os_run_query] in Q. unfold mapM in Q. apply bindM_ok in Q as (x & s1 & Q & E). injection E as -> <-.
  rewrite Q in T', K. exact (told_rv _ _ _ _ T' v K).
Qed.
Print Assumptions C81_rustc_version.
Theorem C81_cargo_version f p cwd o env l cargo ec pr w s v s' :
  win_loaded f p cwd o env l cargo ec -> os_reached windows (B ".exe") pr w ec s ->
  os_run_query windows (B ".exe") pr w ec QCargoVersion s = (Ok (ACargoVersion v), s') ->
  cargo_said w cargo s' v.
Proof.
  intros L Rs Q. assert (T := win_told _ _ _ _ _ _ _ _ _ _ _ L Rs). destruct L as (S & H & Hc & Sh).
  destruct (win_context _ _ _ _ _ _ _ _ S H Hc) as (E1 & _).
  destruct (cv_told_result windows (B ".exe") pr w ec _ (win_mono w ec cargo) (win_now w ec cargo E1 Sh) s T) as [T' K].
  cbn [os_run_query] in Q. unfold mapM in Q. apply bindM_ok in Q as (x & s1 & Q & E). injection E as -> <-.
  rewrite Q in T', K. rewrite <- E1. exact (told_cv _ _ _ _ T' v K).
Qed.
Print Assumptions C81_cargo_version.
Theorem C81_host f p cwd o env l cargo ec pr w s h s' :
  win_loaded f p cwd o env l cargo ec -> os_reached windows (B ".exe") pr w ec s ->
  os_run_query windows (B ".exe") pr w ec QHostTriple s = (Ok (AStr h), s') ->
  host_said (win_found w (ec_build ec) cargo) w (ec_build ec) cargo (o_host_triple o) s' h.
Proof.
  intros L Rs Q. assert (T := win_told _ _ _ _ _ _ _ _ _ _ _ L Rs). destruct L as (S & H & Hc & Sh).
  destruct (win_context _ _ _ _ _ _ _ _ S H Hc) as (E1 & E2 & E3 & _).
  destruct (host_told_result windows (B ".exe") pr w ec _ (win_mono w ec cargo) (win_now w ec cargo E1 Sh) s T) as (T' & _ & K).
  cbn [os_run_query] in Q. unfold mapM in Q. apply bindM_ok in Q as (x & s1 & Q & E). injection E as -> <-.
  rewrite Q in T', K. rewrite <- E1, <- E3. rewrite <- E1 in T'. exact (told_host _ _ _ _ T' h K).
Qed.
Print Assumptions C81_host.

(** ** Tools that do not change: exactly what they say *)
Theorem C81_rustc_always f p cwd o env l cargo ec pr w s v :
  win_loaded f p cwd o env l cargo ec -> os_reached windows (B ".exe") pr w ec s ->
  steady w -> debug_assertions pr = false ->
  fst (os_run_query windows (B ".exe") pr w ec QRustcVersion s) = Ok (ARustcVersion v)
  <-> exists cmd out, asked_rustc (win_found w (ec_build ec) cargo) (ec_build ec) 0 cmd /\ prints w cmd out /\ says_rustc out v.
Proof.
  intros L Rs St D. assert (T := win_told _ _ _ _ _ _ _ _ _ _ _ L Rs). destruct L as (S & H & Hc & Sh).
  destruct (win_context _ _ _ _ _ _ _ _ S H Hc) as (E & _).
  exact (rustc_always _ _ pr w ec _ (win_mono w ec cargo) (win_now w ec cargo E Sh) St (win_only w ec cargo E) D s v T).
Qed.
Print Assumptions C81_rustc_always.
Theorem C81_cargo_always f p cwd o env l cargo ec pr w s v :
  win_loaded f p cwd o env l cargo ec -> os_reached windows (B ".exe") pr w ec s ->
  steady w -> debug_assertions pr = false ->
  fst (os_run_query windows (B ".exe") pr w ec QCargoVersion s) = Ok (ACargoVersion v)
  <-> exists out, prints w (asked_cargo cargo) out /\ says_cargo out v.
Proof.
  intros L Rs St D. assert (T := win_told _ _ _ _ _ _ _ _ _ _ _ L Rs). destruct L as (S & H & Hc & Sh).
  destruct (win_context _ _ _ _ _ _ _ _ S H Hc) as (E & _). 
  rewrite (cargo_always _ _ pr w ec _ (win_mono w ec cargo) (win_now w ec cargo E Sh) St (win_only w ec cargo E) D s v T).
  now rewrite E.
Qed.
Print Assumptions C81_cargo_always.
Theorem C81_host_always f p cwd o env l cargo ec pr w s h :
  win_loaded f p cwd o env l cargo ec -> os_reached windows (B ".exe") pr w ec s ->
  steady w -> debug_assertions pr = false ->
  fst (os_run_query windows (B ".exe") pr w ec QHostTriple s) = Ok (AStr h)
  <-> steady_host (win_found w (ec_build ec) cargo) w (ec_build ec) cargo (o_host_triple o) h.
Proof.
  intros L Rs St D. assert (T := win_told _ _ _ _ _ _ _ _ _ _ _ L Rs). destruct L as (S & H & Hc & Sh).
  destruct (win_context _ _ _ _ _ _ _ _ S H Hc) as (E & _ & E3 & _). 
  rewrite (host_always _ _ pr w ec _ (win_now w ec cargo E Sh) St (win_only w ec cargo E) D s h T).
  now rewrite E, E3.
Qed.
Print Assumptions C81_host_always.

(** ** What is remembered *)
Theorem C81_stable pr w ec q s x s' qs :
  tool_query q -> os_run_query windows (B ".exe") pr w ec q s = (Ok x, s') ->
  let s'' := os_run_queries windows (B ".exe") pr w ec qs s' in os_run_query windows (B ".exe") pr w ec q s'' = (Ok x, s'').
Proof. intros Q H s''. apply (tool_repeat windows (B ".exe") pr w ec q s x s'); auto. apply queries_grow. Qed.
Print Assumptions C81_stable.
Theorem C81_target_stable pr w ec q a s x s' qs :
  target_query q a -> os_run_query windows (B ".exe") pr w ec q s = (Ok x, s') ->
  let s'' := os_run_queries windows (B ".exe") pr w ec qs s' in os_run_query windows (B ".exe") pr w ec q s'' = (Ok x, s'').
Proof. intros Q H s''. apply (target_repeat windows (B ".exe") pr w ec q a s x s'); auto. apply queries_grow. Qed.
Print Assumptions C81_target_stable.
Theorem C81_target_failed pr w ec q a s r s' :
  target_query q a -> os_run_query windows (B ".exe") pr w ec q s = (r, s') -> is_ok r = false -> s_target s' = s_target s.
Proof. exact (target_failed windows (B ".exe") pr w ec q a s r s'). Qed.
Print Assumptions C81_target_failed.
(** Tools that do not change: the calls before do not matter, but for the assertion below. *)
Theorem C81_as_new f p cwd o env l cargo ec pr w s q :
  win_loaded f p cwd o env l cargo ec -> os_reached windows (B ".exe") pr w ec s ->
  steady w -> os_real_query windows q ->
  fst (os_run_query windows (B ".exe") pr w ec q s) = fst (os_run_query windows (B ".exe") pr w ec q (state_init (ec_cx ec)))
  \/ (debug_assertions pr = true /\ fst (os_run_query windows (B ".exe") pr w ec q s) = Panic PDebugAssert).
Proof.
  intros (S & H & Hc & Sh) Rs St R. destruct (win_context _ _ _ _ _ _ _ _ S H Hc) as (E & _).
  apply (query_as_new windows (B ".exe") pr w ec _ (win_mono w ec cargo) (win_now w ec cargo E Sh) St (win_only w ec cargo E) q s R).
  exact (reached_full windows (B ".exe") pr w ec _ (win_mono w ec cargo) (win_now w ec cargo E Sh) s Rs).
Qed.
Print Assumptions C81_as_new.
Theorem C81_target_as_new f p cwd o env l cargo ec pr w s q a :
  win_loaded f p cwd o env l cargo ec -> os_reached windows (B ".exe") pr w ec s ->
  steady w -> target_query q a -> os_real_arg windows a ->
  fst (os_run_query windows (B ".exe") pr w ec q s) = fst (os_run_query windows (B ".exe") pr w ec q (state_init (ec_cx ec))).
Proof.
  intros (S & H & Hc & Sh) Rs St Q R. destruct (win_context _ _ _ _ _ _ _ _ S H Hc) as (E & _).
  apply (target_query_value windows (B ".exe") pr w ec _ (win_mono w ec cargo) (win_now w ec cargo E Sh) St (win_only w ec cargo E) q a);
    auto; apply (reached_full windows (B ".exe") pr w ec _ (win_mono w ec cargo) (win_now w ec cargo E Sh)); [exact Rs|].
  exists []. now split.
Qed.
Print Assumptions C81_target_as_new.

(** ** Panics *)
(** The only way to a panic, in builds with assertions: the host is not known, but a version is. *)
Theorem C81_panic f p cwd o env l cargo ec pr w s q x :
  win_loaded f p cwd o env l cargo ec -> os_reached windows (B ".exe") pr w ec s ->
  version_query q -> fst (os_run_query windows (B ".exe") pr w ec q s) = Panic x ->
  x = PDebugAssert /\ debug_assertions pr = true /\ s_host s = None
  /\ (s_cargo_version s <> None \/ s_rustc_version s <> None).
Proof.
  intros L Rs Q. assert (T := win_told _ _ _ _ _ _ _ _ _ _ _ L Rs). destruct L as (S & H & Hc & Sh).
  destruct (win_context _ _ _ _ _ _ _ _ S H Hc) as (E & _).
  exact (version_panic windows (B ".exe") pr w ec _ (win_mono w ec cargo) (win_now w ec cargo E Sh) q s x T Q).
Qed.
Print Assumptions C81_panic.
(** None if the tools do not change and tell the host where they tell a version. *)
Theorem C81_no_panic f p cwd o env l cargo ec pr w s q x :
  win_loaded f p cwd o env l cargo ec -> os_reached windows (B ".exe") pr w ec s ->
  steady w -> tell_all (win_found w (ec_build ec) cargo) w (ec_build ec) cargo ->
  version_query q -> fst (os_run_query windows (B ".exe") pr w ec q s) <> Panic x.
Proof.
  intros L Rs St A Q K. destruct (C81_panic _ _ _ _ _ _ _ _ _ _ _ _ _ L Rs Q K) as (_ & _ & N & V).
  destruct L as (S & H & Hc & Sh). destruct (win_context _ _ _ _ _ _ _ _ S H Hc) as (E & _). rewrite <- E in A at 2.
  destruct (reached_quiet windows (B ".exe") pr w ec _ (win_mono w ec cargo) (win_now w ec cargo E Sh) St (win_only w ec cargo E) A s Rs N)
    as [V1 V2].
  destruct V; congruence.
Qed.
Print Assumptions C81_no_panic.

(** ** Why the tools tell nothing *)
Theorem C81_host_error f p cwd o env l cargo ec pr w s e s' :
  win_loaded f p cwd o env l cargo ec -> os_reached windows (B ".exe") pr w ec s ->
  os_run_query windows (B ".exe") pr w ec QHostTriple s = (Err e, s') ->
  o_host_triple o = None /\ exists e' n cmd, s_clock s < n
  /\ tool_problem w (tells_host tells_cargo) (asked_cargo cargo) (s_clock s) e'
  /\ asked_rustc (win_found w (ec_build ec) cargo) (ec_build ec) n cmd /\ tool_problem w (tells_host tells_rustc) cmd n e
  /\ s_clock s' = S n /\ s_trace s' = cmd :: asked_cargo cargo :: s_trace s.
Proof.
  intros L Rs Q. assert (T := win_told _ _ _ _ _ _ _ _ _ _ _ L Rs). destruct L as (S & H & Hc & Sh).
  destruct (win_context _ _ _ _ _ _ _ _ S H Hc) as (E & _ & E3 & _).
  cbn [os_run_query] in Q. unfold mapM in Q. rewrite bindM_eq in Q.
  destruct (os_cx_host_triple windows (B ".exe") pr w (ec_cx ec) (ec_build ec) s) as [[h|e'|x] s1] eqn:G; [discriminate| |discriminate].
  injection Q as <- <-.
  destruct (host_query_err windows (B ".exe") pr w ec _ (win_mono w ec cargo) (win_now w ec cargo E Sh) s e' s1 T G)
    as (N & m & e2 & n & cmd & -> & R).
  split; [rewrite <- E3; exact (OsQueryProof.told_no_host _ _ _ s T N)|]. exists e2, n, cmd. rewrite E in R. exact R.
Qed.
Print Assumptions C81_host_error.
Theorem C81_rustc_version_error f p cwd o env l cargo ec pr w s e s' :
  win_loaded f p cwd o env l cargo ec -> os_reached windows (B ".exe") pr w ec s ->
  os_run_query windows (B ".exe") pr w ec QRustcVersion s = (Err e, s') ->
  exists n cmd, s_clock s <= n /\ asked_rustc (win_found w (ec_build ec) cargo) (ec_build ec) n cmd
  /\ tool_problem w tells_rustc cmd n e /\ s_clock s' = S n /\ exists before, s_trace s' = cmd :: before.
Proof.
  intros L Rs Q. assert (T := win_told _ _ _ _ _ _ _ _ _ _ _ L Rs). destruct L as (S & H & Hc & Sh).
  destruct (win_context _ _ _ _ _ _ _ _ S H Hc) as (E & _).
  cbn [os_run_query] in Q. unfold mapM in Q. rewrite bindM_eq in Q.
  destruct (os_cx_rustc_version windows (B ".exe") pr w (ec_cx ec) (ec_build ec) s) as [[h|e'|x] s1] eqn:G; [discriminate| |discriminate].
  injection Q as <- <-.
  exact (proj2 (rustc_version_query_err windows (B ".exe") pr w ec _ (win_mono w ec cargo) (win_now w ec cargo E Sh) s e' s1 T G)).
Qed.
Print Assumptions C81_rustc_version_error.
Theorem C81_cargo_version_error f p cwd o env l cargo ec pr w s e s' :
  win_loaded f p cwd o env l cargo ec -> os_reached windows (B ".exe") pr w ec s ->
  os_run_query windows (B ".exe") pr w ec QCargoVersion s = (Err e, s') ->
  exists n, s_clock s <= n /\ tool_problem w tells_cargo (asked_cargo cargo) n e
  /\ s_clock s' = S n /\ exists before, s_trace s' = asked_cargo cargo :: before.
Proof.
  intros L Rs Q. assert (T := win_told _ _ _ _ _ _ _ _ _ _ _ L Rs). destruct L as (S & H & Hc & Sh).
  destruct (win_context _ _ _ _ _ _ _ _ S H Hc) as (E & _).
  cbn [os_run_query] in Q. unfold mapM in Q. rewrite bindM_eq in Q.
  destruct (os_cx_cargo_version windows (B ".exe") pr w (ec_cx ec) (ec_build ec) s) as [[h|e'|x] s1] eqn:G; [discriminate| |discriminate].
  injection Q as <- <-.
  assert (X := cargo_version_query_err windows (B ".exe") pr w ec _ (win_mono w ec cargo) (win_now w ec cargo E Sh) s e' s1 T G).
  rewrite E in X. exact (proj2 X).
Qed.
Print Assumptions C81_cargo_version_error.

(** ** The targets to build for *)
(** Arguments are taken as they are; nothing is run. *)
Theorem C81_arguments pr w ec s l ts :
  l <> [] -> Forall2 (fun a t => os_to_triple windows a = Ok t) l ts ->
  os_run_query windows (B ".exe") pr w ec (QBuildTargetForConfig l) s = (Ok (ATriples ts), s).
Proof.
  intros N H. assert (K : traverse (os_to_triple windows) l = Ok ts).
  { clear N. induction H as [|a t l ts Ha H IH]; [reflexivity|]. cbn [traverse]. now rewrite Ha, IH. }
  cbn [os_run_query]. unfold mapM, os_q_build_target_for_config. rewrite K, bindM_eq, QueryProof.bind_lift.
  destruct H; [now destruct N|reflexivity].
Qed.
Print Assumptions C81_arguments.
(** Without arguments: the targets of the configuration, each the one that its text stands for ... *)
Theorem C81_configured f p cwd o env l ec pr w s ws ps :
  win_sources f p cwd o env l -> os_easy_load windows f p (at_place cwd) o = Ok ec ->
  words_of env l BuildTarget = Some ws -> Forall2 (win_target_at cwd) (snd ws) ps -> ps <> [] ->
  exists ts, os_run_query windows (B ".exe") pr w ec (QBuildTargetForConfig []) s = (Ok (ATriples ts), s)
  /\ map cli_target ts = ps /\ Forall2 (fun p t => os_to_triple windows (ArgText p) = Ok t) ps ts
  /\ os_run_query windows (B ".exe") pr w ec (QBuildTargetForCli []) s = (Ok (AStrs (map lossy ps)), s).
Proof.
  intros S H E F Ne. assert (B := win_build_targets f p cwd o env l ec S H). rewrite E in B. destruct B as (ts & Et & G).
  destruct (own_targets cwd _ _ _ (proj1 S) F G) as [M O]. exists ts. cbn [os_run_query].
  unfold mapM, os_q_build_target_for_config, q_build_target_for_cli. cbn [traverse]. rewrite bindM_eq, QueryProof.bind_lift, Et.
  destruct ts as [|t ts]; [cbn in M; now subst ps|]. split; [reflexivity|]. split; [exact M|]. split; [exact O|].
  unfold ret. now rewrite <- M, map_map.
Qed.
Print Assumptions C81_configured.
(** ... the host otherwise, and nothing for the command line. *)
Theorem C81_unconfigured f p cwd o env l ec pr w s :
  win_sources f p cwd o env l -> os_easy_load windows f p (at_place cwd) o = Ok ec ->
  match words_of env l BuildTarget with Some ws => snd ws = [] | None => True end ->
  os_run_query windows (B ".exe") pr w ec (QBuildTargetForCli []) s = (Ok (AStrs []), s)
  /\ (forall h s', os_run_query windows (B ".exe") pr w ec QHostTriple s = (Ok (AStr h), s') ->
       os_run_query windows (B ".exe") pr w ec (QBuildTargetForConfig []) s
       = (t <- os_to_triple windows (ArgText h) ;; Ok (ATriples [t]), s'))
  /\ (forall e s', os_run_query windows (B ".exe") pr w ec QHostTriple s = (Err e, s') ->
       os_run_query windows (B ".exe") pr w ec (QBuildTargetForConfig []) s = (Err e, s')).
Proof.
  intros S H E. assert (R := win_build_targets f p cwd o env l ec S H).
  assert (Et : eb_target (ec_build ec) = None \/ eb_target (ec_build ec) = Some []).
  { destruct (words_of env l BuildTarget) as [ws|]; [|auto]. destruct R as (ts & Et & G). rewrite E in G. right. now inversion G; subst. }
  cbn [os_run_query]. unfold mapM, os_q_build_target_for_config, q_build_target_for_cli. cbn [traverse].
  split; [destruct Et as [-> | -> ]; reflexivity|].
  assert (K : forall s, (match eb_target (ec_build ec) with
      | Some (t :: rest) => ret (t :: rest)
      | _ => h <~ os_cx_host_triple windows (B ".exe") pr w (ec_cx ec) (ec_build ec);; t <~ lift (os_triple windows h None None);; ret [t]
      end) s = (h <~ os_cx_host_triple windows (B ".exe") pr w (ec_cx ec) (ec_build ec);; t <~ lift (os_triple windows h None None);; ret [t]) s)
    by (destruct Et as [-> | -> ]; reflexivity).
  rewrite !bindM_eq. cbn [lift]. rewrite !K, !bindM_eq.
  destruct (os_cx_host_triple windows (B ".exe") pr w (ec_cx ec) (ec_build ec) s) as [[h|e|x] s1]; cbn [fst snd].
  - split; [|discriminate]. unfold ret at 1. intros h' s' [= <- <-]. rewrite bindM_eq. unfold lift, os_to_triple.
    now destruct (os_triple windows h None None).
  - split; [discriminate|]. now intros e' s' [= <- <-].
  - split; discriminate.
Qed.
Print Assumptions C81_unconfigured.
(** A host that is a name is its own triple. *)
Theorem C81_host_triple h : win_name h -> (forall s, h <> s ++ B ".json") -> os_to_triple windows (ArgText h) = Ok (mkTriple h None).
Proof. intros W N. unfold os_to_triple, os_triple. now rewrite (triple_plain _ W N). Qed.
Print Assumptions C81_host_triple.
Theorem C81_cli_arguments pr w ec s l :
  l <> [] -> os_run_query windows (B ".exe") pr w ec (QBuildTargetForCli l) s = (Ok (AStrs l), s).
Proof. now destruct l. Qed.
Print Assumptions C81_cli_arguments.

(** ** Examples: cargo and rustc in one directory, a wrapper, and a target that is a file *)
Definition c81_lines (l : list string) : str := flat_map (fun s => B s ++ [nl]) l.
Definition c81_says (out : str) : outcome := Exited true (B "exit code: 0") out [].
Definition c81_cargo_vv : str := c81_lines ["cargo 1.75.0"; "release: 1.75.0"; "host: x86_64-pc-windows-msvc"]%string.
Definition c81_rustc_vv : str :=
  c81_lines ["rustc 1.76.0-nightly"; "binary: rustc"; "release: 1.76.0-nightly"; "host: aarch64-pc-windows-msvc"]%string.
Definition c81_tools (cargo rustc : outcome) : world :=
  mkWorld (fun _ p => str_eqb p (B "D:\t\bin\rustc.exe"))
    (fun _ c => if str_eqb (cmd_program c) (B "D:\t\bin\cargo.exe") then cargo else rustc).
Definition c81_world : world := c81_tools (c81_says c81_cargo_vv) (c81_says c81_rustc_vv).
(** cargo tells its version only. *)
Definition c81_brief : world := c81_tools (c81_says (B "release: 1.75.0")) (c81_says c81_rustc_vv).
Definition c81_after (pr : profile) (w : world) (qs : list query) (q : query) : option (result answer * list command) :=
  match c79_load with
  | Ok c => let r := os_run_query windows (B ".exe") pr w c q (os_run_queries windows (B ".exe") pr w c qs (state_init (ec_cx c))) in
            Some (fst r, s_trace (snd r))
  | _ => None
  end.
Definition c81_cargo : str := at_place (in_place (Drive "D", [B "t"; B "bin"]) [B "cargo.exe"]).
Example C81_ex_loaded : exists ec, win_loaded c79_fs c79_process c79_cwd options_default c79_env c79_files c81_cargo ec.
Proof.
  assert (P : cargo_placed c81_cargo).
  { right. exists (Drive "D", [B "t"; B "bin"]), (B "cargo.exe"). split; [reflexivity|]. split; [place|name]. }
  destruct c79_load as [ec| |] eqn:E; [|vm_compute in E; discriminate E..]. exists ec.
  split; [exact C79_ex_sources|]. split; [exact E|]. split; [apply cargo_variable; reflexivity|].
  intros _. exact P.
Qed.
Definition c81_ask_rustc : command := mkCommand (B "C:\p\a\tools\wrap") [B "D:\t\bin\rustc.exe"; B "-vV"].
Definition c81_ask_cargo : command := mkCommand (B "D:\t\bin\cargo.exe") [B "-vV"].
(** All that is told, and what is run for it. *)
Example C81_ex_answers :
  c81_after debug c81_world [] QRustcVersion
    = Some (Ok (ARustcVersion (mkRustcVersion 1 76 (Some 0%N) true)), [c81_ask_rustc; c81_ask_cargo])
  /\ c81_after debug c81_world [QRustcVersion] QHostTriple
    = Some (Ok (AStr (B "x86_64-pc-windows-msvc")), [c81_ask_rustc; c81_ask_cargo])
  /\ c81_after debug c81_brief [] QHostTriple
    = Some (Ok (AStr (B "aarch64-pc-windows-msvc")), [c81_ask_rustc; c81_ask_cargo])
  /\ c81_after debug c81_brief [QHostTriple] QCargoVersion
    = Some (Ok (ACargoVersion (mkCargoVersion 1 75 0 false)), [c81_ask_rustc; c81_ask_cargo]).
Proof. vm_compute. repeat split. Qed.
Example C81_ex_steady : steady c81_world
  /\ prints c81_world c81_ask_cargo (trim_newlines c81_cargo_vv) /\ says_host (trim_newlines c81_cargo_vv) (B "x86_64-pc-windows-msvc")
  /\ prints c81_brief c81_ask_cargo (B "release: 1.75.0") /\ says_cargo (B "release: 1.75.0") (mkCargoVersion 1 75 0 false)
  /\ forall h, ~ says_host (B "release: 1.75.0") h.
Proof.
  split; [split; reflexivity|]. split; [vm_compute; reflexivity|].
  split; [apply (host_iff (trim_newlines c81_cargo_vv, c81_ask_cargo)); reflexivity|]. split; [vm_compute; reflexivity|].
  split; [apply (cargo_version_iff (B "release: 1.75.0", c81_ask_cargo)); reflexivity|].
  intros h H. apply (host_iff (B "release: 1.75.0", c81_ask_cargo)) in H. vm_compute in H. discriminate H.
Qed.
(** The world with both: every version is told with the host. *)
Example C81_ex_tell_all found b : tell_all found c81_world b c81_cargo.
Proof.
  assert (Hc : says_host (trim_newlines c81_cargo_vv) (B "x86_64-pc-windows-msvc"))
    by (apply (host_iff (trim_newlines c81_cargo_vv, c81_ask_cargo)); reflexivity).
  assert (Hr : says_host (trim_newlines c81_rustc_vv) (B "aarch64-pc-windows-msvc"))
    by (apply (host_iff (trim_newlines c81_rustc_vv, c81_ask_cargo)); reflexivity).
  assert (K : forall n c out, read_outcome c (w_run c81_world n c) = Ok out -> out = trim_newlines c81_cargo_vv \/ out = trim_newlines c81_rustc_vv).
  { intros n c out. unfold c81_world, c81_tools. cbn [w_run].
    destruct (str_eqb (cmd_program c) (B "D:\t\bin\cargo.exe")); intros H; [left|right]; vm_compute in H; injection H as <-; reflexivity. }
  split; [intros n out v H _|intros n c out v _ H _]; apply K in H as [-> | -> ]; eauto.
Qed.
(** Without that, the second call panics with assertions, and not without. *)
Example C81_ex_panic :
  let w := c81_tools (c81_says (B "release: 1.75.0")) (NotStarted KNotFound) in
  option_map fst (c81_after debug w [QHostTriple] QHostTriple) = Some (Panic PDebugAssert)
  /\ option_map (fun r => is_err (fst r)) (c81_after release w [QHostTriple] QHostTriple) = Some true.
Proof. vm_compute. repeat split. Qed.
Example C81_ex_targets :
  option_map fst (c81_after release c81_world [] (QBuildTargetForConfig [])) = Some (Ok (ATriples [mkTriple (B "my") (Some (B "C:\p\a\t\my.json"))]))
  /\ option_map fst (c81_after release c81_world [] (QBuildTargetForCli [])) = Some (Ok (AStrs [B "C:\p\a\t\my.json"]))
  /\ option_map fst (c81_after release c81_world [] (QBuildTargetForConfig [ArgText (B "x"); ArgText (B "C:\a.json")]))
     = Some (Ok (ATriples [mkTriple (B "x") None; mkTriple (B "a") (Some (B "C:\a.json"))])).
Proof. vm_compute. repeat split. Qed.
Example C81_ex_target_at : exists ws, words_of c79_env c79_files BuildTarget = Some ws
  /\ Forall2 (win_target_at c79_cwd) (snd ws) [B "C:\p\a\t\my.json"].
Proof.
  eexists. split; [vm_compute; reflexivity|]. cbn [snd]. constructor; [|constructor].
  apply (win_target_spec _ _ [B "t"] (B "my")); [| |reflexivity|].
  - apply (more_names_text (B "t") "\" (B "my.json") [B "my.json"]); [name|left; reflexivity|]. constructor. name.
  - discriminate.
  - apply win_path with (DefPath (B "C:\p\a\.cargo\config.toml")) c79_cwd; [reflexivity| |].
    + apply (relative_to_file _ c79_cwd (B ".cargo") (B "config.toml")); [place|name|name].
    + apply from_below; [exact I|]. split; [discriminate|]. split; [intros ? ? [= <- _] [H|H]; discriminate H|intros ? ? H; discriminate H].
Qed.
(** The same configuration without a target: the host. *)
Definition c81_host_load := os_easy_load windows (mkFsys (fun _ => false) (fun _ => ReadErr KNotFound)) c79_process (at_place c79_cwd) options_default.
Example C81_ex_host_target :
  match c81_host_load with
  | Ok c => fst (os_run_query windows (B ".exe") release c81_world c (QBuildTargetForConfig []) (state_init (ec_cx c)))
            = Ok (ATriples [mkTriple (B "x86_64-pc-windows-msvc") None])
  | _ => False
  end.
Proof. vm_compute. reflexivity. Qed.
