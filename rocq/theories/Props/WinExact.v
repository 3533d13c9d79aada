(** C89: cargo and rustc on Windows to the letter, from any directory and for any text of cargo. *)
From Verif.Model Require Import Base Str Path StdPath OsPaths BMap Error Value De CfgExpr Triple EasyTypes Serde Load
  Context ApplyEnv Process Resolve Easy OsLoad.
From Verif.Spec Require WinAnySpec WinJoinSpec WinParentSpec.
From Verif.Spec Require Import StrSpec ConfigSpec LoadSpec EnvSpec CfgSpec TargetSpec FinalSpec QuerySpec WinSpec WinLoadSpec
  OsTargetSpec WinTargetSpec OsQuerySpec CfgErrorSpec ErrorSpec BlameSpec QueryBlameSpec WinAnyLoadSpec WinAnyTargetSpec WinExactSpec.
From Verif.Proof Require QueryProof.
From Verif.Proof Require Import StateProof VersionProof WinLoadProof OsTargetProof WinTargetProof OsQueryProof
  OsQueryBlameProof WinQueryProof WinExactProof.
From Verif.Proof Require WinParentProof WinJoinProof WinAnyProof.
From Verif.Props Require WinAnyTarget WinAnyTools.

(** There is one compiler at any moment. *)
Theorem C89_compiler b cargo there : exists p, exact_compiler b cargo there p /\ forall p', exact_compiler b cargo there p' -> p' = p.
Proof. exact (exact_one b cargo there). Qed.
Print Assumptions C89_compiler.
(** It is where C88 has it. *)
Theorem C89_beside b cargo there x : (forall m, read_as cargo m -> WinAnySpec.solid cargo (fst (fst m))) ->
  exact_compiler b cargo there x -> any_compiler b cargo there x.
Proof. intros H. apply exact_any. auto. Qed.
Print Assumptions C89_beside.
Theorem C89_rustc f p cwd o cargo ec pr w s :
  cargo_of f p cwd o cargo ec -> os_reached windows (B ".exe") pr w ec s ->
  exists r s', os_run_query windows (B ".exe") pr w ec QRustc s = (Ok (AProgram r), s')
  /\ (o_rustc o = Some r
      \/ exists n c, n <= s_clock s' /\ exact_compiler (ec_build ec) cargo (w_exists w n) c /\ with_wrappers (ec_build ec) c r).
Proof.
  intros L Rs. destruct (rustc_answer windows (B ".exe") pr w ec s Rs) as (r & s' & Q & Kn & Er).
  exists r, s'. split; [exact Q|]. destruct (exact_context _ _ _ _ _ _ L) as (E1 & E2 & _). destruct (Kn r Er) as [I|(n & Le & E)].
  - left. rewrite <- E2. exact I.
  - right. exists n, (os_compiler windows (B ".exe") w ec n). split; [exact Le|]. split.
    + rewrite <- E1. now apply exact_iff.
    + subst r. unfold with_wrappers, opt_list.
      destruct (eb_rustc_wrapper (ec_build ec)), (eb_rustc_workspace_wrapper (ec_build ec)); reflexivity.
Qed.
Print Assumptions C89_rustc.

(** ** Where the answers come from *)
(** Every program that is run is one of three. *)
Theorem C89_programs f p cwd o cargo ec pr w s cmd :
  cargo_of f p cwd o cargo ec -> os_reached windows (B ".exe") pr w ec s -> In cmd (s_trace s) ->
  cmd = asked_cargo cargo
  \/ asked_rustc (exact_found w (ec_build ec) cargo) (ec_build ec) (s_clock s) cmd
  \/ exists rustc T, cmd = cfg_question rustc T
     /\ (o_rustc o = Some rustc
         \/ (o_rustc o = None /\ wrapped_rustc (exact_found w (ec_build ec) cargo) (ec_build ec) (s_clock s) rustc)).
Proof.
  intros L Rs I. assert (T := exact_told f p cwd o cargo ec w L pr s Rs).
  destruct (exact_context _ _ _ _ _ _ L) as (E1 & E2 & _).
  destruct (told_trace _ _ _ s T cmd I) as [K|[K|(r & t & K & E)]].
  - left. now rewrite <- E1.
  - right. now left.
  - right. right. exists r, t. split; [exact E|]. rewrite <- E2. exact (told_rustc _ _ _ s T r K).
Qed.
Print Assumptions C89_programs.
Theorem C89_rustc_version f p cwd o cargo ec pr w s v s' :
  cargo_of f p cwd o cargo ec -> os_reached windows (B ".exe") pr w ec s ->
  os_run_query windows (B ".exe") pr w ec QRustcVersion s = (Ok (ARustcVersion v), s') ->
  rustc_said (exact_found w (ec_build ec) cargo) w (ec_build ec) s' v.
Proof.
  intros L Rs Q. assert (T := exact_told f p cwd o cargo ec w L pr s Rs).
  destruct (exact_context _ _ _ _ _ _ L) as (E1 & _).
  destruct (rv_told_result windows (B ".exe") pr w ec _ (exact_mono cargo ec w) (exact_now f p cwd o cargo ec w L) s T) as [T' K].
  cbn [os_run_query] in Q. unfold mapM in Q. apply bindM_ok in Q as (x & s1 & Q & E). injection E as -> <-.
  rewrite Q in T', K. exact (told_rv _ _ _ _ T' v K).
Qed.
Print Assumptions C89_rustc_version.
Theorem C89_cargo_version f p cwd o cargo ec pr w s v s' :
  cargo_of f p cwd o cargo ec -> os_reached windows (B ".exe") pr w ec s ->
  os_run_query windows (B ".exe") pr w ec QCargoVersion s = (Ok (ACargoVersion v), s') ->
  cargo_said w cargo s' v.
Proof.
  intros L Rs Q. assert (T := exact_told f p cwd o cargo ec w L pr s Rs).
  destruct (exact_context _ _ _ _ _ _ L) as (E1 & _).
  destruct (cv_told_result windows (B ".exe") pr w ec _ (exact_mono cargo ec w) (exact_now f p cwd o cargo ec w L) s T) as [T' K].
  cbn [os_run_query] in Q. unfold mapM in Q. apply bindM_ok in Q as (x & s1 & Q & E). injection E as -> <-.
  rewrite Q in T', K. rewrite <- E1. exact (told_cv _ _ _ _ T' v K).
Qed.
Print Assumptions C89_cargo_version.
Theorem C89_host f p cwd o cargo ec pr w s h s' :
  cargo_of f p cwd o cargo ec -> os_reached windows (B ".exe") pr w ec s ->
  os_run_query windows (B ".exe") pr w ec QHostTriple s = (Ok (AStr h), s') ->
  host_said (exact_found w (ec_build ec) cargo) w (ec_build ec) cargo (o_host_triple o) s' h.
Proof.
  intros L Rs Q. assert (T := exact_told f p cwd o cargo ec w L pr s Rs).
  destruct (exact_context _ _ _ _ _ _ L) as (E1 & E2 & E3).
  destruct (host_told_result windows (B ".exe") pr w ec _ (exact_mono cargo ec w) (exact_now f p cwd o cargo ec w L) s T) as (T' & _ & K).
  cbn [os_run_query] in Q. unfold mapM in Q. apply bindM_ok in Q as (x & s1 & Q & E). injection E as -> <-.
  rewrite Q in T', K. rewrite <- E1, <- E3. rewrite <- E1 in T'. exact (told_host _ _ _ _ T' h K).
Qed.
Print Assumptions C89_host.

(** ** Tools that do not change: exactly what they say *)
Theorem C89_rustc_always f p cwd o cargo ec pr w s v :
  cargo_of f p cwd o cargo ec -> os_reached windows (B ".exe") pr w ec s ->
  steady w -> debug_assertions pr = false ->
  fst (os_run_query windows (B ".exe") pr w ec QRustcVersion s) = Ok (ARustcVersion v)
  <-> exists cmd out, asked_rustc (exact_found w (ec_build ec) cargo) (ec_build ec) 0 cmd /\ prints w cmd out /\ says_rustc out v.
Proof.
  intros L Rs St D. assert (T := exact_told f p cwd o cargo ec w L pr s Rs).
  destruct (exact_context _ _ _ _ _ _ L) as (E & _).
  exact (rustc_always _ _ pr w ec _ (exact_mono cargo ec w) (exact_now f p cwd o cargo ec w L) St (exact_only f p cwd o cargo ec w L) D s v T).
Qed.
Print Assumptions C89_rustc_always.
Theorem C89_cargo_always f p cwd o cargo ec pr w s v :
  cargo_of f p cwd o cargo ec -> os_reached windows (B ".exe") pr w ec s ->
  steady w -> debug_assertions pr = false ->
  fst (os_run_query windows (B ".exe") pr w ec QCargoVersion s) = Ok (ACargoVersion v)
  <-> exists out, prints w (asked_cargo cargo) out /\ says_cargo out v.
Proof.
  intros L Rs St D. assert (T := exact_told f p cwd o cargo ec w L pr s Rs).
  destruct (exact_context _ _ _ _ _ _ L) as (E & _).
  rewrite (cargo_always _ _ pr w ec _ (exact_mono cargo ec w) (exact_now f p cwd o cargo ec w L) St (exact_only f p cwd o cargo ec w L) D s v T).
  now rewrite E.
Qed.
Print Assumptions C89_cargo_always.
Theorem C89_host_always f p cwd o cargo ec pr w s h :
  cargo_of f p cwd o cargo ec -> os_reached windows (B ".exe") pr w ec s ->
  steady w -> debug_assertions pr = false ->
  fst (os_run_query windows (B ".exe") pr w ec QHostTriple s) = Ok (AStr h)
  <-> steady_host (exact_found w (ec_build ec) cargo) w (ec_build ec) cargo (o_host_triple o) h.
Proof.
  intros L Rs St D. assert (T := exact_told f p cwd o cargo ec w L pr s Rs).
  destruct (exact_context _ _ _ _ _ _ L) as (E & _ & E3).
  rewrite (host_always _ _ pr w ec _ (exact_now f p cwd o cargo ec w L) St (exact_only f p cwd o cargo ec w L) D s h T).
  now rewrite E, E3.
Qed.
Print Assumptions C89_host_always.
(** The calls before do not matter, but for the assertion below. *)
Theorem C89_as_new f p cwd o cargo ec pr w s q :
  cargo_of f p cwd o cargo ec -> os_reached windows (B ".exe") pr w ec s ->
  steady w -> os_real_query windows q ->
  fst (os_run_query windows (B ".exe") pr w ec q s) = fst (os_run_query windows (B ".exe") pr w ec q (state_init (ec_cx ec)))
  \/ (debug_assertions pr = true /\ fst (os_run_query windows (B ".exe") pr w ec q s) = Panic PDebugAssert).
Proof.
  intros L Rs St R. destruct (exact_context _ _ _ _ _ _ L) as (E & _).
  apply (query_as_new windows (B ".exe") pr w ec _ (exact_mono cargo ec w) (exact_now f p cwd o cargo ec w L) St (exact_only f p cwd o cargo ec w L) q s R).
  exact (reached_full windows (B ".exe") pr w ec _ (exact_mono cargo ec w) (exact_now f p cwd o cargo ec w L) s Rs).
Qed.
Print Assumptions C89_as_new.
Theorem C89_target_as_new f p cwd o cargo ec pr w s q a :
  cargo_of f p cwd o cargo ec -> os_reached windows (B ".exe") pr w ec s ->
  steady w -> target_query q a -> os_real_arg windows a ->
  fst (os_run_query windows (B ".exe") pr w ec q s) = fst (os_run_query windows (B ".exe") pr w ec q (state_init (ec_cx ec))).
Proof.
  intros L Rs St Q R. destruct (exact_context _ _ _ _ _ _ L) as (E & _).
  apply (target_query_value windows (B ".exe") pr w ec _ (exact_mono cargo ec w) (exact_now f p cwd o cargo ec w L) St (exact_only f p cwd o cargo ec w L) q a);
    auto; apply (reached_full windows (B ".exe") pr w ec _ (exact_mono cargo ec w) (exact_now f p cwd o cargo ec w L)); [exact Rs|].
  exists []. now split.
Qed.
Print Assumptions C89_target_as_new.

(** ** Panics *)
(** The only way to a panic, in builds with assertions: the host is not known, but a version is. *)
Theorem C89_panic f p cwd o cargo ec pr w s q x :
  cargo_of f p cwd o cargo ec -> os_reached windows (B ".exe") pr w ec s ->
  version_query q -> fst (os_run_query windows (B ".exe") pr w ec q s) = Panic x ->
  x = PDebugAssert /\ debug_assertions pr = true /\ s_host s = None
  /\ (s_cargo_version s <> None \/ s_rustc_version s <> None).
Proof.
  intros L Rs Q. assert (T := exact_told f p cwd o cargo ec w L pr s Rs).
  destruct (exact_context _ _ _ _ _ _ L) as (E & _).
  exact (version_panic windows (B ".exe") pr w ec _ (exact_mono cargo ec w) (exact_now f p cwd o cargo ec w L) q s x T Q).
Qed.
Print Assumptions C89_panic.
(** None if the tools do not change and tell the host where they tell a version. *)
Theorem C89_no_panic f p cwd o cargo ec pr w s q x :
  cargo_of f p cwd o cargo ec -> os_reached windows (B ".exe") pr w ec s ->
  steady w -> tell_all (exact_found w (ec_build ec) cargo) w (ec_build ec) cargo ->
  version_query q -> fst (os_run_query windows (B ".exe") pr w ec q s) <> Panic x.
Proof.
  intros L Rs St A Q K. destruct (C89_panic _ _ _ _ _ _ _ _ _ _ _ L Rs Q K) as (_ & _ & N & V).
  destruct (exact_context _ _ _ _ _ _ L) as (E & _). rewrite <- E in A at 2.
  destruct (reached_quiet windows (B ".exe") pr w ec _ (exact_mono cargo ec w) (exact_now f p cwd o cargo ec w L) St (exact_only f p cwd o cargo ec w L) A s Rs N)
    as [V1 V2].
  destruct V; congruence.
Qed.
Print Assumptions C89_no_panic.

(** ** Why the tools tell nothing *)
Theorem C89_host_error f p cwd o cargo ec pr w s e s' :
  cargo_of f p cwd o cargo ec -> os_reached windows (B ".exe") pr w ec s ->
  os_run_query windows (B ".exe") pr w ec QHostTriple s = (Err e, s') ->
  o_host_triple o = None /\ exists e' n cmd, s_clock s < n
  /\ tool_problem w (tells_host tells_cargo) (asked_cargo cargo) (s_clock s) e'
  /\ asked_rustc (exact_found w (ec_build ec) cargo) (ec_build ec) n cmd /\ tool_problem w (tells_host tells_rustc) cmd n e
  /\ s_clock s' = S n /\ s_trace s' = cmd :: asked_cargo cargo :: s_trace s.
Proof.
  intros L Rs Q. assert (T := exact_told f p cwd o cargo ec w L pr s Rs).
  destruct (exact_context _ _ _ _ _ _ L) as (E & _ & E3).
  cbn [os_run_query] in Q. unfold mapM in Q. rewrite bindM_eq in Q.
  destruct (os_cx_host_triple windows (B ".exe") pr w (ec_cx ec) (ec_build ec) s) as [[h|e'|x] s1] eqn:G; [discriminate| |discriminate].
  injection Q as <- <-.
  destruct (host_query_err windows (B ".exe") pr w ec _ (exact_mono cargo ec w) (exact_now f p cwd o cargo ec w L) s e' s1 T G)
    as (N & m & e2 & n & cmd & -> & R).
  split; [rewrite <- E3; exact (OsQueryProof.told_no_host _ _ _ s T N)|]. exists e2, n, cmd. rewrite E in R. exact R.
Qed.
Print Assumptions C89_host_error.
Theorem C89_rustc_version_error f p cwd o cargo ec pr w s e s' :
  cargo_of f p cwd o cargo ec -> os_reached windows (B ".exe") pr w ec s ->
  os_run_query windows (B ".exe") pr w ec QRustcVersion s = (Err e, s') ->
  exists n cmd, s_clock s <= n /\ asked_rustc (exact_found w (ec_build ec) cargo) (ec_build ec) n cmd
  /\ tool_problem w tells_rustc cmd n e /\ s_clock s' = S n /\ exists before, s_trace s' = cmd :: before.
Proof.
  intros L Rs Q. assert (T := exact_told f p cwd o cargo ec w L pr s Rs).
  destruct (exact_context _ _ _ _ _ _ L) as (E & _).
  cbn [os_run_query] in Q. unfold mapM in Q. rewrite bindM_eq in Q.
  destruct (os_cx_rustc_version windows (B ".exe") pr w (ec_cx ec) (ec_build ec) s) as [[h|e'|x] s1] eqn:G; [discriminate| |discriminate].
  injection Q as <- <-.
  exact (proj2 (rustc_version_query_err windows (B ".exe") pr w ec _ (exact_mono cargo ec w) (exact_now f p cwd o cargo ec w L) s e' s1 T G)).
Qed.
Print Assumptions C89_rustc_version_error.
Theorem C89_cargo_version_error f p cwd o cargo ec pr w s e s' :
  cargo_of f p cwd o cargo ec -> os_reached windows (B ".exe") pr w ec s ->
  os_run_query windows (B ".exe") pr w ec QCargoVersion s = (Err e, s') ->
  exists n, s_clock s <= n /\ tool_problem w tells_cargo (asked_cargo cargo) n e
  /\ s_clock s' = S n /\ exists before, s_trace s' = asked_cargo cargo :: before.
Proof.
  intros L Rs Q. assert (T := exact_told f p cwd o cargo ec w L pr s Rs).
  destruct (exact_context _ _ _ _ _ _ L) as (E & _).
  cbn [os_run_query] in Q. unfold mapM in Q. rewrite bindM_eq in Q.
  destruct (os_cx_cargo_version windows (B ".exe") pr w (ec_cx ec) (ec_build ec) s) as [[h|e'|x] s1] eqn:G; [discriminate| |discriminate].
  injection Q as <- <-.
  assert (X := cargo_version_query_err windows (B ".exe") pr w ec _ (exact_mono cargo ec w) (exact_now f p cwd o cargo ec w L) s e' s1 T G).
  rewrite E in X. exact (proj2 X).
Qed.
Print Assumptions C89_cargo_version_error.

(** ** Examples *)
(** Two texts of cargo to which C88 does not apply, and one to which it does. *)
Definition c89_build : ebuild := mkEbuild None None None None None None None None None None None false None false None.
Definition c89_compiler (cargo : str) (there : list str) : str -> Prop :=
  exact_compiler c89_build cargo (fun x => existsb (str_eqb x) there).
Example C89_ex_compiler :
  c89_compiler (B "d:/t//bin\cargo.exe") [B "d:/t//bin\rustc.exe"] (B "d:/t//bin\rustc.exe")
  /\ c89_compiler (B "d:/t//bin\cargo.exe") [B "d:\t\bin\rustc.exe"] (B "rustc")
  /\ c89_compiler (B "//cargo.exe") [B "/rustc.exe"] (B "/rustc.exe")
  /\ c89_compiler (B "\\.\") [B "\\.\rustc.exe"] (B "\\.\rustc.exe")
  /\ c89_compiler (B "cargo") [B "rustc.exe"] (B "rustc.exe").
Proof.
  assert (G : forall cargo d x, std_pop windows cargo = d -> std_join windows d (B "rustc.exe") = x ->
    folder cargo d /\ WinJoinSpec.joined d (B "rustc.exe") x).
  { intros cargo d x D J. split; [now apply folder_iff|now apply join_iff]. }
  split; [|split; [|split; [|split]]].
  - destruct (G (B "d:/t//bin\cargo.exe") (B "d:/t//bin") (B "d:/t//bin\rustc.exe") ltac:(vm_compute; reflexivity) ltac:(vm_compute; reflexivity)) as [F J].
    apply (exact_beside _ _ _ _ _ (eq_refl : eb_rustc c89_build = None) F J). vm_compute. reflexivity.
  - destruct (G (B "d:/t//bin\cargo.exe") (B "d:/t//bin") (B "d:/t//bin\rustc.exe") ltac:(vm_compute; reflexivity) ltac:(vm_compute; reflexivity)) as [F J].
    apply (exact_name _ _ _ _ _ (eq_refl : eb_rustc c89_build = None) F J). vm_compute. reflexivity.
  - destruct (G (B "//cargo.exe") (B "/") (B "/rustc.exe") ltac:(vm_compute; reflexivity) ltac:(vm_compute; reflexivity)) as [F J].
    apply (exact_beside _ _ _ _ _ (eq_refl : eb_rustc c89_build = None) F J). vm_compute. reflexivity.
  - destruct (G (B "\\.\") (B "\\.\") (B "\\.\rustc.exe") ltac:(vm_compute; reflexivity) ltac:(vm_compute; reflexivity)) as [F J].
    apply (exact_beside _ _ _ _ _ (eq_refl : eb_rustc c89_build = None) F J). vm_compute. reflexivity.
  - destruct (G (B "cargo") [] (B "rustc.exe") ltac:(vm_compute; reflexivity) ltac:(vm_compute; reflexivity)) as [F J].
    apply (exact_beside _ _ _ _ _ (eq_refl : eb_rustc c89_build = None) F J). vm_compute. reflexivity.
Qed.
(** The configuration of [C88_ex_meets]: all that the theorems ask for, and what is told. *)
Example C89_ex_meets : exists ec,
  cargo_of WinAnyTarget.c88_fs WinAnyTarget.c88_process WinAnyTarget.c88_cwd options_default (B "d:/t//bin\cargo.exe") ec
  /\ os_reached windows (B ".exe") release WinAnyTools.c88_talks ec (state_init (ec_cx ec)) /\ steady WinAnyTools.c88_talks.
Proof.
  destruct WinAnyTarget.C88_ex_meets as (ec & _ & _ & En & L & _ & (_ & _ & Hc & _) & _). exists ec. split; [|split].
  - split; [exact L|]. exists WinAnyTarget.c88_env. exact (conj En Hc).
  - exists []. split; [constructor|reflexivity].
  - split; reflexivity.
Qed.
