(** C88: targets and the compiler on Windows from any directory. *)
From Verif.Model Require Import Base Str Path StdPath OsPaths BMap Error Value De CfgExpr Triple EasyTypes Serde Context ApplyEnv
  Process Walk Load Resolve Easy OsLoad.
From Verif.Spec Require WinAnySpec.
From Verif.Spec Require Import StrSpec ConfigSpec LoadSpec EnvSpec CfgSpec TargetSpec FinalSpec QuerySpec WinSpec WinLoadSpec WinPanicSpec
  OsTargetSpec WinTargetSpec OsQuerySpec WinAnyLoadSpec WinAnyTargetSpec.
From Verif.Proof Require Import Utf8Proof LoadProof FinalProof CfgEvalProof StateProof OsTargetProof OsQueryProof WinTargetProof WinLoadProof WinPanicProof
  WinAnyLoadProof WinAnyTargetProof.
From Verif.Proof Require WinAnyProof.
From Verif.Props Require WinAny WinAnyLoad.
From Verif.Spec Require Import WinSpec WinAnyLoadSpec WinAnyTargetSpec.

(** From a directory in a volume, however it is written, and after any calls: the linker, the runner
    and the flags of a target; what panics; and when there is an answer. *)
Theorem C88_target f p cwd o v r ws env ec :
  read_as cwd (Some v, r, ws) -> sturdy v -> environment p o env -> os_easy_load windows f p cwd o = Ok ec ->
  exists home ps l tables,
    any_home p o (Some v, r, ws) home /\ any_visited (fs_exists f) (Some v, r, ws) home ps /\ reads f ps l
    /\ tables_of l tables /\ (forall tables', tables_of l tables' -> tables' = tables)
    /\ (Forall (fun x => text_keys (c_target (snd x))) l ->
        forall pr w q a t s,
        os_reached windows (B ".exe") pr w ec s -> target_query q a -> os_real_arg windows a -> os_to_triple windows a = Ok t ->
        let result := os_run_query windows (B ".exe") pr w ec q s in
        (forall x, (forall h, home = Some h -> grounded h) -> fst result = Ok x ->
           exists matches e, decided_by w (snd result) (cli_target t) tables matches
             /\ any_settings_of env l tables (Some v, r, ws) matches (tt_triple t) e
             /\ ~ lost_tool env tables matches (tt_triple t) /\ x = part_of q e)
        /\ (forall x, fst result = Panic x ->
           (x = POverflow /\ overflow_checks pr = true /\ crowded_key l)
           \/ x = PUnwrapNone /\ exists matches, decided_by w (snd result) (cli_target t) tables matches
                /\ lost_tool env tables matches (tt_triple t))
        /\ (overflow_checks pr = false -> is_cfg (tt_triple t) = false -> target_vars_readable env (tt_triple t) ->
            (forall k c, In (k, c) tables -> is_cfg k = true -> valid_cfg k) ->
            (has_cfg tables -> win_cfg_available pr w ec s (cli_target t)) ->
            ((exists x, fst result = Ok x) \/ fst result = Panic PUnwrapNone)
            /\ ((forall matches, ~ lost_tool env tables matches (tt_triple t)) -> exists x, fst result = Ok x))).
Proof.
  intros H So En L. set (home := os_cx_cargo_home windows p (into_context p o cwd) cwd).
  assert (V := visited_any cwd v r ws H So (fs_exists f) home). set (ps := os_walk windows (fs_exists f) cwd home) in *.
  assert (Rd : exists l, reads f ps l).
  { destruct (any_parts f p cwd o ec L) as (c & de & Hc & _ & _). unfold os_load_with_options in Hc. fold home ps in Hc.
    assert (T : is_ok (load_files f ps) = true) by (now rewrite Hc). apply load_files_ok in T as (l & R & _). eauto. }
  destruct Rd as (l & R). assert (Wk : os_walk windows (fs_exists f) cwd home = ps) by reflexivity.
  assert (T := any_tables f p cwd o env l ps ec Wk En R L). exists home, ps, l, (ec_de_target ec).
  split; [exact (home_any cwd v r ws H So p o)|]. split; [exact V|]. split; [exact R|]. split; [exact T|].
  split; [intros t' T'; now apply tables_unique with l|].
  intros U pr w q a t s Rs Q Ra Ht result. split; [|split].
  - intros x Gh E. destruct result as [y s'] eqn:Er. cbn [fst snd] in *. subst y.
    apply (any_target_final f p cwd o env l ps ec Wk En R L U pr w q a t s Rs Q Ra Ht v r ws x s' H So); [|exact Er].
    intros y. exact (visited_grounded _ v r ws home ps y So V Gh).
  - exact (any_target_panic f p cwd o env l ps ec Wk En R L U pr w q a t s Rs Q Ra Ht).
  - intros O C Vr K Av.
    assert (Pk : forall k c, In (k, c) (ec_de_target ec) -> is_cfg k = true -> is_ok (parse_expr pr k) = true).
    { intros k c I Ck. apply accepted_parse_ok; [|assumption|exact (K k c I Ck)]. exact (win_keys l U _ T k c I). }
    split.
    { destruct (any_target_settled f p cwd o env l ps ec Wk En R L U pr w q a t s Q Ht C Vr Pk Av) as (y & s' & E & D).
      unfold result. rewrite E. exact D. }
    intros N.
    destruct (any_target_success f p cwd o env l ps ec Wk En R L U pr w q a t s Q Ht C Vr Pk Av N) as (x & s' & E).
    exists x. unfold result. now rewrite E.
Qed.
Print Assumptions C88_target.

(** ** The compiler, for any text of cargo *)
Theorem C88_rustc f p cwd o env cargo ec pr w s :
  any_loaded f p cwd o env cargo ec -> os_reached windows (B ".exe") pr w ec s ->
  exists r s', os_run_query windows (B ".exe") pr w ec QRustc s = (Ok (AProgram r), s')
  /\ (o_rustc o = Some r
      \/ exists n c, n <= s_clock s' /\ any_compiler (ec_build ec) cargo (w_exists w n) c /\ with_wrappers (ec_build ec) c r).
Proof.
  intros A Rs. destruct (rustc_answer windows (B ".exe") pr w ec s Rs) as (r & s' & Q & Kn & Er).
  exists r, s'. split; [exact Q|]. destruct (any_context _ _ _ _ _ _ _ A) as (E1 & E2 & _). destruct (Kn r Er) as [I|(n & Le & E)].
  - left. rewrite <- E2. exact I.
  - right. exists n, (os_compiler windows (B ".exe") w ec n). split; [exact Le|]. split.
    + rewrite <- E1. apply any_compiler_is. rewrite E1. apply A.
    + subst r. unfold with_wrappers, opt_list.
      destruct (eb_rustc_wrapper (ec_build ec)), (eb_rustc_workspace_wrapper (ec_build ec)); reflexivity.
Qed.
Print Assumptions C88_rustc.
(** Every program that is run is one of three. *)
Theorem C88_programs f p cwd o env cargo ec pr w s cmd :
  any_loaded f p cwd o env cargo ec -> os_reached windows (B ".exe") pr w ec s -> In cmd (s_trace s) ->
  cmd = asked_cargo cargo
  \/ asked_rustc (any_found w (ec_build ec) cargo) (ec_build ec) (s_clock s) cmd
  \/ exists rustc T, cmd = cfg_question rustc T
     /\ (o_rustc o = Some rustc
         \/ (o_rustc o = None /\ wrapped_rustc (any_found w (ec_build ec) cargo) (ec_build ec) (s_clock s) rustc)).
Proof.
  intros A Rs I. assert (T := any_told _ _ _ _ _ _ _ w A pr s Rs). destruct (any_context _ _ _ _ _ _ _ A) as (E1 & E2 & _).
  destruct (told_trace _ _ _ s T cmd I) as [K|[K|(r & t & K & E)]].
  - left. now rewrite <- E1.
  - right. now left.
  - right. right. exists r, t. split; [exact E|]. rewrite <- E2. exact (told_rustc _ _ _ s T r K).
Qed.
Print Assumptions C88_programs.
Theorem C88_rustc_version f p cwd o env cargo ec pr w s v s' :
  any_loaded f p cwd o env cargo ec -> os_reached windows (B ".exe") pr w ec s ->
  os_run_query windows (B ".exe") pr w ec QRustcVersion s = (Ok (ARustcVersion v), s') ->
  rustc_said (any_found w (ec_build ec) cargo) w (ec_build ec) s' v.
Proof.
  intros A Rs Q. assert (T := any_told _ _ _ _ _ _ _ w A pr s Rs).
  destruct (rv_told_result windows (B ".exe") pr w ec _ (any_mono cargo ec w) (any_now _ _ _ _ _ _ _ w A) s T) as [T' K].
  cbn [os_run_query] in Q. unfold mapM in Q. apply bindM_ok in Q as (x & s1 & Q & E). injection E as -> <-.
  rewrite Q in T', K. exact (told_rv _ _ _ _ T' v K).
Qed.
Print Assumptions C88_rustc_version.
Theorem C88_host f p cwd o env cargo ec pr w s h s' :
  any_loaded f p cwd o env cargo ec -> os_reached windows (B ".exe") pr w ec s ->
  os_run_query windows (B ".exe") pr w ec QHostTriple s = (Ok (AStr h), s') ->
  host_said (any_found w (ec_build ec) cargo) w (ec_build ec) cargo (o_host_triple o) s' h.
Proof.
  intros A Rs Q. assert (T := any_told _ _ _ _ _ _ _ w A pr s Rs). destruct (any_context _ _ _ _ _ _ _ A) as (E1 & E2 & E3).
  destruct (host_told_result windows (B ".exe") pr w ec _ (any_mono cargo ec w) (any_now _ _ _ _ _ _ _ w A) s T) as (T' & _ & K).
  cbn [os_run_query] in Q. unfold mapM in Q. apply bindM_ok in Q as (x & s1 & Q & E). injection E as -> <-.
  rewrite Q in T', K. rewrite <- E1, <- E3. rewrite <- E1 in T'. exact (told_host _ _ _ _ T' h K).
Qed.
Print Assumptions C88_host.

(** ** Examples *)
Definition c88_near : toml :=
  TomlTab [(B "target", TomlTab [(B "t", TomlTab [(B "linker", TomlStr (B "bin/ld"))]);
                                 (B "cfg(windows)", TomlTab [(B "rustflags", TomlStr (B "-w -x"))])])].
Definition c88_home : toml := TomlTab [(B "target", TomlTab [(B "u", TomlTab [(B "runner", TomlStr (B "./run -q"))])])].
Definition c88_fs : fs :=
  mkFsys (fun a => existsb (std_eqb windows a) [B "C:\p\.cargo\config"; B "\\s\h\config.toml"])
         (fun a => if std_eqb windows a (B "C:\p\.cargo\config") then ReadTree c88_near
                   else if std_eqb windows a (B "\\s\h\config.toml") then ReadTree c88_home else ReadErr KNotFound).
Definition c88_process : process_env :=
  mkProcess [(B "CARGO_HOME", B "//s/h"); (B "CARGO", B "d:/t//bin\cargo.exe"); (B "CARGO_TARGET_T_RUNNER", B "..\r")] None.
Definition c88_cwd : str := B "c:/p//a\.".
Definition c88_loaded := os_easy_load windows c88_fs c88_process c88_cwd options_default.
Definition c88_world : world := mkWorld (fun _ a => std_eqb windows a (B "D:\t\bin\rustc.exe"))
  (fun _ _ => Exited true (B "0") (B "windows" ++ ["010"%char]) []).
Definition c88_ask (q : query) := match c88_loaded with
  | Ok ec => fst (os_run_query windows (B ".exe") release c88_world ec q (state_init (ec_cx ec))) | _ => Err (EIo KNotFound) end.
Ltac read := WinAnyLoad.read.
Example C88_ex_asked :
  c88_ask (QLinker (ArgText (B "t"))) = Ok (APath (Some (B "c:/p\bin/ld")))
  /\ c88_ask (QRunner (ArgText (B "t"))) = Ok (APa (Some (mkEpa (B "c:/p//a\.\..\r") [])))
  /\ c88_ask (QRustflags (ArgText (B "t"))) = Ok (AFlags (Some (mkEflags [B "-w"; B "-x"])))
  /\ c88_ask QRustc = Ok (AProgram (mkEpa (B "d:/t//bin\rustc.exe") []))
  /\ c88_ask (QRunner (ArgText (B "u"))) = Panic PUnwrapNone.
Proof. repeat (split; [vm_compute; reflexivity|]). vm_compute. reflexivity. Qed.
(** All that the theorems ask for. *)
Definition c88_env : env_map := Eval vm_compute in cx_env (into_context c88_process options_default c88_cwd).
Lemma c88_read : read_as c88_cwd (Some (WinAnySpec.AtDrive "C"), true, [B "p"; B "a"]).
Proof. change [B "p"; B "a"] with (WinSpec.pieces (B "/p//a\.")). read. Qed.
Lemma c88_environment : environment c88_process options_default c88_env.
Proof. change c88_env with (cx_env (into_context c88_process options_default c88_cwd)). apply environment_ex. discriminate. Qed.
Example C88_ex_meets : exists ec,
  read_as c88_cwd (Some (WinAnySpec.AtDrive "C"), true, [B "p"; B "a"]) /\ sturdy (WinAnySpec.AtDrive "C")
  /\ environment c88_process options_default c88_env /\ c88_loaded = Ok ec
  /\ (forall h, any_home c88_process options_default (Some (WinAnySpec.AtDrive "C"), true, [B "p"; B "a"]) (Some h) -> grounded h)
  /\ any_loaded c88_fs c88_process c88_cwd options_default c88_env (B "d:/t//bin\cargo.exe") ec
  /\ any_compiler (ec_build ec) (B "d:/t//bin\cargo.exe") (w_exists c88_world 0) (B "d:/t//bin\rustc.exe").
Proof.
  destruct c88_loaded as [ec| |] eqn:Eq; [|vm_compute in Eq; discriminate Eq..]. exists ec.
  assert (Bo : eb_rustc (ec_build ec) = None) by (vm_compute in Eq; injection Eq as <-; reflexivity).
  assert (C : read_as (B "d:/t//bin\cargo.exe") (Some (WinAnySpec.AtDrive "D"), true, WinSpec.pieces (B "/t//bin\cargo.exe"))) by read.
  split; [exact c88_read|]. split; [repeat split; discriminate|]. split; [exact c88_environment|]. split; [reflexivity|]. split; [|split].
  - assert (V : variable_is (p_vars c88_process) (B "CARGO_HOME") (Some (B "//s/h"))).
    { apply variable_set with (before := []) (n := B "CARGO_HOME")
        (after := [(B "CARGO", B "d:/t//bin\cargo.exe"); (B "CARGO_TARGET_T_RUNNER", B "..\r")]); [reflexivity|reflexivity|constructor]. }
    assert (Vu : forall x, variable_is (p_vars c88_process) (B "CARGO_HOME") x -> x = Some (B "//s/h")).
    { intros x X. apply var_spec in X, V. congruence. }
    assert (Rh : read_as (B "//s/h") (Some (WinAnySpec.AtShare (B "s") (B "h")), true, WinSpec.pieces [])) by read.
    intros h H. inversion H as [|? E'|s x E' Vs Ns Lc|d m x var E' Vs Em D R S|]; subst.
    + discriminate E'.
    + apply Vu in Vs. injection Vs as ->. destruct (located_unique _ (B "//s/h") h (B "//s/h") Lc) as (m & M & M').
      { now apply located_volume with (WinAnySpec.AtShare (B "s") (B "h")) true (WinSpec.pieces []). }
      assert (Em := read_unique _ _ _ Rh M'). subst m. do 3 eexists. split; [exact M|]. repeat split; discriminate.
    + apply Vu in Vs. subst var. destruct Em; discriminate.
  - split; [exact c88_environment|]. split; [exact Eq|]. split; [apply cargo_variable; reflexivity|].
    intros _ m M. rewrite (read_unique _ _ _ M C). repeat split; discriminate.
  - eapply any_compiler_beside; [exact Bo|exact C| |vm_compute; reflexivity].
    change (beside _) with (Some (WinAnySpec.AtDrive "D"), true, WinSpec.pieces (B "/t//bin\rustc.exe")). read.
Qed.
(** A runner in a file of which there is no directory above. *)
Example C88_ex_lost : lost (mkValue (B "./run") (Some (DefPath (B "//s/h\config.toml")))).
Proof.
  split; [|split].
  - apply baseless_file with (Some (WinAnySpec.AtShare (B "s") (B "h")), true, WinSpec.pieces (B "\config.toml")); [read|cbn; lia].
  - intros X. apply path_absolute in X. discriminate X.
  - exists "/"%char. split; [cbn; auto|]. right. reflexivity.
Qed.
