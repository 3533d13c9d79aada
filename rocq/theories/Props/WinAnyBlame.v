(** C90: why loading and queries fail on Windows, from any directory. *)
From Verif.Model Require Import Base Str Path StdPath OsPaths BMap Error Value De CfgExpr Triple EasyTypes Serde Context ApplyEnv
  Process Walk Load Resolve Easy OsLoad ErrorText.
From Verif.Spec Require WinAnySpec.
From Verif.Spec Require Import StrSpec ConfigSpec LoadSpec EnvSpec CfgSpec CfgErrorSpec TargetSpec FinalSpec QuerySpec WinSpec WinLoadSpec
  OsTargetSpec WinTargetSpec OsQuerySpec ErrorSpec BlameSpec QueryBlameSpec WinAnyLoadSpec WinAnyTargetSpec.
From Verif.Proof Require Import LoadProof EnvProof BlameProof FinalProof CfgEvalProof OsTargetProof OsQueryProof OsQueryBlameProof
  WinTargetProof WinAnyLoadProof WinAnyTargetProof.
From Verif.Props Require Import WinBlame WinAnyTarget.

(** ** Loading *)

(** All the ways in which loading fails, and which of the variables is reported. *)
Theorem C90_load f p cwd o v r ws env :
  read_as cwd (Some v, r, ws) -> sturdy v -> environment p o env ->
  exists home ps, any_home p o (Some v, r, ws) home /\ any_visited (fs_exists f) (Some v, r, ws) home ps
    /\ (forall e, os_easy_load windows f p cwd o = Err e ->
        (exists pre file post l, ps = pre ++ file :: post /\ reads f pre l /\ same_shapes (map snd l) /\ stops_at f pre file e)
        \/ (exists l name x, reads f ps l /\ same_shapes (map snd l)
            /\ a_first_unreadable env (browser_in l) name x /\ complaint name x e))
    /\ (forall l name x e, reads f ps l -> same_shapes (map snd l) ->
        (forall n' v', env_get n' env = Some v' -> ~ entry_unreadable n' v') ->
        first_defined (in_turn env (browser_in l)) = Some name -> env_get name env = Some x -> complaint name x e ->
        os_easy_load windows f p cwd o = Err e).
Proof.
  intros H So E. set (home := os_cx_cargo_home windows p (into_context p o cwd) cwd).
  assert (V := visited_any cwd v r ws H So (fs_exists f) home). set (ps := os_walk windows (fs_exists f) cwd home) in *.
  exists home, ps. split; [exact (home_any cwd v r ws H So p o)|]. split; [exact V|].
  destruct (environment_cx p o cwd env E) as [N G].
  assert (Ld : os_easy_load windows f p cwd o = (c <- load_files f ps ;; os_from_unresolved windows c (into_context p o cwd))) by reflexivity.
  rewrite Ld. split.
  - intros e Q. destruct (load_files f ps) as [c|e'|?] eqn:L; cbn [bind] in Q; [|injection Q as ->|discriminate].
    + right. apply os_unresolved_err, env_blame in Q. destruct Q as (n & x & F & C).
      assert (O : exists l, reads f ps l /\ same_shapes (map snd l)) by (apply load_files_ok; now rewrite L).
      destruct O as (l & R & Sh). exists l, n, x. split; [assumption|]. split; [assumption|]. split; [|assumption].
      rewrite browser_in_iff, <- (load_program f ps c l L R). destruct F as [(a & b & Ee & U & _)|(U & F & Fv)].
      * split; [|now left]. rewrite G. apply in_env_get; [assumption|]. rewrite Ee. apply in_elt.
      * split; [now rewrite G|]. right. split; [|now rewrite (in_turn_ext env _ _ G)].
        intros n' v' X. rewrite G in X. apply U. now apply env_get_in.
    + left. apply load_files_err in L. destruct L as (pre & file & post & -> & O & S). apply load_files_ok in O.
      destruct O as (l & R & Sh). now exists pre, file, post, l.
  - intros l name x e R Sh U F Gv C. assert (O : is_ok (load_files f ps) = true) by (apply load_files_ok; now exists l).
    destruct (load_files f ps) as [c|e'|?] eqn:L; [|discriminate O|discriminate O]. cbn [bind].
    apply os_unresolved_err, env_blame. exists name, x. split; [|assumption]. right.
    rewrite (load_program f ps c l L R), <- browser_in_iff, <- (in_turn_ext env _ _ G), <- G.
    split; [|now split]. intros n' v' I. apply U. rewrite G. now apply in_env_get.
Qed.
Print Assumptions C90_load.

(** ** Targets *)

(** All the ways in which a query about a target fails; a variable that cannot be read stops it
    before anything is run; and a failing rustc is reported, if the first [cfg(..)] key needs it. *)
Theorem C90_target f p cwd o v r ws env ec :
  read_as cwd (Some v, r, ws) -> sturdy v -> environment p o env -> os_easy_load windows f p cwd o = Ok ec ->
  exists home ps l tables,
    any_home p o (Some v, r, ws) home /\ any_visited (fs_exists f) (Some v, r, ws) home ps /\ reads f ps l
    /\ tables_of l tables /\ (forall tables', tables_of l tables' -> tables' = tables)
    /\ (Forall (fun x => text_keys (c_target (snd x))) l ->
        forall pr w q a t s, target_query q a -> os_to_triple windows a = Ok t ->
        (forall e s', os_run_query windows (B ".exe") pr w ec q s = (Err e, s') -> target_problem w env tables t s s' e)
        /\ (forall name x e, os_reached windows (B ".exe") pr w ec s -> os_real_arg windows a ->
              is_cfg (tt_triple t) = false -> first_defined (target_turn env (tt_triple t)) = Some name ->
              env_get name env = Some x -> target_complaint (tt_triple t) name x e ->
              os_run_query windows (B ".exe") pr w ec q s = (Err e, s))
        /\ (forall pre k c post rustc s1 e, overflow_checks pr = false -> is_cfg (tt_triple t) = false ->
              target_vars_readable env (tt_triple t) ->
              tables = pre ++ (k, c) :: post -> ~ has_cfg pre -> is_cfg k = true -> valid_cfg k ->
              bget (cli_target t) (s_target s) = None -> cfg_get (cli_target t) (s_cfg s) = None ->
              os_run_query windows (B ".exe") pr w ec QRustc s = (Ok (AProgram rustc), s1) ->
              failure (cfg_question rustc (cli_target t)) (w_run w (s_clock s1) (cfg_question rustc (cli_target t))) e ->
              fst (os_run_query windows (B ".exe") pr w ec q s) = Err e)).
Proof.
  intros H So En L. set (home := os_cx_cargo_home windows p (into_context p o cwd) cwd).
  assert (V := visited_any cwd v r ws H So (fs_exists f) home). set (ps := os_walk windows (fs_exists f) cwd home) in *.
  assert (Rd : exists l, reads f ps l).
  { destruct (any_parts f p cwd o ec L) as (c & de & Hc & _ & _). unfold os_load_with_options in Hc. fold home ps in Hc.
    assert (T : is_ok (load_files f ps) = true) by (now rewrite Hc). apply load_files_ok in T as (l & R & _). eauto. }
  destruct Rd as (l & R). assert (Wk : os_walk windows (fs_exists f) cwd home = ps) by reflexivity.
  assert (T := any_tables f p cwd o env l ps ec Wk En R L).
  assert (G : forall n, env_get n env = env_get n (cx_env (ec_cx ec))).
  { intros n. rewrite (any_cx f p cwd o ec L). exact (any_env p cwd o env En n). }
  exists home, ps, l, (ec_de_target ec).
  split; [exact (home_any cwd v r ws H So p o)|]. split; [exact V|]. split; [exact R|]. split; [exact T|].
  split; [intros t' T'; now apply tables_unique with l|].
  intros U pr w q a t s Q Ht. assert (K := win_keys l U _ T). split; [|split].
  - intros e s' Hq. apply (problem_ext w (cx_env (ec_cx ec))); [intros n; symmetry; apply G|].
    exact (target_err windows (B ".exe") ec pr w q a t s e s' K Q Ht Hq).
  - intros name x e Rs Ra C F Vx Cm. rewrite (turn_ext _ _ _ G) in F. rewrite G in Vx.
    exact (target_variable_err windows (B ".exe") ec pr w q a t s name x e K Rs Q Ra Ht C F Vx Cm).
  - intros pre k c post rustc s1 e O C Vr Eq.
    refine (target_rustc_err windows (B ".exe") ec pr w q a t s pre k c post rustc s1 e K O Q Ht C _ Eq).
    destruct Vr as [V1 V2]. split; intros *; rewrite <- G; eauto.
Qed.
Print Assumptions C90_target.
