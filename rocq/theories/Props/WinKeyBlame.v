(** On Windows, too, names beginning with [cfg(] and invalid keys are always reported (C82). *)
From Verif.Model Require Import Base Str Path StdPath OsPaths BMap Error Value De CfgExpr Triple EasyTypes Serde Load
  Context ApplyEnv Process Resolve Easy OsLoad ErrorText.
From Verif.Spec Require Import StrSpec ConfigSpec LoadSpec EnvSpec CfgSpec CfgErrorSpec TargetSpec FinalSpec QuerySpec WinSpec
  WinLoadSpec OsTargetSpec WinTargetSpec OsQuerySpec ErrorSpec BlameSpec QueryBlameSpec.
From Verif.Proof Require Import Utf8Proof StateProof TargetProof CfgEvalProof OsTargetProof WinTargetProof OsQueryProof OsQueryBlameProof WinQueryProof WinLoadProof.
From Verif.Props Require Import WinTarget WinTools WinBlame WinPanic KeyBlame.

Theorem C82_cfg_name pr w ec q a t s :
  os_reached windows (B ".exe") pr w ec s -> target_query q a -> os_real_arg windows a -> os_to_triple windows a = Ok t ->
  is_cfg (tt_triple t) = true ->
  os_run_query windows (B ".exe") pr w ec q s
  = (Err (EOther (MText (B "'" ++ tt_triple t ++ B "' is not valid target triple"))), s).
Proof.
  intros Rs Q Ra Ht C.
  assert (R : forall s1, os_resolve_target windows (B ".exe") pr w (ec_cx ec) (ec_build ec) (ec_de_target ec) t s1
              = (Err (EOther (MText (B "'" ++ tt_triple t ++ B "' is not valid target triple"))), s1)).
  { intros s1. unfold os_resolve_target. cbv zeta. rewrite is_cfg_starts, C. reflexivity. }
  apply (target_query_fresh windows (B ".exe") pr w ec q a t); auto.
  destruct (bget (cli_target t) (s_target s)) as [x|] eqn:E; [exfalso|reflexivity].
  destruct (reached_known windows (B ".exe") _ _ _ _ Rs) as [_ K]. destruct (K _ _ E) as (t0 & s1 & s2 & r & M0 & E0 & H1 & _).
  assert (t0 = t) as -> by (apply (plain_made_unique windows); eauto using real_arg_made). rewrite R in H1. discriminate.
Qed.
Print Assumptions C82_cfg_name.

Theorem C82_key f p cwd o env l ec pr w q a t s tables pre k v post :
  win_sources f p cwd o env l -> os_easy_load windows f p (at_place cwd) o = Ok ec ->
  (forall h, win_home p o (Some h) -> snd h <> []) ->
  Forall (fun x => text_keys (c_target (snd x))) l -> overflow_checks pr = false ->
  os_reached windows (B ".exe") pr w ec s -> target_query q a -> os_real_arg windows a -> os_to_triple windows a = Ok t ->
  is_cfg (tt_triple t) = false -> first_defined (target_turn env (tt_triple t)) = None ->
  tables_of l tables -> tables = pre ++ (k, v) :: post -> valid_keys pre -> is_cfg k = true -> ~ valid_cfg k ->
  ~ has_cfg pre \/ (forall r n x, ~ failure (cfg_question r (cli_target t)) (w_run w n (cfg_question r (cli_target t))) x) ->
  exists e, fst (os_run_query windows (B ".exe") pr w ec q s) = Err (ECfgExprParse e)
  /\ unwrapped k (pe_original e) /\ explains (pe_original e) (pe_span e) (pe_reason e).
Proof.
  intros S L Home U O Rs Q Ra Ht C F Tb E V K Bad R.
  destruct (os_run_query windows (B ".exe") pr w ec q s) as [[x|e|x] s'] eqn:H; cbn [fst].
  - exfalso. destruct (C79_target f p cwd o env l ec pr w q a t s x s' S L U Rs Q Ra Ht H tables Tb) as (m & e & (out & _ & T) & _).
    destruct (T k v) as (y & roots & Y1 & Y2 & _); [rewrite E; apply in_elt | assumption |]. apply Bad. now exists y, roots.
  - destruct (problem_key _ _ _ _ _ _ _ pre k v post (C82_target f p cwd o env l ec pr w q a t s e s' S L U Q Ht H tables Tb)
                C F E V K Bad R) as (pe & -> & P). now exists pe.
  - exfalso. apply (C83_target f p cwd o env l ec pr w q a t s x S L Home U O Q Ht). now rewrite H.
Qed.
Print Assumptions C82_key.

(** A valid key and two invalid ones in a file: the first of these is reported. *)
Definition c82_tree : toml := c79_tab [
  ("target", c79_tab [("cfg(not(unix))", c79_tab []); ("cfg(unix a)", c79_tab []); ("cfg(x", c79_tab [])])]%string.
Definition c82_fs : fs :=
  mkFsys (fun p => str_eqb p (B "C:\p\a\.cargo\config.toml"))
    (fun p => if str_eqb p (B "C:\p\a\.cargo\config.toml") then ReadTree c82_tree else ReadErr KNotFound).
Definition c82_load := os_easy_load windows c82_fs c79_process (at_place c79_cwd) options_default.
Definition c82_files : LoadSpec.files := Eval vm_compute in
  match de_config c82_tree with Some c => [(B "C:\p\a\.cargo\config.toml", c)] | None => [] end.
Definition c82_tables : bmap target_config := Eval vm_compute in match c82_load with Ok ec => ec_de_target ec | _ => [] end.
Example C82_ex_sources : win_sources c82_fs c79_process c79_cwd options_default c79_env c82_files.
Proof.
  split; [place|]. split.
  - change c79_env with (cx_env (into_context c79_process options_default (at_place c79_cwd))). apply FinalProof.environment_ex. discriminate.
  - exists None, [B "C:\p\a\.cargo\config.toml"]. split; [|split].
    + apply win_home_unknown with None; [reflexivity| |left; reflexivity|reflexivity]. constructor.
      repeat (constructor; [discriminate|]). constructor.
    + replace [B "C:\p\a\.cargo\config.toml"] with (WinLoadSpec.near (fs_exists c82_fs) c79_cwd) by (vm_compute; reflexivity). constructor.
    + split; [reflexivity|]. constructor; [exists c82_tree|constructor]; split; vm_compute; reflexivity.
Qed.
Example C82_ex_key : exists ec v post, c82_load = Ok ec
  /\ tables_of c82_files c82_tables /\ Forall (fun x => text_keys (c_target (snd x))) c82_files
  /\ c82_tables = [(B "cfg(not(unix))", v)] ++ (B "cfg(unix a)", v) :: post
  /\ valid_keys [(B "cfg(not(unix))", v)] /\ is_cfg (B "cfg(unix a)") = true /\ ~ valid_cfg (B "cfg(unix a)")
  /\ (forall r n x, ~ failure (cfg_question r (B "t")) (w_run ex_keys_world n (cfg_question r (B "t"))) x)
  /\ first_defined (target_turn c79_env (B "t")) = None
  /\ (forall h, win_home c79_process options_default (Some h) -> snd h <> [])
  /\ fst (os_run_query windows (B ".exe") release ex_keys_world ec (QLinker (ArgText (B "t"))) (state_init (ec_cx ec)))
     = Err (ECfgExprParse (mkParseError (B "unix a") (5, 6) (Unexpected ["="; ","; ")"]%string))).
Proof.
  destruct c82_load as [ec| |] eqn:E; [|vm_compute in E; discriminate E..]. exists ec. eexists. eexists. split; [reflexivity|].
  split. { assert (T := win_tables _ _ _ _ _ _ _ C82_ex_sources E). replace c82_tables with (ec_de_target ec); [exact T|].
    vm_compute in E. now injection E as <-. }
  split. { constructor; [|constructor]. intros k v I. apply utf8_valid_iff. repeat (destruct I as [[= <- _]|I]; [reflexivity|]). destruct I. }
  split; [reflexivity|].
  split. { intros k v [[= <- _]|[]] _. apply (parse_ok_accepted release); reflexivity. }
  split; [reflexivity|].
  split. { intros H. apply (accepted_parse_ok release) in H; [vm_compute in H; discriminate H | reflexivity | reflexivity]. }
  split. { intros r n x F. apply ErrorProof.read_err in F. vm_compute in F. discriminate F. }
  split; [vm_compute; reflexivity|].
  split. { intros h H _. assert (X := home_spec c79_process options_default c79_cwd (Some h) (proj1 C82_ex_sources) H).
    cbn [option_map] in X. match type of X with ?l = _ => assert (Y : l = None) by (vm_compute; reflexivity) end. congruence. }
  vm_compute in E. injection E as <-. vm_compute. reflexivity.
Qed.
