(** C82: why queries fail on Windows. *)
From Verif.Model Require Import Base Str Path StdPath OsPaths BMap Error Value De CfgExpr Triple EasyTypes Serde Load
  Context ApplyEnv Process Resolve Easy OsLoad ErrorText.
From Verif.Spec Require Import StrSpec ConfigSpec LoadSpec EnvSpec CfgSpec CfgErrorSpec TargetSpec FinalSpec QuerySpec WinSpec
  WinLoadSpec OsTargetSpec WinTargetSpec OsQuerySpec ErrorSpec BlameSpec QueryBlameSpec.
From Verif.Proof Require QueryProof.
From Verif.Proof Require Import Utf8Proof LoadProof EnvProof BlameProof StateProof FinalProof CfgEvalProof WinUseProof WinLoadProof OsTargetProof WinTargetProof
  OsQueryProof OsQueryBlameProof WinQueryProof.
From Verif.Props Require WinLoad.
From Verif.Props Require Import WinTarget WinTools.

Lemma win_env f p cwd o env l ec : win_sources f p cwd o env l -> os_easy_load windows f p (at_place cwd) o = Ok ec ->
  forall n, env_get n env = env_get n (cx_env (ec_cx ec)).
Proof.
  intros S H. assert (X : exists cargo, win_cargo o env cargo).
  { destruct (o_cargo o) as [c|] eqn:E; [exists c; now constructor|].
    destruct (env_get (B "CARGO") env) as [c|] eqn:G; [exists c; now apply cargo_variable|exists (B "cargo"); now apply cargo_default]. }
  destruct X as (cargo & Hc). exact (proj2 (proj2 (proj2 (win_context _ _ _ _ _ _ _ _ S H Hc)))).
Qed.
Lemma turn_ext env env' t : (forall n, env_get n env = env_get n env') -> target_turn env t = target_turn env' t.
Proof. intros H. unfold target_turn. now rewrite !(unreadable_ext _ _ _ H). Qed.
Lemma problem_ext w env env' tables t s s' e : (forall n, env_get n env = env_get n env') ->
  target_problem w env tables t s s' e -> target_problem w env' tables t s s' e.
Proof.
  intros G. destruct 1 as [C E|name v e C E F V K|pre k v post x pe C F E1 E2 E3 E4 E5 E6 E7 E8
                          |pre k v post rustc n e C F E1 E2 E3 E4 E5 E6 E7 E8 E9]; try rewrite (turn_ext _ _ _ G) in F.
  - now apply not_a_triple.
  - rewrite G in V. now apply variable_unreadable with name v.
  - now apply key_invalid with pre k v post x.
  - now apply rustc_failed with pre k v post rustc n.
Qed.

(** ** Loading *)

(** All the ways in which loading fails: a file, or a variable. *)
Theorem C82_load f p cwd o env home ps e :
  place_ok cwd -> environment p o env -> win_home p o home -> win_visited (fs_exists f) cwd home ps ->
  os_easy_load windows f p (at_place cwd) o = Err e ->
  (exists pre file post l, ps = pre ++ file :: post /\ reads f pre l /\ same_shapes (map snd l) /\ stops_at f pre file e)
  \/ (exists l name v, reads f ps l /\ same_shapes (map snd l)
      /\ a_first_unreadable env (browser_in l) name v /\ complaint name v e).
Proof.
  intros K E Hh V H. destruct (environment_cx p o (at_place cwd) env E) as [N G].
  unfold os_easy_load in H. cbv zeta in H. change (cx_current_dir (into_context p o (at_place cwd))) with (at_place cwd) in H.
  rewrite (WinLoad.C78_files f p cwd o home ps K Hh V) in H.
  destruct (load_files f ps) as [c|e'|?] eqn:L; cbn [bind] in H; [|injection H as ->|discriminate].
  - right. apply os_unresolved_err, env_blame in H. destruct H as (n & v & F & C).
    assert (O : exists l, reads f ps l /\ same_shapes (map snd l)) by (apply load_files_ok; now rewrite L).
    destruct O as (l & R & Sh). exists l, n, v. split; [assumption|]. split; [assumption|]. split; [|assumption].
    rewrite browser_in_iff, <- (load_program f ps c l L R). destruct F as [(a & b & Ee & U & _)|(U & F & Fv)].
    + split; [|now left]. rewrite G. apply in_env_get; [assumption|]. rewrite Ee. apply in_elt.
    + split; [now rewrite G|]. right. split; [|now rewrite (in_turn_ext env _ _ G)].
      intros n' v' X. rewrite G in X. apply U. now apply env_get_in.
  - left. apply load_files_err in L. destruct L as (pre & file & post & -> & O & S). apply load_files_ok in O.
    destruct O as (l & R & Sh). now exists pre, file, post, l.
Qed.
Print Assumptions C82_load.
(** In the order of [in_turn] the first counts, as in C56. *)
Theorem C82_load_in_turn f p cwd o env l name v e :
  win_sources f p cwd o env l -> same_shapes (map snd l) ->
  (forall n' v', env_get n' env = Some v' -> ~ entry_unreadable n' v') ->
  first_defined (in_turn env (browser_in l)) = Some name -> env_get name env = Some v -> complaint name v e ->
  os_easy_load windows f p (at_place cwd) o = Err e.
Proof.
  intros (K & E & home & ps & Hh & V & R) Sh U F Gv C. destruct (environment_cx p o (at_place cwd) env E) as [N G].
  unfold os_easy_load. cbv zeta. change (cx_current_dir (into_context p o (at_place cwd))) with (at_place cwd).
  rewrite (WinLoad.C78_files f p cwd o home ps K Hh V).
  assert (O : is_ok (load_files f ps) = true) by (apply load_files_ok; now exists l).
  destruct (load_files f ps) as [c|e'|?] eqn:L; [|discriminate O|discriminate O]. cbn [bind].
  apply os_unresolved_err, env_blame. exists name, v. split; [|assumption]. right.
  rewrite (load_program f ps c l L R), <- browser_in_iff, <- (in_turn_ext env _ _ G), <- G.
  split; [|now split]. intros n' v' I. apply U. rewrite G. now apply in_env_get.
Qed.
Print Assumptions C82_load_in_turn.

(** ** Targets *)

(** All the ways in which a query about a target fails. *)
Theorem C82_target f p cwd o env l ec pr w q a t s e s' :
  win_sources f p cwd o env l -> os_easy_load windows f p (at_place cwd) o = Ok ec ->
  Forall (fun x => text_keys (c_target (snd x))) l ->
  target_query q a -> os_to_triple windows a = Ok t -> os_run_query windows (B ".exe") pr w ec q s = (Err e, s') ->
  forall tables, tables_of l tables -> target_problem w env tables t s s' e.
Proof.
  intros S H U Q Ht Hq tables Tb. assert (Tb' := win_tables _ _ _ _ _ _ _ S H).
  assert (E := tables_unique l _ _ Tb' Tb). subst tables. assert (G := win_env _ _ _ _ _ _ _ S H).
  apply (problem_ext w (cx_env (ec_cx ec))); [intros n; symmetry; apply G|].
  exact (target_err windows (B ".exe") ec pr w q a t s e s' (win_keys l U _ Tb) Q Ht Hq).
Qed.
Print Assumptions C82_target.
(** A variable that cannot be read stops every query about the target before anything is run. *)
Theorem C82_variable f p cwd o env l ec pr w q a t s name v e :
  win_sources f p cwd o env l -> os_easy_load windows f p (at_place cwd) o = Ok ec ->
  Forall (fun x => text_keys (c_target (snd x))) l ->
  os_reached windows (B ".exe") pr w ec s -> target_query q a -> os_real_arg windows a -> os_to_triple windows a = Ok t ->
  is_cfg (tt_triple t) = false ->
  first_defined (target_turn env (tt_triple t)) = Some name -> env_get name env = Some v ->
  target_complaint (tt_triple t) name v e ->
  os_run_query windows (B ".exe") pr w ec q s = (Err e, s).
Proof.
  intros S H U Rs Q Ra Ht C F V K. assert (G := win_env _ _ _ _ _ _ _ S H). rewrite (turn_ext _ _ _ G) in F. rewrite G in V.
  exact (target_variable_err windows (B ".exe") ec pr w q a t s name v e
           (win_keys l U _ (win_tables _ _ _ _ _ _ _ S H)) Rs Q Ra Ht C F V K).
Qed.
Print Assumptions C82_variable.
(** A failing rustc is reported, if the first [cfg(..)] key needs it. *)
Theorem C82_rustc f p cwd o env l ec pr w q a t s tables pre k v post r s1 e :
  win_sources f p cwd o env l -> os_easy_load windows f p (at_place cwd) o = Ok ec ->
  Forall (fun x => text_keys (c_target (snd x))) l -> overflow_checks pr = false ->
  target_query q a -> os_to_triple windows a = Ok t -> is_cfg (tt_triple t) = false ->
  target_vars_readable env (tt_triple t) ->
  tables_of l tables -> tables = pre ++ (k, v) :: post -> ~ has_cfg pre -> is_cfg k = true -> valid_cfg k ->
  bget (cli_target t) (s_target s) = None -> cfg_get (cli_target t) (s_cfg s) = None ->
  os_run_query windows (B ".exe") pr w ec QRustc s = (Ok (AProgram r), s1) ->
  failure (cfg_question r (cli_target t)) (w_run w (s_clock s1) (cfg_question r (cli_target t))) e ->
  fst (os_run_query windows (B ".exe") pr w ec q s) = Err e.
Proof.
  intros S H U O Q Ht C V Tb Eq. assert (Tb' := win_tables _ _ _ _ _ _ _ S H). assert (G := win_env _ _ _ _ _ _ _ S H).
  rewrite <- (tables_unique l _ _ Tb' Tb) in Eq.
  refine (target_rustc_err windows (B ".exe") ec pr w q a t s pre k v post r s1 e (win_keys l U _ Tb') O Q Ht C _ Eq).
  destruct V as [V1 V2]. split; intros *; rewrite <- G; eauto.
Qed.
Print Assumptions C82_rustc.

(** ** Build targets, and the queries that do not fail *)
Lemma win_triple_never s e : @os_triple windows error s None None <> Err e.
Proof.
  unfold os_triple. destruct (os_is_spec_path windows s); [|discriminate].
  destruct (std_file_stem windows s) as [n|]; [|discriminate]. destruct (to_str n); discriminate.
Qed.
Lemma win_triples_never l e : traverse (os_to_triple windows) l <> Err e.
Proof.
  induction l as [|[s|t] l IH]; [discriminate|..]; cbn [traverse os_to_triple].
  - destruct (os_triple windows s None None) as [t|e'|p] eqn:E; cbn; [|exfalso; exact (win_triple_never s e' E)|discriminate].
    destruct (traverse (os_to_triple windows) l); cbn; congruence.
  - cbn. destruct (traverse (os_to_triple windows) l); cbn; congruence.
Qed.
(** Build targets fail only as the host does, all others never. *)
Theorem C82_build_target f p cwd o env l ec pr w args s e s' :
  win_sources f p cwd o env l -> os_easy_load windows f p (at_place cwd) o = Ok ec ->
  os_run_query windows (B ".exe") pr w ec (QBuildTargetForConfig args) s = (Err e, s') ->
  args = [] /\ match words_of env l BuildTarget with Some ws => snd ws = [] | None => True end
  /\ os_run_query windows (B ".exe") pr w ec QHostTriple s = (Err e, s').
Proof.
  intros S L. assert (R := win_build_targets f p cwd o env l ec S L).
  cbn [os_run_query]. unfold mapM, os_q_build_target_for_config. rewrite !bindM_eq. unfold lift at 1.
  destruct (traverse (os_to_triple windows) args) as [ts|e'|x] eqn:E; [| |discriminate].
  - destruct ts as [|t ts]; [|discriminate].
    destruct args as [|a args];
      [|cbn in E; destruct (os_to_triple windows a); [|discriminate..]; cbn in E; destruct (traverse (os_to_triple windows) args); discriminate].
    intros H. split; [reflexivity|].
    destruct (words_of env l BuildTarget) as [ws|].
    1: destruct R as (ts & R & F); rewrite R in H; destruct ts as [|t ts]; [|discriminate]; split; [now inversion F|].
    2: rewrite R in H; split; [exact I|].
    all: rewrite bindM_eq in H;
      destruct (os_cx_host_triple windows (B ".exe") pr w (ec_cx ec) (ec_build ec) s) as [[h|e'|x] s1]; [|assumption|discriminate];
      rewrite bindM_eq in H; unfold lift in H; destruct (os_triple windows h None None) eqn:T; [discriminate| |discriminate];
      exfalso; exact (win_triple_never h _ T).
  - intros H. exfalso. exact (win_triples_never args e' E).
Qed.
Print Assumptions C82_build_target.
Theorem C82_never pr w ec q s e :
  q = QRustc \/ q = QCargo \/ (exists l, q = QBuildTargetForCli l) -> fst (os_run_query windows (B ".exe") pr w ec q s) <> Err e.
Proof.
  intros [->|[->|[l ->]]]; cbn [os_run_query]; [|discriminate..].
  destruct (rustc_ok windows (B ".exe") w ec s) as (r & s1 & H). unfold mapM. rewrite bindM_eq, H. discriminate.
Qed.
Print Assumptions C82_never.

(** ** Examples *)
Definition c82_ask (w : world) (env : list (string * str)) (q : query) : option (str * list command) :=
  match os_easy_load windows c79_fs (mkProcess (map (fun x => (B (fst x), snd x)) env) None) (at_place c79_cwd) options_default with
  | Ok ec => match os_run_query windows (B ".exe") release w ec q (state_init (ec_cx ec)) with
             | (Err e, s) => Some (error_text (fun _ => B "not found") (fun _ => []) e, s_trace s)
             | _ => None
             end
  | _ => None
  end.
Definition c82_tool (l : list string) : command :=
  match l with [] => mkCommand [] [] | p :: a => mkCommand (B p) (map B a) end.
Definition c82_cfg : command :=
  c82_tool ["C:\p\a\tools\wrap"; "D:\t\bin\rustc.exe"; "--print"; "cfg"; "--target"; "C:\p\a\t\my.json"]%string.
Definition c82_missing : world := c81_tools (NotStarted KNotFound) (NotStarted KNotFound).
Example C82_ex_targets :
  let q := QLinker (ArgText (B "C:\p\a\t\my.json")) in
  let cargo := ("CARGO"%string, B "D:\t\bin\cargo.exe") in
  c82_ask c82_missing [cargo; ("CARGO_TARGET_MY_RUNNER"%string, [Ascii.ascii_of_nat 255])] q
    = Some (B "failed to parse environment variable `CARGO_TARGET_MY_RUNNER`", [])
  /\ c82_ask c82_missing [cargo] q
    = Some (B "could not execute process `C:\p\a\tools\wrap D:\t\bin\rustc.exe --print cfg --target C:\p\a\t\my.json` (never executed)", [c82_cfg])
  /\ c82_ask c82_missing [cargo] (QLinker (ArgText (B "cfg(a)"))) = Some (B "'cfg(a)' is not valid target triple", []).
Proof. vm_compute. repeat split. Qed.
Example C82_ex_load :
  let load far env := os_easy_load windows
    (mkFsys (fs_exists c79_fs) (fun p => if str_eqb p (B "C:\p\.cargo\config") then far else fs_read c79_fs p))
    (mkProcess env None) (at_place c79_cwd) options_default in
  load (ReadErr KPermissionDenied) [(B "CARGO_BUILD_JOBS", B "x")]
    = Err (EWithContext (MText (B "failed to read `C:\p\.cargo\config`")) (Some (SIo KPermissionDenied)))
  /\ load (ReadTree (TomlTab [])) [(B "CARGO_TERM_COLOR", B "x"); (B "CARGO_BUILD_JOBS", B "x")]
    = Err (not_parsed (B "CARGO_BUILD_JOBS") SParse).
Proof. vm_compute. split; reflexivity. Qed.
Example C82_ex_in_turn :
  let p := mkProcess [(B "CARGO_BUILD_JOBS", B "x")] None in
  exists env e, win_sources c79_fs p c79_cwd options_default env c79_files /\ same_shapes (map snd c79_files)
  /\ (forall n' v', env_get n' env = Some v' -> ~ entry_unreadable n' v')
  /\ first_defined (in_turn env (browser_in c79_files)) = Some (B "CARGO_BUILD_JOBS")
  /\ env_get (B "CARGO_BUILD_JOBS") env = Some (B "x") /\ complaint (B "CARGO_BUILD_JOBS") (B "x") e.
Proof.
  exists [(B "CARGO_BUILD_JOBS", B "x")], (not_parsed (B "CARGO_BUILD_JOBS") SParse).
  destruct C79_ex_sources as (K & _ & home & ps & Hh & V & R).
  split. { split; [exact K|]. split.
    - replace [(B "CARGO_BUILD_JOBS", B "x")] with
        (cx_env (into_context (mkProcess [(B "CARGO_BUILD_JOBS", B "x")] None) options_default (at_place c79_cwd))) by (vm_compute; reflexivity).
      apply environment_ex. discriminate.
    - exists None, [B "C:\p\a\.cargo\config.toml"; B "C:\p\.cargo\config"]. split; [|split].
      + apply win_home_unknown with None; [reflexivity| |left; reflexivity|reflexivity]. constructor.
        repeat (constructor; [discriminate|]). constructor.
      + replace [B "C:\p\a\.cargo\config.toml"; B "C:\p\.cargo\config"] with (WinLoadSpec.near (fs_exists c79_fs) c79_cwd) by (vm_compute; reflexivity). constructor.
      + split; [reflexivity|]. constructor; [exists c79_near|constructor; [exists c79_far|constructor]]; split; vm_compute; reflexivity. }
  split. { assert (O : is_ok (load_files c79_fs [B "C:\p\a\.cargo\config.toml"; B "C:\p\.cargo\config"]) = true) by (vm_compute; reflexivity).
    apply load_files_ok in O as (l & R' & Sh). replace c79_files with l; [exact Sh|]. refine (reads_unique _ _ _ _ R' _).
    split; [reflexivity|]. constructor; [exists c79_near|constructor; [exists c79_far|constructor]]; split; vm_compute; reflexivity. }
  split. { intros n v. cbn [env_get]. destruct (str_eqb _ _) eqn:X; [|discriminate]. intros _ [Kk _].
    apply StrFacts.str_eqb_eq in X. subst n.
    destruct Kk as [[m H]|[[m H]|[[m H]|H]]]; discriminate H. }
  split; [vm_compute; reflexivity|]. split; [reflexivity|]. apply no_number; [reflexivity|cbn; auto 20].
Qed.
(** What the theorems ask for (the rest as in [C79_ex_meets]). *)
Example C82_ex_rustc : exists ec t v post r s1 e, c79_load = Ok ec
  /\ os_to_triple windows (ArgText (B "C:\p\a\t\my.json")) = Ok t
  /\ c79_tables = [] ++ (B "cfg(unix)", v) :: post /\ is_cfg (B "cfg(unix)") = true /\ valid_cfg (B "cfg(unix)")
  /\ bget (cli_target t) (s_target (state_init (ec_cx ec))) = None /\ cfg_get (cli_target t) (s_cfg (state_init (ec_cx ec))) = None
  /\ os_run_query windows (B ".exe") release c82_missing ec QRustc (state_init (ec_cx ec)) = (Ok (AProgram r), s1)
  /\ failure (cfg_question r (cli_target t)) (w_run c82_missing (s_clock s1) (cfg_question r (cli_target t))) e.
Proof.
  destruct c79_load as [ec| |] eqn:E; [|vm_compute in E; discriminate E..].
  vm_compute in E. injection E as <-. eexists. eexists. eexists. eexists. eexists. eexists. eexists. split; [reflexivity|]. split; [vm_compute; reflexivity|].
  split; [vm_compute; reflexivity|]. split; [reflexivity|]. split; [apply (parse_ok_accepted release); reflexivity|].
  split; [reflexivity|]. split; [reflexivity|]. split; [vm_compute; reflexivity|]. constructor.
Qed.
Example C82_ex_variable :
  let env := [(B "CARGO_TARGET_MY_RUNNER", B " "); (B "CARGO_TARGET_MY_RUSTFLAGS", [Ascii.ascii_of_nat 255])] in
  first_defined (target_turn env (B "my")) = Some (B "CARGO_TARGET_MY_RUNNER")
  /\ exists e, target_complaint (B "my") (B "CARGO_TARGET_MY_RUNNER") (B " ") e.
Proof. split; [vm_compute; reflexivity|]. eexists. apply (target_no_program (B "my")). reflexivity. Qed.
