(** C79: targets and the compiler on Windows. *)
From Verif.Model Require Import Base Str Path StdPath OsPaths BMap Error Value De CfgExpr Triple EasyTypes Serde Load
  Context ApplyEnv Process Resolve Easy OsLoad.
From Verif.Spec Require Import StrSpec ConfigSpec LoadSpec EnvSpec CfgSpec TargetSpec FinalSpec WinSpec WinLoadSpec
  OsTargetSpec WinTargetSpec.
From Verif.Proof Require Import StrFacts Utf8Proof LoadProof FinalProof TargetProof TargetEnvProof CfgEvalProof WinDirProof WinUseProof WinLoadProof
  OsTargetProof WinTargetProof.

(** ** The settings of a target *)

(** The tables come from the files, and there is one way to join them. *)
Theorem C79_tables f p cwd o env l ec :
  win_sources f p cwd o env l -> os_easy_load windows f p (at_place cwd) o = Ok ec ->
  exists tables, tables_of l tables /\ forall tables', tables_of l tables' -> tables' = tables.
Proof.
  intros S H. assert (T := win_tables _ _ _ _ _ _ _ S H). exists (ec_de_target ec). split; [exact T|].
  intros t' T'. now apply tables_unique with l.
Qed.
Print Assumptions C79_tables.
(** The linker, the runner and the flags of any target, after any calls. *)
Theorem C79_target f p cwd o env l ec pr w q a t s x s' :
  win_sources f p cwd o env l -> os_easy_load windows f p (at_place cwd) o = Ok ec ->
  Forall (fun x => text_keys (c_target (snd x))) l ->
  os_reached windows (B ".exe") pr w ec s -> target_query q a -> os_real_arg windows a -> os_to_triple windows a = Ok t ->
  os_run_query windows (B ".exe") pr w ec q s = (Ok x, s') ->
  forall tables, tables_of l tables ->
  exists matches e, decided_by w s' (cli_target t) tables matches
    /\ win_settings_of env l tables cwd matches (tt_triple t) e /\ x = part_of q e.
Proof. exact (win_target_final f p cwd o env l ec pr w q a t s x s'). Qed.
Print Assumptions C79_target.
(** When there is an answer. *)
Theorem C79_success f p cwd o env l ec pr w q a t s :
  win_sources f p cwd o env l -> os_easy_load windows f p (at_place cwd) o = Ok ec ->
  Forall (fun x => text_keys (c_target (snd x))) l ->
  os_reached windows (B ".exe") pr w ec s -> target_query q a -> os_real_arg windows a -> os_to_triple windows a = Ok t ->
  overflow_checks pr = false ->
  is_cfg (tt_triple t) = false -> target_vars_readable env (tt_triple t) ->
  forall tables, tables_of l tables ->
  (forall k v, In (k, v) tables -> is_cfg k = true -> valid_cfg k) ->
  (has_cfg tables -> win_cfg_available pr w ec s (cli_target t)) ->
  win_target_resolvable cwd env tables (tt_triple t) ->
  exists x s', os_run_query windows (B ".exe") pr w ec q s = (Ok x, s').
Proof.
  intros S H U Rs Q Ra Ht O C V tables Tb K Av Rv.
  refine (win_target_success f p cwd o env l ec pr w q a t s S H U Rs Q Ra Ht C V tables Tb _ Av Rv).
  intros k v I Ck. apply accepted_parse_ok; [|assumption|exact (K k v I Ck)].
  exact (win_keys l U tables Tb k v I).
Qed.
Print Assumptions C79_success.
(** A target of [build.target] is the one its resolved text stands for, wherever it was written. *)
Theorem C79_own_target cwd v p t :
  place_ok cwd -> win_target_at cwd v p ->
  os_triple (E := error) windows (val v) (def v) (Some (at_place cwd)) = Ok t -> os_triple (E := error) windows p None None = Ok t.
Proof. exact (target_own cwd v p t). Qed.
Print Assumptions C79_own_target.

(** ** The compiler *)
Theorem C79_rustc f p cwd o env l ec pr w s :
  win_sources f p cwd o env l -> os_easy_load windows f p (at_place cwd) o = Ok ec ->
  os_reached windows (B ".exe") pr w ec s ->
  forall cargo, win_cargo o env cargo ->
  win_name cargo \/ (exists d x, cargo = at_place (in_place d [x]) /\ place_ok d /\ win_name x) ->
  exists r s', os_run_query windows (B ".exe") pr w ec QRustc s = (Ok (AProgram r), s')
  /\ (o_rustc o = Some r
      \/ exists n c, n <= s_clock s' /\ compiler (ec_build ec) cargo (w_exists w n) c /\ with_wrappers (ec_build ec) c r).
Proof. exact (win_rustc f p cwd o env l ec pr w s). Qed.
Print Assumptions C79_rustc.

(** ** An example: tables in two files, a runner in a variable, and rustc beside cargo *)
Definition c79_tab (l : list (string * toml)) : toml := TomlTab (map (fun x => (B (fst x), snd x)) l).
Definition c79_arr (l : list string) : toml := TomlArr (map (fun s => TomlStr (B s)) l).
Definition c79_near : toml := c79_tab [
  ("build", c79_tab [("rustc-wrapper", TomlStr (B "tools\wrap")); ("target", c79_arr ["t\my.json"%string])]);
  ("target", c79_tab [("my", c79_tab [("linker", TomlStr (B "bin/link.exe"))]);
                      ("cfg(windows)", c79_tab [("rustflags", c79_arr ["-w"%string]); ("runner", c79_arr ["run"%string])])])]%string.
Definition c79_far : toml := c79_tab [
  ("target", c79_tab [("my", c79_tab [("rustflags", c79_arr ["-f"%string])]); ("cfg(unix)", c79_tab [("rustflags", c79_arr ["-u"%string])])])]%string.
Definition c79_fs : fs :=
  mkFsys (fun p => existsb (str_eqb p) [B "C:\p\a\.cargo\config.toml"; B "C:\p\.cargo\config"])
       (fun p => if str_eqb p (B "C:\p\a\.cargo\config.toml") then ReadTree c79_near
                 else if str_eqb p (B "C:\p\.cargo\config") then ReadTree c79_far else ReadErr KNotFound).
Definition c79_process : process_env :=
  mkProcess [(B "CARGO", B "D:\t\bin\cargo.exe"); (B "CARGO_TARGET_MY_RUNNER", B ".\r.exe -q")] None.
Definition c79_cwd : place := (Drive "C", [B "p"; B "a"]).
Definition c79_load := os_easy_load windows c79_fs c79_process (at_place c79_cwd) options_default.
Definition c79_nl : str := ["010"%char].
Definition c79_world : world := mkWorld (fun _ p => str_eqb p (B "D:\t\bin\rustc.exe"))
  (fun _ c => if str_eqb (last (cmd_args c) []) (B "C:\p\a\t\my.json") then Exited true (B "0") (B "windows" ++ c79_nl) []
              else NotStarted KNotFound).
Definition c79_ask := match c79_load with Ok ec =>
    fun q => fst (os_run_query windows (B ".exe") release c79_world ec q (state_init (ec_cx ec)))
  | _ => fun _ => Panic PUnwrapNone end.

Example C79_ex_rustc : c79_ask QRustc = Ok (AProgram (mkEpa (B "C:\p\a\tools\wrap") [B "D:\t\bin\rustc.exe"])).
Proof. vm_compute. reflexivity. Qed.
Example C79_ex_target :
  c79_ask (QLinker (ArgText (B "C:\p\a\t\my.json"))) = Ok (APath (Some (B "C:\p\a\bin/link.exe")))
  /\ c79_ask (QRunner (ArgText (B "C:\p\a\t\my.json"))) = Ok (APa (Some (mkEpa (B "C:\p\a\.\r.exe") [B "-q"])))
  /\ c79_ask (QRustflags (ArgText (B "C:\p\a\t\my.json"))) = Ok (AFlags (Some (mkEflags [B "-f"; B "-w"]))).
Proof. vm_compute. repeat split. Qed.

(** All that the theorems ask for. *)
Ltac names := repeat (constructor; [apply nm; try discriminate; [repeat eexists|reflexivity]|]); constructor.
Ltac place := split; [vm_compute; auto 60|names].
Ltac name := apply nm; try discriminate; [repeat eexists|reflexivity].
Definition c79_files : LoadSpec.files := Eval vm_compute in
  match de_config c79_near, de_config c79_far with
  | Some a, Some b => [(B "C:\p\a\.cargo\config.toml", a); (B "C:\p\.cargo\config", b)]
  | _, _ => []
  end.
Definition c79_env : env_map := Eval vm_compute in cx_env (into_context c79_process options_default (at_place c79_cwd)).
Definition c79_tables : bmap target_config := Eval vm_compute in match c79_load with Ok ec => ec_de_target ec | _ => [] end.
Example C79_ex_sources : win_sources c79_fs c79_process c79_cwd options_default c79_env c79_files.
Proof.
  split; [place|]. split.
  - change c79_env with (cx_env (into_context c79_process options_default (at_place c79_cwd))). apply environment_ex. discriminate.
  - exists None, [B "C:\p\a\.cargo\config.toml"; B "C:\p\.cargo\config"]. split; [|split].
    + apply win_home_unknown with None; [reflexivity| |left; reflexivity|reflexivity]. constructor.
      repeat (constructor; [discriminate|]). constructor.
    + replace [B "C:\p\a\.cargo\config.toml"; B "C:\p\.cargo\config"] with (near (fs_exists c79_fs) c79_cwd) by (vm_compute; reflexivity). constructor.
    + split; [reflexivity|]. constructor; [exists c79_near|constructor; [exists c79_far|constructor]]; split; vm_compute; reflexivity.
Qed.
Example C79_ex_meets : exists ec t,
  c79_load = Ok ec /\ tables_of c79_files c79_tables /\ Forall (fun x => text_keys (c_target (snd x))) c79_files
  /\ os_to_triple windows (ArgText (B "C:\p\a\t\my.json")) = Ok t /\ cli_target t = B "C:\p\a\t\my.json"
  /\ is_cfg (tt_triple t) = false /\ target_vars_readable c79_env (tt_triple t)
  /\ (forall k v, In (k, v) c79_tables -> is_cfg k = true -> valid_cfg k)
  /\ has_cfg c79_tables /\ win_cfg_available release c79_world ec (state_init (ec_cx ec)) (cli_target t)
  /\ win_cargo options_default c79_env (at_place (in_place (Drive "D", [B "t"; B "bin"]) [B "cargo.exe"])).
Proof.
  destruct c79_load as [ec| |] eqn:E; [|vm_compute in E; discriminate E..]. do 2 eexists. split; [reflexivity|].
  split. { assert (T := win_tables _ _ _ _ _ _ _ C79_ex_sources E). replace c79_tables with (ec_de_target ec); [exact T|].
    vm_compute in E. now injection E as <-. }
  split. { constructor; [|constructor; [|constructor]]; intros k v I; apply utf8_valid_iff; repeat (destruct I as [[= <- _]|I]; [reflexivity|]); destruct I. }
  split; [vm_compute; reflexivity|]. split; [reflexivity|]. split; [reflexivity|].
  split. { split; [intros key v K H|intros v H]; [|vm_compute in H; injection H as <-; vm_compute; discriminate].
    repeat (destruct K as [<-|K]; [first [vm_compute in H; discriminate H | vm_compute in H; injection H as <-; reflexivity]|]). destruct K. }
  split. { intros k v I C. assert (P : utf8_valid k = true /\ is_ok (parse_expr release k) = true).
    { repeat (destruct I as [[= <- _]|I]; [first [vm_compute in C; discriminate C | split; vm_compute; reflexivity]|]). destruct I. }
    destruct (parse_ok_accepted release k (proj1 P) (proj2 P)) as (x & roots & A & A'). exists x, roots. auto. }
  split. { exists (B "cfg(unix)"). eexists. split; [left; reflexivity|reflexivity]. }
  split. { vm_compute in E. injection E as <-. right. do 3 eexists. split; vm_compute; reflexivity. }
  apply cargo_variable; reflexivity.
Qed.
Lemma some_inv {A} (x y : A) : Some x = Some y -> y = x.
Proof. now intros [= ->]. Qed.
Example C79_ex_resolvable : win_target_resolvable c79_cwd c79_env c79_tables (B "my").
Proof.
  assert (Sep : forall s, existsb (fun c => (Ascii.eqb c "\" || Ascii.eqb c "/")%bool) s = true -> has_separator s).
  { intros s H. apply existsb_exists in H as (k & I & H). exists k. split; [exact I|].
    apply Bool.orb_true_iff in H as [H|H]; apply Ascii.eqb_eq in H; [left|right]; exact H. }
  intros matches. split.
  - intros v. unfold target_linker. replace (var c79_env (B "my") (B "LINKER")) with (@None (value str)) by (vm_compute; reflexivity).
    replace (own c79_tables (B "my") t_linker) with (Some (mkValue (B "bin/link.exe") (Some (DefPath (B "C:\p\a\.cargo\config.toml")))))
      by (vm_compute; reflexivity).
    intros H. apply some_inv in H. subst v. exists (B "C:\p\a\bin/link.exe"). apply win_program_path; [apply Sep; reflexivity|].
    apply win_path with (DefPath (B "C:\p\a\.cargo\config.toml")) c79_cwd; [reflexivity| |].
    + apply (relative_to_file _ c79_cwd (B ".cargo") (B "config.toml")); [place|name|name].
    + apply from_below; [exact I|]. split; [discriminate|]. split; [intros ? ? [= <- _] [H|H]; discriminate H|intros ? ? H; discriminate H].
  - intros ws. unfold target_runner.
    set (v := var_words c79_env (B "my") (B "RUNNER")). vm_compute in v. subst v.
    intros H. apply some_inv in H. subst ws. exists (B "C:\p\a\.\r.exe", [B "-q"]).
    do 2 eexists. split; [reflexivity|]. split; [|reflexivity]. apply win_program_path; [apply Sep; reflexivity|].
    apply win_path with (DefEnv (B "CARGO_TARGET_MY_RUNNER")) c79_cwd; [reflexivity|constructor|].
    apply from_below; [exact I|]. split; [discriminate|]. split; [intros ? ? [= <- _] [H|H]; discriminate H|intros ? ? H; discriminate H].
Qed.
