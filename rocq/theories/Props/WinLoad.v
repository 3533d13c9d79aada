(** C78: loading on Windows, from the files, the variables and the options. *)
From Verif.Model Require Import Base Str Path StdPath OsPaths BMap Error Value De Triple EasyTypes Serde Load
  Context ApplyEnv Process Resolve Easy OsLoad.
From Verif.Spec Require Import StrSpec ConfigSpec LoadSpec EnvSpec FinalSpec WinSpec WinLoadSpec.
From Verif.Proof Require Import StrFacts Utf8Proof LoadProof WinDirProof WinUseProof WinLoadProof.

(** ** Where the values come from *)

(** There is at most one CARGO_HOME, one list of files, one set of contents. *)
Theorem C78_sources_unique f p cwd o env l env' l' :
  win_sources f p cwd o env l -> win_sources f p cwd o env' l' ->
  l = l' /\ forall n, env_get n env = env_get n env'.
Proof. exact (win_sources_unique f p cwd o env l env' l'). Qed.
Print Assumptions C78_sources_unique.
(** Which files are read, in which order. *)
Theorem C78_files f p cwd o home ps :
  place_ok cwd -> win_home p o home -> win_visited (fs_exists f) cwd home ps ->
  os_load_with_options windows f (at_place cwd)
    (os_cx_cargo_home windows p (into_context p o (at_place cwd)) (at_place cwd))
  = load_files f ps.
Proof.
  intros K Hh V. unfold os_load_with_options.
  now rewrite (home_spec p o cwd home K Hh), (visited_spec _ cwd home ps K (win_home_ok p o home Hh) V).
Qed.
Print Assumptions C78_files.

(** ** The resolved configuration *)
Theorem C78_accepted f p cwd o env l :
  win_sources f p cwd o env l -> same_shapes (map snd l) -> variables_readable env l -> win_resolvable cwd env l ->
  exists ec, os_easy_load windows f p (at_place cwd) o = Ok ec.
Proof. exact (win_accepted f p cwd o env l). Qed.
Print Assumptions C78_accepted.
Theorem C78_required f p cwd o env l ec :
  win_sources f p cwd o env l -> os_easy_load windows f p (at_place cwd) o = Ok ec ->
  same_shapes (map snd l) /\ variables_readable env l.
Proof. exact (win_required f p cwd o env l ec). Qed.
Print Assumptions C78_required.
Theorem C78_values f p cwd o env l ec :
  win_sources f p cwd o env l -> os_easy_load windows f p (at_place cwd) o = Ok ec ->
  forall A (k : scalar_key A), field k = true -> agrees (win_final_at cwd k) (scalar_of env l k) (easy_look k ec).
Proof. exact (fun S H => proj1 (win_values f p cwd o env l ec S H)). Qed.
Print Assumptions C78_values.
Theorem C78_lists f p cwd o env l ec :
  win_sources f p cwd o env l -> os_easy_load windows f p (at_place cwd) o = Ok ec ->
  forall k, list_field k = true -> agrees (win_final_words cwd k) (words_of env l k) (easy_words k ec).
Proof. exact (fun S H => proj1 (proj2 (win_values f p cwd o env l ec S H))). Qed.
Print Assumptions C78_lists.
Theorem C78_browser f p cwd o env l ec :
  win_sources f p cwd o env l -> os_easy_load windows f p (at_place cwd) o = Ok ec ->
  agrees (win_command_at cwd) (program_in_all env l DocBrowser)
    (option_map (fun x => (epa_path x, epa_args x)) (ed_browser (ec_doc ec))).
Proof. exact (fun S H => proj1 (proj2 (proj2 (win_values f p cwd o env l ec S H)))). Qed.
Print Assumptions C78_browser.
Theorem C78_env f p cwd o env l ec n :
  win_sources f p cwd o env l -> os_easy_load windows f p (at_place cwd) o = Ok ec ->
  agrees (win_env_at cwd (scalar_of env l (EnvVarForce n)) (scalar_of env l (EnvVarRelative n)))
    (scalar_of env l (EnvVarValue n)) (bget n (ec_env ec)).
Proof. exact (fun S H => proj1 (proj2 (proj2 (proj2 (win_values f p cwd o env l ec S H)))) n). Qed.
Print Assumptions C78_env.
Theorem C78_entries f p cwd o env l ec :
  win_sources f p cwd o env l -> os_easy_load windows f p (at_place cwd) o = Ok ec ->
  forall k, easy_entry k ec = entry_of env l k.
Proof. exact (fun S H => proj2 (proj2 (proj2 (proj2 (win_values f p cwd o env l ec S H))))). Qed.
Print Assumptions C78_entries.

(** ** What does not hold *)

(** The case of the names of variables does not matter on Windows, and so it is for CARGO_HOME;
    but the other variables of the process are only seen in capitals. *)
Definition c78_no_files : fs := mkFsys (fun _ => false) (fun _ => ReadErr KNotFound).
Theorem C78_case_refuted : exists p v ec,
  variable_is (p_vars p) (B "CARGO_BUILD_RUSTC") (Some v)
  /\ os_easy_load windows c78_no_files p (at_place (Drive "C", [B "p"])) options_default = Ok ec
  /\ easy_look BuildRustc ec = None.
Proof.
  exists (mkProcess [(B "Cargo_Build_Rustc", B "rc")] None), (B "rc"). eexists.
  split; [|split; [vm_compute; reflexivity|vm_compute; reflexivity]].
  apply variable_set with (before := []) (n := B "Cargo_Build_Rustc") (after := []); [reflexivity|vm_compute; reflexivity|constructor].
Qed.
Print Assumptions C78_case_refuted.
(** With CARGO_HOME the root of a drive, a relative path in its file has no directory to be
    relative to, and loading panics. *)
Ltac names := repeat (constructor; [apply nm; try discriminate; [repeat eexists|reflexivity]|]); constructor.
Ltac place := split; [vm_compute; auto 60|names].
Theorem C78_root_refuted : exists f p cwd o env l,
  win_sources f p cwd o env l /\ os_easy_load windows f p (at_place cwd) o = Panic PUnwrapNone.
Proof.
  set (f := mkFsys (fun x => str_eqb x (B "C:\config"))
              (fun _ => ReadTree (TomlTab [(B "build", TomlTab [(B "target-dir", TomlStr (B "out"))])]))).
  set (p := mkProcess [(B "CARGO_HOME", B "C:\")] None).
  set (cwd := (Drive "C", [B "p"])). set (home := (Drive "C", @nil str)).
  assert (K : place_ok cwd) by place. assert (Kh : place_ok home) by place.
  assert (Hh : win_home p options_default (Some home)).
  { apply win_home_variable; [reflexivity| |exact Kh].
    apply variable_set with (before := []) (n := B "CARGO_HOME") (after := []); [reflexivity|reflexivity|constructor]. }
  assert (V : win_visited (fs_exists f) cwd (Some home) [B "C:\config"]).
  { replace [B "C:\config"] with (near (fs_exists f) cwd ++ found (fs_exists f) (fst home) (snd home)) by (vm_compute; reflexivity).
    constructor. intros [_ (k & I & E)]. destruct k; discriminate E. }
  destruct (win_sources_ex f p cwd options_default _ _ K ltac:(discriminate) Hh V) as (env & l & S); [vm_compute; reflexivity|].
  exists f, p, cwd, options_default, env, l. split; [exact S|]. vm_compute. reflexivity.
Qed.
Print Assumptions C78_root_refuted.

(** ** An example: three files on two drives, a variable in capitals and one not *)
Definition c78_tab (l : list (string * toml)) : toml := TomlTab (map (fun x => (B (fst x), snd x)) l).
Definition c78_arr (l : list string) : toml := TomlArr (map (fun s => TomlStr (B s)) l).
Definition c78_near : toml := c78_tab [
  ("build", c78_tab [("jobs", TomlInt 4); ("rustflags", c78_arr ["-n"%string]); ("target-dir", TomlStr (B "out"))]);
  ("doc", c78_tab [("browser", c78_arr ["tools/ff"; "-new"]%string)])]%string.
Definition c78_middle : toml := c78_tab [
  ("build", c78_tab [("rustc", TomlStr (B "bin\rc.exe")); ("rustc-wrapper", TomlStr (B "sccache")); ("rustflags", c78_arr ["-m"%string]);
                     ("dep-info-basedir", TomlStr (B "\deps")); ("target", c78_arr ["t1"; "x/my.json"; "E:\t\o.json"]%string)]);
  ("env", c78_tab [("V", c78_tab [("value", TomlStr (B "x\y")); ("relative", TomlBool true)])])]%string.
Definition c78_far : toml := c78_tab [
  ("build", c78_tab [("jobs", TomlInt 8); ("rustflags", c78_arr ["-f"%string]); ("rustc-workspace-wrapper", TomlStr (B "w/w"))])]%string.
Definition c78_fs : fs :=
  mkFsys (fun p => existsb (str_eqb p) [B "C:\p\a\.cargo\config.toml"; B "C:\p\.cargo\config"; B "D:\h\c\config"])
       (fun p => if str_eqb p (B "C:\p\a\.cargo\config.toml") then ReadTree c78_near
                 else if str_eqb p (B "C:\p\.cargo\config") then ReadTree c78_middle
                 else if str_eqb p (B "D:\h\c\config") then ReadTree c78_far else ReadErr KNotFound).
Definition c78_process : process_env :=
  mkProcess [(B "Path", B "C:\bin"); (B "Cargo_Home", B "D:\h\c"); (B "CARGO_BUILD_RUSTDOC", B ".\rd")] (Some (B "C:\me")).
Definition c78_cwd : place := (Drive "C", [B "p"; B "a"]).
Definition c78_home : place := (Drive "D", [B "h"; B "c"]).
Definition c78_paths : list str := [B "C:\p\a\.cargo\config.toml"; B "C:\p\.cargo\config"; B "D:\h\c\config"].
Definition c78_load := os_easy_load windows c78_fs c78_process (at_place c78_cwd) options_default.

Example C78_ex_home : place_ok c78_cwd /\ win_home c78_process options_default (Some c78_home).
Proof.
  split; [place|]. apply win_home_variable; [reflexivity| |place].
  apply variable_set with (before := [(B "Path", B "C:\bin")]) (n := B "Cargo_Home") (after := [(B "CARGO_BUILD_RUSTDOC", B ".\rd")]);
    [reflexivity|reflexivity|]. constructor; [discriminate|constructor].
Qed.
Example C78_ex_visited : win_visited (fs_exists c78_fs) c78_cwd (Some c78_home) c78_paths.
Proof.
  replace c78_paths with (near (fs_exists c78_fs) c78_cwd ++ found (fs_exists c78_fs) (fst c78_home) (snd c78_home))
    by (vm_compute; reflexivity).
  constructor. intros [E _]. discriminate E.
Qed.
Example C78_ex_sources : exists env l, win_sources c78_fs c78_process c78_cwd options_default env l
  /\ same_shapes (map snd l) /\ variables_readable env l.
Proof.
  destruct (win_sources_ex c78_fs c78_process c78_cwd options_default _ _ (proj1 C78_ex_home) ltac:(discriminate)
              (proj2 C78_ex_home) C78_ex_visited) as (env & l & S); [vm_compute; reflexivity|].
  exists env, l. split; [exact S|].
  destruct (os_easy_load windows c78_fs c78_process (at_place c78_cwd) options_default) as [ec| |] eqn:E;
    [exact (C78_required _ _ _ _ _ _ ec S E)|vm_compute in E; discriminate E..].
Qed.
Example C78_ex :
  match c78_load with
  | Ok ec =>
      easy_look BuildJobs ec = Some 4%Z /\ easy_look BuildRustc ec = Some (B "C:\p\bin\rc.exe")
      /\ easy_look BuildRustcWrapper ec = Some (B "sccache")
      /\ easy_look BuildRustcWorkspaceWrapper ec = Some (B "D:\h\w/w")
      /\ easy_look BuildRustdoc ec = Some (B "C:\p\a\.\rd") /\ easy_look BuildTargetDir ec = Some (B "C:\p\a\out")
      /\ easy_look BuildDepInfoBasedir ec = Some (B "C:\deps") /\ easy_look HttpTimeout ec = None
      /\ easy_words BuildRustflags ec = Some [B "-f"; B "-m"; B "-n"]
      /\ easy_words BuildTarget ec = Some [B "t1"; B "C:\p\x/my.json"; B "E:\t\o.json"]
      /\ option_map (fun x => (epa_path x, epa_args x)) (ed_browser (ec_doc ec)) = Some (B "C:\p\a\tools/ff", [B "-new"])
      /\ bget (B "V") (ec_env ec) = Some (mkEenv (B "C:\p\x\y") false false)
  | _ => False
  end.
Proof. vm_compute. repeat split. Qed.

(** Every path in it is one of those of [WinLoadSpec]. *)
Lemma c78_file d c f s : place_ok d -> win_name c -> win_name f -> s = at_place (in_place d [c; f]) -> relative_to c78_cwd (DefPath s) d.
Proof. intros K Hc Hf ->. now constructor. Qed.
Ltac name := apply nm; try discriminate; [repeat eexists|reflexivity].
Ltac in_file := let go c f := solve [apply (c78_file _ (B c) (B f)); [place|name|name|reflexivity]] in
  first [go ".cargo"%string "config"%string | go ".cargo"%string "config.toml"%string | go "c"%string "config"%string].
Ltac below := apply from_below; [exact I|];
  split; [discriminate|]; split; [intros ? ? [= <- _] [H|H]; discriminate H|intros ? ? H; discriminate H].
Example C78_ex_path :
  win_path_at c78_cwd (mkValue (B "out") (Some (DefPath (B "C:\p\a\.cargo\config.toml")))) (B "C:\p\a\out")
  /\ win_program_at c78_cwd (mkValue (B "bin\rc.exe") (Some (DefPath (B "C:\p\.cargo\config")))) (B "C:\p\bin\rc.exe")
  /\ win_program_at c78_cwd (mkValue (B "sccache") (Some (DefPath (B "C:\p\.cargo\config")))) (B "sccache")
  /\ win_program_at c78_cwd (mkValue (B "w/w") (Some (DefPath (B "D:\h\c\config")))) (B "D:\h\w/w")
  /\ win_program_at c78_cwd (mkValue (B ".\rd") (Some (DefEnv (B "CARGO_BUILD_RUSTDOC")))) (B "C:\p\a\.\rd")
  /\ win_path_at c78_cwd (mkValue (B "\deps") (Some (DefPath (B "C:\p\.cargo\config")))) (B "C:\deps")
  /\ win_path_at c78_cwd (mkValue (B "x\y") (Some (DefPath (B "C:\p\.cargo\config")))) (B "C:\p\x\y")
  /\ Forall2 (win_target_at c78_cwd)
       [mkValue (B "t1") (Some (DefPath (B "C:\p\.cargo\config"))); mkValue (B "x/my.json") (Some (DefPath (B "C:\p\.cargo\config")));
        mkValue (B "E:\t\o.json") (Some (DefPath (B "C:\p\.cargo\config")))]
       [B "t1"; B "C:\p\x/my.json"; B "E:\t\o.json"]
  /\ win_command_at c78_cwd (AsArray, [mkValue (B "tools/ff") (Some (DefPath (B "C:\p\a\.cargo\config.toml")));
        mkValue (B "-new") (Some (DefPath (B "C:\p\a\.cargo\config.toml")))]) (B "C:\p\a\tools/ff", [B "-new"]).
Proof.
  assert (Sep : forall s, existsb (fun c => (Ascii.eqb c "\" || Ascii.eqb c "/")%bool) s = true -> has_separator s).
  { intros s H. apply existsb_exists in H as (k & I & H). exists k. split; [exact I|].
    apply Bool.orb_true_iff in H as [H|H]; apply Ascii.eqb_eq in H; [left|right]; exact H. }
  split; [|split; [|split; [|split; [|split; [|split; [|split; [|split]]]]]]].
  - apply win_path with (DefPath (B "C:\p\a\.cargo\config.toml")) (Drive "C", [B "p"; B "a"]); [reflexivity|in_file|below].
  - apply win_program_path; [apply Sep; reflexivity|].
    apply win_path with (DefPath (B "C:\p\.cargo\config")) (Drive "C", [B "p"]); [reflexivity|in_file|below].
  - apply win_program_name. intros (k & I & [->| ->]); vm_compute in I; intuition discriminate.
  - apply win_program_path; [apply Sep; reflexivity|].
    apply win_path with (DefPath (B "D:\h\c\config")) (Drive "D", [B "h"]); [reflexivity|in_file|below].
  - apply win_program_path; [apply Sep; reflexivity|].
    apply win_path with (DefEnv (B "CARGO_BUILD_RUSTDOC")) c78_cwd; [reflexivity|constructor|below].
  - apply win_path with (DefPath (B "C:\p\.cargo\config")) (Drive "C", [B "p"]); [reflexivity|in_file|].
    apply from_top; [exact I|]. exists "\"%char, (B "deps"). split; [reflexivity|]. split; [left; reflexivity|].
    intros ? ? [= <- _] [H|H]; discriminate H.
  - apply win_path with (DefPath (B "C:\p\.cargo\config")) (Drive "C", [B "p"]); [reflexivity|in_file|below].
  - constructor; [|constructor; [|constructor; [|constructor]]].
    + apply win_target_triple; [name|]. intros s H. destruct s as [|? [|? [|? ?]]]; discriminate H.
    + apply win_target_spec with [B "x"] (B "my"); [|discriminate|reflexivity|].
      * apply (more_names_text (B "x") "/" (B "my.json") [B "my.json"]); [name|right; reflexivity|]. constructor. name.
      * apply win_path with (DefPath (B "C:\p\.cargo\config")) (Drive "C", [B "p"]); [reflexivity|in_file|below].
    + apply win_target_anywhere with (DefPath (B "C:\p\.cargo\config")) (Drive "C", [B "p"]) (Drive "E", [B "t"]) (B "o");
        [reflexivity|in_file|reflexivity|place|name|discriminate|reflexivity].
  - exists (mkValue (B "tools/ff") (Some (DefPath (B "C:\p\a\.cargo\config.toml")))), [mkValue (B "-new") (Some (DefPath (B "C:\p\a\.cargo\config.toml")))].
    split; [reflexivity|]. split; [|reflexivity]. apply win_program_path; [apply Sep; reflexivity|].
    apply win_path with (DefPath (B "C:\p\a\.cargo\config.toml")) (Drive "C", [B "p"; B "a"]); [reflexivity|in_file|below].
Qed.
(** So all of it is known before it is loaded. *)
Definition c78_config : config := Eval vm_compute in
  match os_load_with_options windows c78_fs (at_place c78_cwd) (Some (at_place c78_home)) with Ok c => c | _ => config_default end.
Definition c78_env : env_map := Eval vm_compute in cx_env (into_context c78_process options_default (at_place c78_cwd)).
Definition c78_applied : config := Eval vm_compute in
  match apply_env c78_env c78_config with Ok c => c | _ => config_default end.
Example C78_ex_resolvable env l : win_sources c78_fs c78_process c78_cwd options_default env l -> win_resolvable c78_cwd env l.
Proof.
  intros S. destruct (win_applied _ _ _ _ _ _ c78_config c78_applied S) as (D1 & D2 & D3 & D4);
    [vm_compute; reflexivity|vm_compute; reflexivity|].
  destruct C78_ex_path as (P1 & P2 & P3 & P4 & P5 & P6 & P7 & P8 & P9).
  split; [|split; [|split]].
  - assert (F : forall A (k : scalar_key A) v, look k c78_applied = Some v -> exists p, win_final_at c78_cwd k v p).
    { intros A k. destruct k; try (intros v _; exists (val v); reflexivity); intros v H; vm_compute in H; injection H as <-;
        [exact (ex_intro _ _ P2)|exact (ex_intro _ _ P3)|exact (ex_intro _ _ P4)|exact (ex_intro _ _ P5)|exact (ex_intro _ _ P1)|exact (ex_intro _ _ P6)]. }
    intros k v _ H. rewrite <- D1 in H. now apply F.
  - intros ws. rewrite <- D2. intros H. vm_compute in H. injection H as <-. exact (ex_intro _ _ P8).
  - intros ws. rewrite <- D3. intros H. vm_compute in H. injection H as <-. exact (ex_intro _ _ P9).
  - intros n v. rewrite <- !D1. cbn [look]. unfold under.
    destruct (str_eqb n (B "V")) eqn:E.
    + apply str_eqb_eq in E as ->. intros H _. vm_compute in H. injection H as <-. exact (ex_intro _ _ P7).
    + intros H. cbn [c78_applied c_env bget] in H. change (str_eqb n ["V"%char]) with (str_eqb n (B "V")) in H. rewrite E in H. discriminate H.
Qed.
