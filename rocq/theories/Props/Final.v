(** C53: the resolved configuration, from the files, the variables and the options. *)
From Verif.Model Require Import Base Str Path BMap Error Value De Triple EasyTypes Serde Load Context
  Process Resolve Easy.
From Verif.Spec Require Import StrSpec PathSpec WalkSpec ConfigSpec LoadSpec EnvSpec TripleSpec RootSpec
  Utf8Spec TargetSpec FinalSpec.
From Verif.Proof Require Import Utf8Proof LoadProof RootProof FinalProof.

(** [sources f p cwd o env l]: the variables are [env] and the files with their contents,
    closest first, are [l].  There is at most one [l], and any two [env] agree. *)
Theorem C53_sources_unique f p cwd o env l env' l' :
  sources f p cwd o env l -> sources f p cwd o env' l' ->
  l = l' /\ forall n, env_get n env = env_get n env'.
Proof.
  intros S S'. destruct (sources_cx _ _ _ _ _ _ S) as (_ & G & ps & V & R).
  destruct (sources_cx _ _ _ _ _ _ S') as (_ & G' & ps' & V' & R').
  assert (ps = ps') by (transitivity (Walk.walk_all (fs_exists f) (Walk.walk_init cwd (cx_cargo_home p (into_context p o cwd) cwd)));
    [|symmetry]; now apply visited_walk). subst ps'.
  split; [now apply (reads_unique f ps)|]. intros n. now rewrite G, G'.
Qed.
Print Assumptions C53_sources_unique.

(** When there is a resolved configuration. *)
Theorem C53_accepted f p cwd o :
  (forall e, o_env o = Some e -> one_value_each e) ->
  (is_ok (easy_load_with_options f p cwd o) = true <->
   exists env l, sources f p cwd o env l /\ same_shapes (map snd l) /\ variables_readable env l
                 /\ resolvable cwd env l).
Proof. exact (load_accepted f p cwd o). Qed.
Print Assumptions C53_accepted.

(** Its values: one at a time, ... *)
Theorem C53_values f p cwd o env l ec :
  sources f p cwd o env l -> easy_load_with_options f p cwd o = Ok ec ->
  forall A (k : scalar_key A), field k = true ->
  both (final_at cwd k) (scalar_of env l k) (easy_look k ec).
Proof.
  intros S H A k F. destruct (merged_of_sources _ _ _ _ _ _ _ S H) as (c & de & Hc & Ha & M & _).
  rewrite <- M. now apply (from_unresolved_fields c _ de ec Hc Ha).
Qed.
Print Assumptions C53_values.
(** ... lists, ... *)
Theorem C53_lists f p cwd o env l ec :
  sources f p cwd o env l -> easy_load_with_options f p cwd o = Ok ec ->
  forall k, list_field k = true -> both (final_words cwd k) (words_of env l k) (easy_words k ec).
Proof.
  intros S H k F. destruct (merged_of_sources _ _ _ _ _ _ _ S H) as (c & de & Hc & Ha & _ & M & _).
  rewrite <- M. now apply (from_unresolved_fields c _ de ec Hc Ha).
Qed.
Print Assumptions C53_lists.
(** ... the browser, ... *)
Theorem C53_browser f p cwd o env l ec :
  sources f p cwd o env l -> easy_load_with_options f p cwd o = Ok ec ->
  both (command_at cwd) (program_in_all env l DocBrowser)
    (option_map (fun x => (epa_path x, epa_args x)) (ed_browser (ec_doc ec))).
Proof.
  intros S H. destruct (merged_of_sources _ _ _ _ _ _ _ S H) as (c & de & Hc & Ha & _ & _ & M & _).
  rewrite <- M. apply (from_unresolved_fields c _ de ec Hc Ha).
Qed.
Print Assumptions C53_browser.
(** ... the table [env], ... *)
Theorem C53_env f p cwd o env l ec n :
  sources f p cwd o env l -> easy_load_with_options f p cwd o = Ok ec ->
  both (env_at cwd (first_defined (map (scalar_in (EnvVarForce n)) l))
               (first_defined (map (scalar_in (EnvVarRelative n)) l)))
    (first_defined (map (scalar_in (EnvVarValue n)) l)) (bget n (ec_env ec)).
Proof.
  intros S H. destruct (merged_of_sources _ _ _ _ _ _ _ S H) as (c & de & Hc & Ha & M & _).
  assert (K := proj1 (proj2 (proj2 (proj2 (from_unresolved_fields c _ de ec Hc Ha)))) n).
  rewrite !M in K. exact K.
Qed.
Print Assumptions C53_env.
(** ... and the entries of the tables. *)
Theorem C53_entries f p cwd o env l ec :
  sources f p cwd o env l -> easy_load_with_options f p cwd o = Ok ec ->
  forall k, easy_entry k ec = entry_of env l k.
Proof.
  intros S H k. destruct (merged_of_sources _ _ _ _ _ _ _ S H) as (c & de & Hc & Ha & _ & _ & _ & M).
  rewrite <- M. apply (from_unresolved_fields c _ de ec Hc Ha).
Qed.
Print Assumptions C53_entries.

(** The settings of a target. *)
Theorem C53_target f p cwd o env l ec pr w q a t s x s' :
  sources f p cwd o env l -> easy_load_with_options f p cwd o = Ok ec ->
  Forall (fun x => text_keys (c_target (snd x))) l ->
  reached pr w ec s -> target_query q a -> real_arg a -> to_triple a = Ok t ->
  run_query pr w ec q s = (Ok x, s') ->
  forall tables, tables_of l tables ->
  exists matches e, decided_by w s' (cli_target t) tables matches
    /\ settings_of env l tables cwd matches (tt_triple t) e /\ x = part_of q e.
Proof. exact (target_final f p cwd o env l ec pr w q a t s x s'). Qed.
Print Assumptions C53_target.
Theorem C53_tables f p cwd o env l ec :
  sources f p cwd o env l -> easy_load_with_options f p cwd o = Ok ec -> exists tables, tables_of l tables.
Proof. exact (fun S H => ex_intro _ _ (tables_loaded f p cwd o env l ec S H)). Qed.
Print Assumptions C53_tables.
Theorem C53_tables_unique l m m' : tables_of l m -> tables_of l m' -> m = m'.
Proof. exact (tables_unique l m m'). Qed.
Print Assumptions C53_tables_unique.

(** Nothing else matters: with the same sources the result is the same, but for the context
    that is kept with it. *)
Theorem C53_only_sources f f' p p' cwd o o' env l :
  sources f p cwd o env l -> sources f' p' cwd o' env l ->
  alike (easy_load_with_options f p cwd o) (easy_load_with_options f' p' cwd o').
Proof. exact (sources_alike f f' p p' cwd o o' env l). Qed.
Print Assumptions C53_only_sources.

(** Nothing is left out: the values, lists, tables and entries make up the configuration. *)
Theorem C53_complete a b :
  well_formed a -> well_formed b -> same_settings a b -> same_hidden a b -> a = b.
Proof. exact (settings_complete a b). Qed.
Print Assumptions C53_complete.
Theorem C53_well_formed f p cwd o ec : easy_load_with_options f p cwd o = Ok ec -> well_formed ec.
Proof. exact (load_well_formed f p cwd o ec). Qed.
Print Assumptions C53_well_formed.

(** ** An example: three files, two variables that count and one that does not *)
Definition c53_tab (l : list (string * toml)) : toml := TomlTab (map (fun x => (B (fst x), snd x)) l).
Definition c53_arr (l : list string) : toml := TomlArr (map (fun s => TomlStr (B s)) l).
Definition c53_near : toml := c53_tab [
  ("build", c53_tab [("jobs", TomlInt 4); ("rustflags", c53_arr ["-n"%string]); ("target-dir", TomlStr (B "out"))]);
  ("alias", c53_tab [("r", TomlStr (B "run  --release"))]);
  ("target", c53_tab [("cfg(unix)", c53_tab [("runner", c53_arr ["./run"; "-x"]%string)])])]%string.
Definition c53_middle : toml := c53_tab [
  ("build", c53_tab [("rustc", TomlStr (B "bin/rc")); ("rustflags", c53_arr ["-m"%string]);
                     ("target", c53_arr ["t1"; "x/my.json"]%string)]);
  ("env", c53_tab [("V", c53_tab [("value", TomlStr (B "x")); ("relative", TomlBool true)])]);
  ("http", c53_tab [("timeout", TomlInt 7)])]%string.
Definition c53_far : toml := c53_tab [
  ("build", c53_tab [("jobs", TomlInt 8); ("rustflags", c53_arr ["-f"%string])]);
  ("target", c53_tab [("cfg(unix)", c53_tab [("runner", c53_arr ["far"%string])]);
                      ("t1", c53_tab [("linker", TomlStr (B "ld"))])])]%string.
Definition c53_fs : fs :=
  mkFsys (fun p => existsb (str_eqb p) [B "/p/a/.cargo/config.toml"; B "/p/.cargo/config"; B "/h/c/config"])
       (fun p => if str_eqb p (B "/p/a/.cargo/config.toml") then ReadTree c53_near
                 else if str_eqb p (B "/p/.cargo/config") then ReadTree c53_middle
                 else if str_eqb p (B "/h/c/config") then ReadTree c53_far else ReadErr KNotFound).
Definition c53_process : process_env :=
  mkProcess [(B "CARGO_HOME", B "/h/c"); (B "CARGO_BUILD_RUSTDOC", B "./rd"); (B "NET_RETRY", B "5");
             (B "CARGO_NET_RETRY", B "3"); (B "BROWSER", B "ff -new")] None.
Definition c53_paths : list str := [B "/p/a/.cargo/config.toml"; B "/p/.cargo/config"; B "/h/c/config"].
Definition c53_load := easy_load_with_options c53_fs c53_process (B "/p/a") options_default.

Lemma c53_visited : visited c53_fs (B "/p/a") (Some (B "/h/c")) c53_paths.
Proof. apply visited_walk. vm_compute. reflexivity. Qed.
Example C53_ex_sources : exists env l,
  sources c53_fs c53_process (B "/p/a") options_default env l /\ same_shapes (map snd l)
  /\ variables_readable env l /\ resolvable (B "/p/a") env l.
Proof. apply C53_accepted; [discriminate|]. vm_compute. reflexivity. Qed.
Example C53_ex_home : home_of c53_process options_default (B "/p/a") (Some (B "/h/c")).
Proof. apply home_absolute; [reflexivity|reflexivity|]. now exists (B "h/c"). Qed.
Example C53_ex :
  match c53_load with
  | Ok ec =>
      easy_look BuildJobs ec = Some 4%Z /\ easy_look BuildRustc ec = Some (B "/p/bin/rc")
      /\ easy_look BuildRustdoc ec = Some (B "/p/a/./rd") /\ easy_look BuildTargetDir ec = Some (B "/p/a/out")
      /\ easy_look HttpTimeout ec = Some 7%N /\ easy_look NetRetry ec = Some 3%N
      /\ easy_look BuildRustcWrapper ec = None
      /\ easy_words BuildRustflags ec = Some [B "-f"; B "-m"; B "-n"]
      /\ easy_words BuildTarget ec = Some [B "t1"; B "/p/x/my.json"]
      /\ easy_words (Alias (B "r")) ec = Some [B "run"; B "--release"]
      /\ option_map program_of (ed_browser (ec_doc ec)) = Some (B "ff", [B "-new"])
      /\ bget (B "V") (ec_env ec) = Some (mkEenv (B "/p/x") false false)
      /\ easy_entry (TargetEntry (B "t1")) ec = true /\ easy_entry (TargetEntry (B "t2")) ec = false
  | _ => False
  end.
Proof. vm_compute. repeat split. Qed.
Definition c53_world : world :=
  mkWorld (fun _ _ => false) (fun _ _ => Exited true (B "exit status: 0") (B "unix") []).
Example C53_ex_target :
  match c53_load with
  | Ok ec => fst (run_query release c53_world ec (QTarget (ArgText (B "t1"))) (state_init (ec_cx ec)))
      = Ok (ATarget (mkEtarget (Some (B "ld")) (Some (mkEpa (B "/p/a/./run") [B "-x"; B "far"]))
                       (Some (mkEflags [B "-f"; B "-m"; B "-n"])) None))
  | _ => False
  end.
Proof. vm_compute. reflexivity. Qed.

(** No directory to be relative to: not accepted. *)
Example C53_ex_rootless :
  is_ok (easy_load_with_options
           (mkFsys (fun p => str_eqb p (B "/config")) (fun _ => ReadTree c53_near))
           (mkProcess [(B "CARGO_HOME", B "/")] None) (B "/p") options_default) = false.
Proof. vm_compute. reflexivity. Qed.
