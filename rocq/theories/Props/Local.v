(** C61: each setting depends on its own keys and its own variables only.

    Throughout, [env] and [l] are the variables and the files of one run and [env'] and [l'] those
    of another; the current directory is the same.  The runs may differ in everything else: other
    keys of the files, other variables, the options, the number of files. *)
From Verif.Model Require Import Base Str Path BMap Error Value De EasyTypes Triple Serde Load Context Process Resolve Easy.
From Verif.Spec Require Import ConfigSpec LoadSpec EnvSpec RootSpec QuerySpec TargetSpec FinalSpec OptionsSpec LocalSpec.
From Verif.Proof Require Import StrFacts BMapFacts LoadProof EnvTextProof EnvVarsProof FinalProof OptionsProof LocalProof.
From Verif.Props Require Import Final.

(** Two runs that both succeed. *)
Definition two_runs (f f' : fs) (p p' : process_env) (cwd : str) (o o' : options) (env env' : env_map) (l l' : files)
  (c c' : econfig) : Prop :=
  sources f p cwd o env l /\ sources f' p' cwd o' env' l'
  /\ easy_load_with_options f p cwd o = Ok c /\ easy_load_with_options f' p' cwd o' = Ok c'.

Section Runs.
Context (f f' : fs) (p p' : process_env) (cwd : str) (o o' : options) (env env' : env_map) (l l' : files)
  (c c' : econfig).
Let runs : Prop := two_runs f f' p p' cwd o o' env env' l l' c c'.

Theorem C61_value A (k : scalar_key A) : runs -> field k = true -> agree_scalar env env' l l' k ->
  easy_look k c = easy_look k c'.
Proof. intros (S & S' & H & H') K. now apply (value_local f f' p p' cwd o o'). Qed.
Theorem C61_list k : runs -> list_field k = true -> agree_list env env' l l' k -> easy_words k c = easy_words k c'.
Proof. intros (S & S' & H & H') K. now apply (list_local f f' p p' cwd o o' env env' l l' c c'). Qed.
Theorem C61_browser : runs -> agree_program env env' l l' DocBrowser ->
  ed_browser (ec_doc c) = ed_browser (ec_doc c').
Proof.
  intros (S & S' & H & H') A. assert (E := browser_local f f' p p' cwd o o' env env' l l' c c' S S' H H' A).
  destruct (ed_browser (ec_doc c)) as [[x y]|], (ed_browser (ec_doc c')) as [[x' y']|]; try discriminate E; [|reflexivity].
  injection E as -> ->. reflexivity.
Qed.
Theorem C61_env n : runs -> agree_scalar env env' l l' (EnvVarValue n) ->
  agree_scalar env env' l l' (EnvVarForce n) -> agree_scalar env env' l l' (EnvVarRelative n) ->
  bget n (ec_env c) = bget n (ec_env c').
Proof. intros (S & S' & H & H'). now apply (env_local f f' p p' cwd o o' env env' l l' c c'). Qed.

(** Queries: the answer, the programs started and everything remembered are the same, in every state. *)
Theorem C61_query g q pr w s : runs -> cargo_of o env g -> cargo_of o' env' g -> agree_query env env' l l' q ->
  run_query pr w c q s = run_query pr w c' q s.
Proof. intros (S & S' & H & H'). now apply (query_local f f' p p' cwd o o' env env' l l' c c'). Qed.
(** From the start on, as long as only such queries are made. *)
Theorem C61_queries g qs q pr w : runs -> cargo_of o env g -> cargo_of o' env' g ->
  o_rustc o = o_rustc o' -> o_host_triple o = o_host_triple o' ->
  (forall x, In x (qs ++ [q]) -> agree_query env env' l l' x) ->
  run_query pr w c q (run_queries pr w c qs (state_init (ec_cx c)))
  = run_query pr w c' q (run_queries pr w c' qs (state_init (ec_cx c'))).
Proof.
  intros (S & S' & H & H') C C' R T A.
  assert (E : state_init (ec_cx c) = state_init (ec_cx c')).
  { rewrite (loaded_context _ _ _ _ _ H), (loaded_context _ _ _ _ _ H'). unfold state_init, into_context. cbn.
    now rewrite R, T. }
  rewrite E, (queries_local f f' p p' cwd o o' env env' l l' c c' S S' H H' g pr w qs C C').
  - apply (query_local f f' p p' cwd o o' env env' l l' c c' S S' H H' g); auto.
    apply A, in_or_app. right. now left.
  - intros x I. apply A, in_or_app. now left.
Qed.
End Runs.
Print Assumptions C61_value.
Print Assumptions C61_list.
Print Assumptions C61_browser.
Print Assumptions C61_env.
Print Assumptions C61_query.
Print Assumptions C61_queries.

(** ** Files that do not matter *)

Lemma first_defined_app {A} (a b : list (option A)) :
  first_defined (a ++ b) = match first_defined a with Some x => Some x | None => first_defined b end.
Proof. induction a as [|[x|] a IH]; cbn; [reflexivity..|exact IH]. Qed.
Lemma defined_app {A} (a b : list (option A)) : defined (a ++ b) = defined a ++ defined b.
Proof. induction a as [|[x|] a IH]; cbn; [reflexivity|now f_equal|exact IH]. Qed.

(** A file that does not mention a key does not matter for it, wherever it is. *)
Theorem C61_silent_file f f' p p' cwd o o' env l1 x l2 c c' A (k : scalar_key A) :
  two_runs f f' p p' cwd o o' env env (l1 ++ x :: l2) (l1 ++ l2) c c' ->
  field k = true -> look k (snd x) = None -> easy_look k c = easy_look k c'.
Proof.
  intros R K N. apply (C61_value _ _ _ _ _ _ _ _ _ _ _ _ _ A k R K). split; [now intros|].
  rewrite !map_app, !first_defined_app. cbn [map]. unfold scalar_in at 2. now rewrite N.
Qed.
Print Assumptions C61_silent_file.
Theorem C61_silent_file_list f f' p p' cwd o o' env l1 x l2 c c' k :
  two_runs f f' p p' cwd o o' env env (l1 ++ x :: l2) (l1 ++ l2) c c' ->
  list_field k = true -> look_list k (snd x) = None -> easy_words k c = easy_words k c'.
Proof.
  intros R K N. apply (C61_list _ _ _ _ _ _ _ _ _ _ _ _ _ k R K). split; [now intros|].
  rewrite !map_app, !defined_app. cbn [map]. unfold list_in at 2. now rewrite N.
Qed.
Print Assumptions C61_silent_file_list.
(** What is behind a file that sets a single value does not matter for that value. *)
Theorem C61_shadowed f f' p p' cwd o o' env l1 x l2 l2' c c' A (k : scalar_key A) :
  two_runs f f' p p' cwd o o' env env (l1 ++ x :: l2) (l1 ++ x :: l2') c c' ->
  field k = true -> look k (snd x) <> None -> easy_look k c = easy_look k c'.
Proof.
  intros R K N. apply (C61_value _ _ _ _ _ _ _ _ _ _ _ _ _ A k R K). split; [now intros|].
  rewrite !map_app, !first_defined_app. cbn [map first_defined]. unfold scalar_in at 2 5.
  destruct (look k (snd x)); [reflexivity|contradiction].
Qed.
Print Assumptions C61_shadowed.
(** What any file says does not matter for a value whose variable is set. *)
Theorem C61_variable_wins f f' p p' cwd o o' env l l' c c' A (k : scalar_key A) :
  two_runs f f' p p' cwd o o' env env l l' c c' ->
  field k = true -> (exists r, In r (variables k) /\ env_get (fst r) env <> None) ->
  easy_look k c = easy_look k c'.
Proof.
  intros (S & S' & H & H') K (r & I & N). apply (value_final f f' p p' cwd o o' env env l l' c c' S S' H H' k K).
  assert (D := loaded_readable _ _ _ _ _ _ _ S H A k). unfold scalar_of, scalar_after.
  destruct (consulted (variables k) env) as [[n [a|]]|] eqn:E; [reflexivity|now apply D in E|]. exfalso.
  clear D K. unfold consulted in E.
  induction (variables k) as [|v vs IH]; [destruct I|]. cbn in E.
  destruct (env_get (fst v) env) eqn:G; [discriminate|]. destruct I as [->|I]; [contradiction|]. now apply IH.
Qed.
Print Assumptions C61_variable_wins.

(** ** Examples

    Two runs.  In the second the nearest file is another one with the same [target] table, one
    file more is read, and the variables differ in CARGO_BUILD_JOBS, CARGO_ALIAS_r and RUSTDOC. *)
Definition c61_read (f : fs) (p : str) : str * config :=
  (p, match fs_read f p with
      | ReadTree t => match de_config t with Some c => c | None => config_default end
      | _ => config_default
      end).
Definition c61_cargo : string * toml :=
  ("target", c53_tab [("cfg(unix)", c53_tab [("runner", c53_arr ["./run"; "-x"]%string)])])%string.
Definition c61_near : toml := c53_tab [
  ("build", c53_tab [("jobs", TomlInt 99); ("target-dir", TomlStr (B "other")); ("rustflags", c53_arr ["-n"%string])]);
  ("term", c53_tab [("quiet", TomlBool true)]); c61_cargo]%string.
Definition c61_top : toml := c53_tab [
  ("http", c53_tab [("timeout", TomlInt 100)]); ("net", c53_tab [("offline", TomlBool true)])]%string.
Definition c61_fs : fs :=
  mkFsys (fun p => existsb (str_eqb p) [B "/p/a/.cargo/config.toml"; B "/p/.cargo/config"; B "/.cargo/config.toml"; B "/h/c/config"])
       (fun p => if str_eqb p (B "/p/a/.cargo/config.toml") then ReadTree c61_near
                 else if str_eqb p (B "/.cargo/config.toml") then ReadTree c61_top
                 else fs_read c53_fs p).
Definition c61_process : process_env :=
  mkProcess [(B "CARGO_HOME", B "/h/c"); (B "RUSTDOC", B "rd2"); (B "CARGO_BUILD_JOBS", B "5"); (B "CARGO_ALIAS_r", B "run")]
    None.
Definition c61_paths : list str :=
  [B "/p/a/.cargo/config.toml"; B "/p/.cargo/config"; B "/.cargo/config.toml"; B "/h/c/config"].
Definition c61_l : files := map (c61_read c53_fs) c53_paths.
Definition c61_l' : files := map (c61_read c61_fs) c61_paths.
Definition c61_env : env_map := env_filter (p_vars c53_process).
Definition c61_env' : env_map := env_filter (p_vars c61_process).
Lemma c61_sources : sources c53_fs c53_process (B "/p/a") options_default c61_env c61_l.
Proof.
  split; [intros n v; apply env_filter_get|]. exists (Some (B "/h/c")), c53_paths.
  split; [exact C53_ex_home|]. split; [exact c53_visited|]. split; [reflexivity|].
  repeat (constructor; [eexists; split; [reflexivity|vm_compute; reflexivity]|]). constructor.
Qed.
Lemma c61_sources' : sources c61_fs c61_process (B "/p/a") options_default c61_env' c61_l'.
Proof.
  split; [intros n v; apply env_filter_get|]. exists (Some (B "/h/c")), c61_paths.
  split; [apply home_absolute; [reflexivity|reflexivity|]; now exists (B "h/c")|].
  split; [apply visited_walk; vm_compute; reflexivity|]. split; [reflexivity|].
  repeat (constructor; [eexists; split; [reflexivity|vm_compute; reflexivity]|]). constructor.
Qed.
Definition c61_load := easy_load_with_options c61_fs c61_process (B "/p/a") options_default.
Example C61_ex_loads : match c53_load, c61_load with
  | Ok c, Ok c' => easy_look BuildJobs c = Some 4%Z /\ easy_look BuildJobs c' = Some 5%Z
      /\ easy_look HttpTimeout c = Some 7%N /\ easy_look HttpTimeout c' = Some 7%N
      /\ easy_look BuildRustc c = Some (B "/p/bin/rc") /\ easy_look BuildRustc c' = Some (B "/p/bin/rc")
      /\ easy_words (Alias (B "r")) c = Some [B "run"; B "--release"]
      /\ easy_words (Alias (B "r")) c' = Some [B "run"]
      /\ easy_words BuildTarget c = Some [B "t1"; B "/p/x/my.json"]
  | _, _ => False
  end.
Proof. vm_compute. repeat split. Qed.
Example C61_ex_agree :
  agree_scalar c61_env c61_env' c61_l c61_l' HttpTimeout /\ agree_list c61_env c61_env' c61_l c61_l' BuildTarget
  /\ agree_rustc c61_env c61_env' c61_l c61_l'.
Proof.
  unfold agree_rustc, agree_scalar, agree_list, vars_agree. cbn [variables list_variables].
  repeat split; try (intros r I; repeat (destruct I as [<-|I]; [reflexivity|]); destruct I); vm_compute; reflexivity.
Qed.
(** The files with a [target] table have the same one. *)
Definition c61_target_tables (l : files) : list (str * bmap target_config) :=
  filter (fun x => match snd x with [] => false | _ => true end) (map (fun x => (fst x, c_target (snd x))) l).
Lemma c61_defined {A} (g : str * bmap target_config -> option A) (l : files) : (forall q, g (q, []) = None) ->
  defined (map g (map (fun x => (fst x, c_target (snd x))) l)) = defined (map g (c61_target_tables l)).
Proof.
  intros N. unfold c61_target_tables. induction l as [|[q x] l IH]; [reflexivity|]. cbn [map fst snd filter].
  destruct (c_target x); cbn [map defined]; rewrite ?N, ?IH; [reflexivity|].
  destruct (g _); cbn [defined]; now rewrite ?IH.
Qed.
Lemma c61_first {A} (l : list (option A)) : first_defined l = match defined l with a :: _ => Some a | [] => None end.
Proof. induction l as [|[a|] l IH]; cbn; [reflexivity..|exact IH]. Qed.
Lemma c61_exists {A} (g : A -> bool) l : existsb g l = match defined (map (fun x => if g x then Some tt else None) l) with
                                                       | [] => false | _ => true end.
Proof. induction l as [|a l IH]; cbn; [reflexivity|]. destruct (g a); [reflexivity|exact IH]. Qed.
Lemma c61_tables env env' l l' name : c61_target_tables l = c61_target_tables l' -> agree_table env env' l l' name.
Proof.
  intros E.
  assert (K : forall A (g : str * config -> option A) h, (forall x, g x = h (fst x, c_target (snd x))) ->
    (forall q, h (q, []) = None) -> defined (map g l) = defined (map g l')).
  { intros A g h G N. assert (X := c61_defined h l N). rewrite E, <- (c61_defined h l' N), !map_map in X.
    now rewrite (map_ext _ _ G l), (map_ext _ _ G l'). }
  split; [|split; [|split; [|split]]].
  - unfold agree_entry. rewrite !c61_exists.
    now rewrite (K _ (fun x => if has_entry (TargetEntry name) (snd x) then Some tt else None)
                   (fun y => if match bget name (snd y) with Some _ => true | None => false end then Some tt else None)
                   (fun _ => eq_refl) (fun _ => eq_refl)).
  - split; [intros r []|]. rewrite !c61_first.
    now rewrite (K _ (scalar_in (TargetLinker name)) (fun y => option_map (from_file (fst y)) (under (snd y) name t_linker)) (fun _ => eq_refl) (fun _ => eq_refl)).
  - split; [exact I|]. f_equal.
    exact (K _ _ (fun y => option_map (words_from (fst y)) (under (snd y) name runner_words)) (fun _ => eq_refl) (fun _ => eq_refl)).
  - split; [intros r []|]. f_equal.
    exact (K _ _ (fun y => option_map (words_from (fst y)) (under (snd y) name rustflags_words)) (fun _ => eq_refl) (fun _ => eq_refl)).
  - split; [intros r []|]. f_equal.
    exact (K _ _ (fun y => option_map (words_from (fst y)) (under (snd y) name rustdocflags_words)) (fun _ => eq_refl) (fun _ => eq_refl)).
Qed.
Example C61_ex_query : agree_query c61_env c61_env' c61_l c61_l' (QTarget (ArgText (B "t1"))).
Proof.
  intros t E. assert (T : tt_triple t = B "t1").
  { vm_compute in E. injection E as <-. reflexivity. }
  rewrite T. clear t E T. split; [apply C61_ex_agree|].
  unfold agree_list, vars_agree. cbn [list_variables].
  split; [|split; [|split]].
  - split; [intros r I; repeat (destruct I as [<-|I]; [reflexivity|]); destruct I|vm_compute; reflexivity].
  - split; [intros r I; repeat (destruct I as [<-|I]; [reflexivity|]); destruct I|vm_compute; reflexivity].
  - intros key I. repeat (destruct I as [<-|I]; [reflexivity|]). destruct I.
  - intros name _. apply c61_tables. vm_compute. reflexivity.
Qed.
Example C61_ex_target : match c53_load, c61_load with
  | Ok c, Ok c' => run_query release c53_world c (QTarget (ArgText (B "t1"))) (state_init (ec_cx c))
      = run_query release c53_world c' (QTarget (ArgText (B "t1"))) (state_init (ec_cx c'))
  | _, _ => False
  end.
Proof. vm_compute. reflexivity. Qed.
(** A value that another file or another variable does change: nothing more than agreement could be asked. *)
Example C61_ex_not : ~ agree_scalar c61_env c61_env' c61_l c61_l' BuildJobs
  /\ ~ agree_list c61_env c61_env' c61_l c61_l' (Alias (B "r")).
Proof.
  split; intros [V _].
  - specialize (V _ (or_introl eq_refl)). discriminate V.
  - specialize (V _ (or_introl eq_refl)). discriminate V.
Qed.
(** The file [/.cargo/config.toml] does not mention [build.rustc], and sets [http.timeout] in vain. *)
Example C61_ex_silent : c61_l' = firstn 2 c61_l' ++ c61_read c61_fs (B "/.cargo/config.toml") :: skipn 3 c61_l'
  /\ look BuildRustc (snd (c61_read c61_fs (B "/.cargo/config.toml"))) = None
  /\ look HttpTimeout (snd (c61_read c61_fs (B "/.cargo/config.toml"))) <> None
  /\ look HttpTimeout (snd (c61_read c61_fs (B "/p/.cargo/config"))) <> None.
Proof. split; [reflexivity|]. split; [reflexivity|]. split; vm_compute; discriminate. Qed.
