(** C68: values made in code are those read from files and variables. *)
From Verif.Model Require Import Base Str Path BMap Error Value De Serde EasyTypes EasySerde Triple Load Context Process Resolve Easy Construct.
From Verif.Spec Require Import StrSpec PathSpec ConfigSpec LoadSpec EnvSpec RootSpec TargetSpec SerdeSpec FinalSpec HandSpec ConstructSpec.
From Verif.Proof Require Import StrFacts Utf8Proof LoadProof SerdeProof FinalProof ConstructProof EnvTextProof EnvVarsProof.
From Verif.Spec Require Import FinalSpec.
From Verif.Props Require Import Serde Final Local Hand.

Section Loaded.
Context (f : fs) (p : process_env) (cwd : str) (o : options) (env : env_map) (l : files) (c : econfig).

(** An alias in the documents. *)
Theorem C68_alias docs n x : received f p cwd o env l c -> documents f (map fst l) docs ->
  env_get (B "CARGO_ALIAS_" ++ n) env = None ->
  written (values_at [B "alias"; n] docs) x -> bget n (ec_alias c) = Some (esl_from x).
Proof.
  intros [S H] D U W.
  assert (E := list_code f p cwd o env l c S H docs D (Alias n) x eq_refl (fun u w K => K) ltac:(discriminate)
                 ltac:(constructor; [exact U|constructor]) W).
  cbn in E. destruct (bget n (ec_alias c)) as [[y]|]; [|discriminate E]. injection E as ->. now destruct x.
Qed.
(** Flags in the documents: neither of the three variables is set. *)
Theorem C68_flags docs n x : received f p cwd o env l c -> documents f (map fst l) docs ->
  env_get (B "CARGO_ENCODED_" ++ name_of_flags n) env = None -> env_get (name_of_flags n) env = None ->
  env_get (B "CARGO_BUILD_" ++ name_of_flags n) env = None ->
  written (values_at (list_place (flags_of_build n)) docs) x ->
  match n with
  | Rustflags => eb_rustflags (ec_build c) = Some (eflags_from x)
  | Rustdocflags => eb_rustdocflags (ec_build c) = Some (eflags_from x)
  end.
Proof.
  intros [S H] D U1 U2 U3 W.
  assert (E := list_code f p cwd o env l c S H docs D (flags_of_build n) x
                 ltac:(now destruct n) ltac:(now destruct n) ltac:(now destruct n)
                 ltac:(destruct n; (constructor; [exact U1|constructor; [exact U2|constructor; [exact U3|constructor]]])) W).
  destruct n; cbn in E.
  - destruct (eb_rustflags (ec_build c)) as [[y]|]; [|discriminate E]. injection E as ->. now destruct x.
  - destruct (eb_rustdocflags (ec_build c)) as [[y]|]; [|discriminate E]. injection E as ->. now destruct x.
Qed.
(** In variables. *)
Theorem C68_alias_variable n s : received f p cwd o env l c -> env_get (B "CARGO_ALIAS_" ++ n) env = Some s ->
  bget n (ec_alias c) = Some (esl_from (FromText s)).
Proof.
  intros [S H] G.
  assert (E := variable_code f p cwd o env l c S H (Alias n) [] _ _ [] s _ _ eq_refl ltac:(discriminate) eq_refl
                 ltac:(constructor) G eq_refl).
  cbn in E. destruct (bget n (ec_alias c)) as [[y]|]; [|discriminate E]. now injection E as ->.
Qed.
Definition flags_field (n : flags_name) : option eflags :=
  match n with Rustflags => eb_rustflags (ec_build c) | Rustdocflags => eb_rustdocflags (ec_build c) end.
Theorem C68_flags_variable n s : received f p cwd o env l c ->
  (env_get (B "CARGO_ENCODED_" ++ name_of_flags n) env = Some s -> flags_field n = Some (eflags_from_encoded s))
  /\ (env_get (B "CARGO_ENCODED_" ++ name_of_flags n) env = None -> env_get (name_of_flags n) env = Some s ->
      flags_field n = Some (eflags_from (FromText s)))
  /\ (env_get (B "CARGO_ENCODED_" ++ name_of_flags n) env = None -> env_get (name_of_flags n) env = None ->
      env_get (B "CARGO_BUILD_" ++ name_of_flags n) env = Some s -> flags_field n = Some (eflags_from (FromText s))).
Proof.
  intros [S H].
  assert (V : exists w, list_variables (flags_of_build n)
    = [(B "CARGO_ENCODED_" ++ name_of_flags n, fun s => Some (AsArray, split_encoded s));
       (name_of_flags n, w); (B "CARGO_BUILD_" ++ name_of_flags n, w)] /\ w = fun s => Some (AsString, split_space_separated s)).
  { eexists. split; [|reflexivity]. destruct n; reflexivity. }
  destruct V as (w & V & Ew). subst w.
  assert (F : forall ws, easy_words (flags_of_build n) c = Some ws -> flags_field n = Some (mkEflags ws)).
  { intros ws. destruct n; cbn; [destruct (eb_rustflags (ec_build c)) as [[y]|]|destruct (eb_rustdocflags (ec_build c)) as [[y]|]];
      cbn; intros E; try discriminate E; now injection E as ->. }
  assert (Lf : list_field (flags_of_build n) = true) by now destruct n.
  assert (Nt : flags_of_build n <> BuildTarget) by now destruct n.
  split; [|split].
  - intros G. apply F. exact (variable_code f p cwd o env l c S H _ [] _ _ _ s _ _ Lf Nt V ltac:(constructor) G eq_refl).
  - intros U G. apply F.
    exact (variable_code f p cwd o env l c S H _ [_] _ _ _ s _ _ Lf Nt V ltac:(now repeat constructor) G eq_refl).
  - intros U U' G. apply F.
    exact (variable_code f p cwd o env l c S H _ [_; _] _ _ _ s _ _ Lf Nt V ltac:(now repeat constructor) G eq_refl).
Qed.
(** A program: the first word is a path, relative to the closest document that has the key. *)
Theorem C68_browser docs x path args : received f p cwd o env l c -> documents f (map fst l) docs ->
  written_program (values_at [B "doc"; B "browser"] docs) x -> esl_list (esl_from x) = path :: args ->
  exists q u before after pth,
    docs = before ++ (q, u) :: after /\ at_path [B "doc"; B "browser"] u <> None
    /\ Forall (fun d => at_path [B "doc"; B "browser"] (snd d) = None) before
    /\ program_at cwd (mkValue path (Some (DefPath q))) pth
    /\ ed_browser (ec_doc c) = Some (epa_build pth [Args args]).
Proof.
  intros [S H] D W E. apply (browser_code f p cwd o env l c S H docs D x path args W). now destruct x.
Qed.
End Loaded.
Print Assumptions C68_alias.
Print Assumptions C68_flags.
Print Assumptions C68_alias_variable.
Print Assumptions C68_flags_variable.
Print Assumptions C68_browser.

(** A program made by any calls: the path first, then all arguments in the order of the
    calls.  The command has these words, and so has what is written. *)
Theorem C68_builder p calls :
  epa_path (epa_build p calls) = p /\ epa_args (epa_build p calls) = concat (map added calls)
  /\ command_words (command_of (epa_build p calls)) = p :: concat (map added calls)
  /\ eser_pa (epa_build p calls) = array (map lossy (p :: concat (map added calls))).
Proof. unfold epa_build. rewrite build_from. cbn. repeat split. Qed.
Print Assumptions C68_builder.
(** So every value can be made. *)
Theorem C68_all e : exists calls, epa_build (epa_path e) calls = e.
Proof. exists [Args (epa_args e)]. unfold epa_build. rewrite build_from. cbn. rewrite app_nil_r. now destruct e. Qed.
Print Assumptions C68_all.

(** Not so: one text is the list of that text. *)
Theorem C68_text_as_array_refuted :
  exists s, esl_from (FromText s) <> esl_from (FromArray [s]) /\ eflags_from (FromText s) <> eflags_from (FromArray [s]).
Proof. exists (B "run --release"). split; vm_compute; discriminate. Qed.
Print Assumptions C68_text_as_array_refuted.

(** ** Examples: two files, the nearer one in the current directory *)
Definition c68_near : toml := c53_tab [
  ("alias", c53_tab [("r", TomlStr (B "run  --release")); ("t", c53_arr ["test x"; "-q"]%string)]);
  ("build", c53_tab [("rustflags", c53_arr ["-C a"; "-n"]%string)]);
  ("doc", c53_tab [("browser", c53_arr ["./open"; "-x"]%string)])]%string.
Definition c68_far : toml := c53_tab [
  ("alias", c53_tab [("t", c53_arr ["-v"]%string)]);
  ("build", c53_tab [("rustflags", c53_arr ["-f"]%string); ("rustdocflags", TomlStr (B "--cfg docsrs"))]);
  ("doc", c53_tab [("browser", c53_arr ["-y z"]%string)])]%string.
Definition c68_paths : list str := [B "/p/a/.cargo/config.toml"; B "/h/c/config"].
Definition c68_docs : list (str * toml) := [(B "/p/a/.cargo/config.toml", c68_near); (B "/h/c/config", c68_far)].
Definition c68_fs : fs :=
  mkFsys (fun p => existsb (str_eqb p) c68_paths)
       (fun p => if str_eqb p (B "/p/a/.cargo/config.toml") then ReadTree c68_near
                 else if str_eqb p (B "/h/c/config") then ReadTree c68_far else ReadErr KNotFound).
Definition c68_process : process_env :=
  mkProcess [(B "CARGO_HOME", B "/h/c"); (B "CARGO_ALIAS_b", B " build --all ")] None.
Definition c68_env : env_map := env_filter (p_vars c68_process).
Definition c68_l : files := map (c61_read c68_fs) c68_paths.
Definition c68_load := easy_load_with_options c68_fs c68_process (B "/p/a") options_default.
Example C68_ex_received : exists c, received c68_fs c68_process (B "/p/a") options_default c68_env c68_l c /\ c68_load = Ok c.
Proof.
  destruct c68_load as [c| |] eqn:E; [|vm_compute in E; discriminate..].
  exists c. split; [|reflexivity]. split; [|exact E].
  split; [intros n v; apply env_filter_get|]. exists (Some (B "/h/c")), c68_paths.
  split; [apply home_absolute; [reflexivity|reflexivity|]; now exists (B "h/c")|].
  split; [apply visited_walk; vm_compute; reflexivity|]. split; [reflexivity|].
  repeat (constructor; [eexists; split; [reflexivity|vm_compute; reflexivity]|]). constructor.
Qed.
Example C68_ex_documents : documents c68_fs (map fst c68_l) c68_docs.
Proof.
  split; [reflexivity|].
  repeat (constructor; [split; [reflexivity|apply laid_out_check; vm_compute; reflexivity]|]). constructor.
Qed.
Example C68_ex_written :
  written (values_at [B "alias"; B "r"] c68_docs) (FromText (B "run  --release"))
  /\ written (values_at [B "alias"; B "t"] c68_docs) (FromArray [B "-v"; B "test x"; B "-q"])
  /\ written (values_at [B "build"; B "rustflags"] c68_docs) (FromArray [B "-f"; B "-C a"; B "-n"])
  /\ written (values_at [B "build"; B "rustdocflags"] c68_docs) (FromText (B "--cfg docsrs"))
  /\ written_program (values_at [B "doc"; B "browser"] c68_docs) (FromArray [B "./open"; B "-x"; B "-y z"])
  /\ env_get (B "CARGO_ALIAS_" ++ B "b") c68_env = Some (B " build --all ").
Proof.
  split; [apply (written_text (B "run  --release") [])|].
  split; [apply (written_arrays [[B "test x"; B "-q"]; [B "-v"]]); discriminate|].
  split; [apply (written_arrays [[B "-C a"; B "-n"]; [B "-f"]]); discriminate|].
  split; [apply (written_text (B "--cfg docsrs") [])|].
  split; [apply (program_arrays [[B "./open"; B "-x"]; [B "-y z"]]); discriminate|].
  reflexivity.
Qed.
Example C68_ex : match c68_load with
  | Ok c =>
      bget (B "r") (ec_alias c) = Some (esl_from (FromText (B "run  --release")))
      /\ bget (B "t") (ec_alias c) = Some (esl_from (FromArray [B "-v"; B "test x"; B "-q"]))
      /\ bget (B "b") (ec_alias c) = Some (mkEsl [B "build"; B "--all"])
      /\ eb_rustflags (ec_build c) = Some (eflags_from (FromArray [B "-f"; B "-C a"; B "-n"]))
      /\ eb_rustdocflags (ec_build c) = Some (mkEflags [B "--cfg"; B "docsrs"])
      /\ ed_browser (ec_doc c) = Some (epa_build (B "/p/a/./open") [Arg (B "-x"); Args [B "-y z"]])
  | _ => False
  end.
Proof. vm_compute. repeat split. Qed.
