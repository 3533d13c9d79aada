(** C30-C33: paths, programs and targets of the resolved configuration. *)
From Verif.Model Require Import Base Str Path BMap Error Value De Serde Triple EasyTypes Walk Load Context
  ApplyEnv Resolve Easy.
From Verif.Spec Require Import StrSpec PathSpec WalkSpec ConfigSpec LoadSpec EnvSpec TripleSpec RootSpec.
From Verif.Proof Require Import StrFacts PathFacts WalkProof TripleProof RootProof.

(** ** C30 *)

(** The path of a program is the one [program_at] describes, and there is at most one. *)
Theorem C30_program v cwd p :
  resolve_as_program_path (E := error) v cwd = Ok p <-> program_at cwd v p.
Proof. exact (program_ok v cwd p). Qed.
Print Assumptions C30_program.
Theorem C30_unique cwd v p p' : program_at cwd v p -> program_at cwd v p' -> p = p'.
Proof. exact (program_at_unique cwd v p p'). Qed.
Print Assumptions C30_unique.

(** The programs of a resolved configuration, from the files and the environment. *)
Theorem C30_build_programs c cx ec :
  one_value_each (cx_env cx) -> from_unresolved c cx = Ok ec ->
  let cwd := cx_current_dir cx in let b := ec_build ec in
  let after (k : scalar_key str) := scalar_after k (cx_env cx) (look k c) in
  both (program_at cwd) (after BuildRustc) (eb_rustc b)
  /\ both (program_at cwd) (after BuildRustcWrapper) (eb_rustc_wrapper b)
  /\ both (program_at cwd) (after BuildRustcWorkspaceWrapper) (eb_rustc_workspace_wrapper b)
  /\ both (program_at cwd) (after BuildRustdoc) (eb_rustdoc b).
Proof.
  exact (fun N H => let K := from_unresolved_scalar c cx ec N H in
           conj (proj1 K) (conj (proj1 (proj2 K)) (conj (proj1 (proj2 (proj2 K)))
             (proj1 (proj2 (proj2 (proj2 K))))))).
Qed.
Print Assumptions C30_build_programs.
Theorem C30_browser c cx ec :
  from_unresolved c cx = Ok ec ->
  both (command_at (cx_current_dir cx)) (program_after DocBrowser (cx_env cx) (look_program DocBrowser c))
    (option_map program_of (ed_browser (ec_doc ec))).
Proof. exact (from_unresolved_browser c cx ec). Qed.
Print Assumptions C30_browser.
(** Linker and runner of a target (which of the sources is used: C21). *)
Theorem C30_target cwd t e :
  etarget_of cwd t = Ok e ->
  both (program_at cwd) (t_linker t) (et_linker e)
  /\ both (command_at cwd) (option_map program_words (t_runner t)) (option_map program_of (et_runner e)).
Proof. exact (fun H => let K := target_programs cwd t e H in conj (proj1 K) (proj1 (proj2 K))). Qed.
Print Assumptions C30_target.

(** The directory a file belongs to: [d] for a file in [d/.cargo], the directory above
    CARGO_HOME for a file in CARGO_HOME. *)
Theorem C30_root_of_project_file cwd names n :
  Forall PathSpec.name_ok names -> PathSpec.name_ok n ->
  root_of cwd (DefPath (child (dot_cargo (abs names)) n)) (abs names).
Proof. exact (root_abs cwd names n). Qed.
Print Assumptions C30_root_of_project_file.
Theorem C30_root_of_any_file cwd d n :
  PathSpec.name_ok n ->
  exists r, root_of cwd (DefPath (child (dot_cargo d) n)) r /\ (d <> [] -> same_place r d).
Proof. exact (dot_cargo_root cwd d n). Qed.
Print Assumptions C30_root_of_any_file.
Theorem C30_root_of_home_file cwd h n r :
  PathSpec.name_ok n -> h <> [] -> parent_dir h r ->
  exists r', root_of cwd (DefPath (child h n)) r' /\ same_place r' r.
Proof. exact (fun N Nh => home_root cwd h n N Nh r). Qed.
Print Assumptions C30_root_of_home_file.

Definition in_file {A} (a : A) : value A := mkValue a (Some (DefPath (B "/p/a/.cargo/config.toml"))).
Definition in_env {A} (a : A) : value A := mkValue a (Some (DefEnv (B "RUSTC"))).
Example C30_ex :
  map (fun v => resolve_as_program_path (E := error) v (B "/cwd"))
    [in_file (B "tools/rustc"); in_file (B "rustc"); in_file (B "/bin/rustc"); in_env (B "./rustc");
     in_file (B "a\b"); in_file (B "")]
  = map Ok [B "/p/a/tools/rustc"; B "rustc"; B "/bin/rustc"; B "/cwd/./rustc"; B "/p/a/a\b"; B ""].
Proof. reflexivity. Qed.
Example C30_ex_names : Forall PathSpec.name_ok [B "p"; B "a"] /\ PathSpec.name_ok (B "config").
Proof. split; repeat constructor; try discriminate; cbn; intuition discriminate. Qed.
Example C30_ex_home : parent_dir (B "/home/u/.cargo") (B "/home/u").
Proof. apply parent_iff. reflexivity. Qed.

(** ** C31 *)
Theorem C31_path v cwd p : resolve_as_path (E := error) v cwd = Ok p <-> path_at cwd v p.
Proof. exact (path_ok v cwd p). Qed.
Print Assumptions C31_path.
Theorem C31_unique cwd v p p' : path_at cwd v p -> path_at cwd v p' -> p = p'.
Proof. exact (path_at_unique cwd v p p'). Qed.
Print Assumptions C31_unique.
Theorem C31_build_paths c cx ec :
  one_value_each (cx_env cx) -> from_unresolved c cx = Ok ec ->
  let cwd := cx_current_dir cx in let b := ec_build ec in
  let after (k : scalar_key str) := scalar_after k (cx_env cx) (look k c) in
  both (path_at cwd) (after BuildTargetDir) (eb_target_dir b)
  /\ both (path_at cwd) (after BuildDepInfoBasedir) (eb_dep_info_basedir b).
Proof. exact (fun N H => proj2 (proj2 (proj2 (proj2 (from_unresolved_scalar c cx ec N H))))). Qed.
Print Assumptions C31_build_paths.
(** The [env] table: every entry keeps its value, or has it as a path; none is relative
    any more. *)
Theorem C31_env_values c cx ec n :
  from_unresolved c cx = Ok ec ->
  both (fun v x =>
          ee_relative x = false
          /\ ee_force x = match look (EnvVarForce n) c with Some f => val f | None => false end
          /\ (if match look (EnvVarRelative n) c with Some r => val r | None => false end
              then path_at (cx_current_dir cx) v (ee_value x) else ee_value x = val v))
    (look (EnvVarValue n) c) (bget n (ec_env ec)).
Proof. exact (from_unresolved_env c cx ec n). Qed.
Print Assumptions C31_env_values.
(** Where the root is absolute, so is the path; the root of an absolute file is. *)
Theorem C31_absolute cwd v p :
  path_at cwd v p -> def v <> None -> (forall d r, def v = Some d -> root_of cwd d r -> absolute r) ->
  absolute p.
Proof. exact (path_absolute cwd v p). Qed.
Print Assumptions C31_absolute.
Theorem C31_absolute_file cwd p r : absolute p -> root_of cwd (DefPath p) r -> absolute r.
Proof. exact (root_absolute cwd p r). Qed.
Print Assumptions C31_absolute_file.

Definition c30_ex_env : env_map := [(B "RUSTC", B "../x/rustc"); (B "BROWSER", B "./ff  -new")].
Definition c30_ex_context : context := mkContext c30_ex_env (B "cargo") (B "/cwd") None None None.
Definition c30_ex_toml : toml :=
  TomlTab [(B "build", TomlTab [(B "rustc-wrapper", TomlStr (B "bin/wrap")); (B "rustdoc", TomlStr (B "rustdoc"));
                              (B "target-dir", TomlStr (B "out")); (B "target", TomlArr [TomlStr (B "x/my.json"); TomlStr (B "t1")])]);
          (B "env", TomlTab [(B "A", TomlTab [(B "value", TomlStr (B "dir")); (B "relative", TomlBool true); (B "force", TomlBool true)]);
                            (B "B", TomlStr (B "dir"))])].
Definition c30_ex_fs : fs :=
  mkFsys (fun p => str_eqb p (B "/p/.cargo/config.toml")) (fun _ => ReadTree c30_ex_toml).
Example C31_ex :
  match (c <- load_with_options c30_ex_fs (B "/p/q") None ;; from_unresolved c c30_ex_context) with
  | Ok ec =>
      eb_rustc (ec_build ec) = Some (B "/cwd/../x/rustc")
      /\ eb_rustc_wrapper (ec_build ec) = Some (B "/p/bin/wrap")
      /\ eb_rustdoc (ec_build ec) = Some (B "rustdoc")
      /\ eb_target_dir (ec_build ec) = Some (B "/p/out")
      /\ option_map (map cli_target) (eb_target (ec_build ec)) = Some [B "/p/x/my.json"; B "t1"]
      /\ option_map (map tt_triple) (eb_target (ec_build ec)) = Some [B "my"; B "t1"]
      /\ ec_env ec = [(B "A", mkEenv (B "/p/dir") true false); (B "B", mkEenv (B "dir") false false)]
      /\ option_map program_of (ed_browser (ec_doc ec)) = Some (B "/cwd/./ff", [B "-new"])
  | _ => False
  end.
Proof. vm_compute. repeat split. Qed.
Example C31_ex_env : one_value_each (cx_env c30_ex_context).
Proof. repeat constructor; cbn; intuition discriminate. Qed.

(** ** C32 *)

(** Loading panics only if CARGO_HOME has no parent directory, or if a configured target
    is a path without a last name. *)
Theorem C32_panic_cause f p cwd o x :
  let cx := into_context p o cwd in
  one_value_each (cx_env cx) -> easy_load_with_options f p cwd o = Panic x ->
  (exists h, cx_cargo_home p cx cwd = Some h /\ rootish h) \/
  (exists c de fm ws w, load_with_options f cwd (cx_cargo_home p cx cwd) = Ok c
     /\ apply_env (cx_env cx) c = Ok de /\ look_list BuildTarget de = Some (fm, ws) /\ In w ws
     /\ spec_like (val w) /\ ~ nameable (val w)).
Proof. exact (load_panic f p cwd o x). Qed.
Print Assumptions C32_panic_cause.
(** Reading and merging the files alone never panics. *)
Theorem C32_unresolved_never f cwd home : is_panic (load_with_options f cwd home) = false.
Proof. exact (LoadProof.load_files_panic f (walk_all (fs_exists f) (walk_init cwd home))). Qed.
Print Assumptions C32_unresolved_never.
(** A target without a last name always panics. *)
Theorem C32_nameless_target v cwd :
  spec_like (val v) -> (forall n, ~ last_name (val v) n) ->
  triple_new (E := error) (val v) (def v) (Some cwd) = Panic PUnwrapNone.
Proof. exact (target_panics v cwd). Qed.
Print Assumptions C32_nameless_target.
(** A file in a CARGO_HOME without a parent directory has no root. *)
Theorem C32_rootless_home cwd h n r :
  PathSpec.name_ok n -> rootish h -> ~ root_of cwd (DefPath (child h n)) r.
Proof. exact (home_rootish cwd h n r). Qed.
Print Assumptions C32_rootless_home.

(** The claim as first stated is false. *)
Definition c32_process : process_env := mkProcess [] (Some (B "/root")).
Definition c32_home (h : str) : options := opt_cargo_home options_default (Some h).
Theorem C32_home_refuted :
  exists f h, easy_load_with_options f c32_process (B "/p") (c32_home h) = Panic PUnwrapNone
              /\ is_ok (load_with_options f (B "/p") (Some h)) = true.
Proof.
  exists (mkFsys (fun p => str_eqb p (B "/config.toml"))
            (fun _ => ReadTree (TomlTab [(B "build", TomlTab [(B "target-dir", TomlStr (B "out"))])]))), (B "/").
  vm_compute. split; reflexivity.
Qed.
Print Assumptions C32_home_refuted.
Theorem C32_target_refuted :
  exists f s, spec_like s /\
  easy_load_with_options f (mkProcess [(B "CARGO_BUILD_TARGET", s)] None) (B "/p") options_default = Panic PUnwrapNone.
Proof.
  exists (mkFsys (fun _ => false) (fun _ => ReadBad)), (B "a/..").
  split; [right; left; cbn; tauto|vm_compute; reflexivity].
Qed.
Print Assumptions C32_target_refuted.

Example C32_ex :
  is_ok (easy_load_with_options c30_ex_fs c32_process (B "/p/q") options_default) = true
  /\ one_value_each (cx_env (into_context c32_process options_default (B "/p/q"))).
Proof. split; [vm_compute; reflexivity|]. constructor. Qed.

(** ** C33 *)

(** A target that is not like a path is kept as it is; otherwise the triple is the stem of
    the last name, and the command line gets the path. *)
Theorem C33_shape s d cwd t :
  triple_new (E := error) s d cwd = Ok t ->
  (~ spec_like s /\ tt_triple t = s /\ cli_target t = s /\ tt_spec_path t = None) \/
  (spec_like s /\ (exists n, last_name s n /\ stem_of n (tt_triple t)) /\ tt_spec_path t = Some (cli_target t)).
Proof. exact (triple_new_shape s d cwd t). Qed.
Print Assumptions C33_shape.
Theorem C33_spec_like s : is_spec_path s = true <-> spec_like s.
Proof. exact (is_spec_path_iff s). Qed.
Print Assumptions C33_spec_like.
Theorem C33_stem p st : file_stem p = Some st <-> exists n, last_name p n /\ stem_of n st.
Proof. exact (file_stem_iff p st). Qed.
Print Assumptions C33_stem.
(** Where the path is. *)
Theorem C33_text_kept s t : triple_from (E := error) s = Ok t -> cli_target t = s.
Proof. exact (triple_from_kept s t). Qed.
Print Assumptions C33_text_kept.
Theorem C33_configured_targets c cx ec :
  one_value_each (cx_env cx) -> from_unresolved c cx = Ok ec ->
  both (fun ws ts => Forall2 (target_at (cx_current_dir cx)) (snd ws) (map cli_target ts))
    (words_after (list_variables BuildTarget) (cx_env cx) (look_list BuildTarget c))
    (eb_target (ec_build ec)).
Proof. exact (from_unresolved_targets c cx ec). Qed.
Print Assumptions C33_configured_targets.

(** Equality is that of the command line form, and then everything is equal. *)
Theorem C33_equality a b : triple_eqb a b = true <-> cli_target a = cli_target b.
Proof. exact (str_eqb_eq (cli_target a) (cli_target b)). Qed.
Print Assumptions C33_equality.
Theorem C33_equal_targets a b : made a -> made b -> triple_eqb a b = true -> a = b.
Proof. exact (fun Ha Hb H => made_unique a b Ha Hb (proj1 (C33_equality a b) H)). Qed.
Print Assumptions C33_equal_targets.
(** Order and hash agree with equality. *)
Theorem C33_order_equality a b : triple_cmp a b = Eq <-> triple_eqb a b = true.
Proof. exact (iff_trans (str_cmp_eq (cli_target a) (cli_target b)) (iff_sym (C33_equality a b))). Qed.
Print Assumptions C33_order_equality.
Theorem C33_order_antisymmetric a b : triple_cmp b a = CompOpp (triple_cmp a b).
Proof. exact (str_cmp_antisym (cli_target a) (cli_target b)). Qed.
Print Assumptions C33_order_antisymmetric.
Theorem C33_order_transitive a b c : triple_cmp a b = Lt -> triple_cmp b c = Lt -> triple_cmp a c = Lt.
Proof. exact (str_cmp_trans (cli_target a) (cli_target b) (cli_target c)). Qed.
Print Assumptions C33_order_transitive.
Theorem C33_hash a b : triple_eqb a b = true <-> triple_hashed a = triple_hashed b.
Proof. exact (C33_equality a b). Qed.
Print Assumptions C33_hash.

Definition show_target (r : res error triple) : option (str * str) :=
  match r with Ok t => Some (tt_triple t, cli_target t) | _ => None end.
Example C33_ex :
  show_target (triple_new (B "x86_64-unknown-linux-gnu") None None)
    = Some (B "x86_64-unknown-linux-gnu", B "x86_64-unknown-linux-gnu")
  /\ show_target (triple_new (B "my.target.json") (Some (DefPath (B "/p/.cargo/config"))) (Some (B "/cwd")))
    = Some (B "my.target", B "/p/my.target.json")
  /\ show_target (triple_new (B "a/.json/") (Some (DefEnv (B "CARGO_BUILD_TARGET"))) (Some (B "/cwd")))
    = Some (B ".json", B "/cwd/a/.json/")
  /\ show_target (triple_new (B "thumbv7.1") None None) = Some (B "thumbv7.1", B "thumbv7.1").
Proof. repeat split. Qed.
(** Equal triples with different files are different targets. *)
Example C33_ex_different :
  exists a b, made a /\ made b /\ tt_triple a = tt_triple b /\ triple_eqb a b = false.
Proof.
  exists (mkTriple (B "x") (Some (B "a/x.json"))), (mkTriple (B "x") (Some (B "b/x.json"))).
  split; [exists (B "a/x.json"), None, None; reflexivity|].
  split; [exists (B "b/x.json"), None, None; reflexivity|]. split; reflexivity.
Qed.
Example C33_ex_made : made (mkTriple (B "x") (Some (B "a/x.json"))).
Proof. exists (B "a/x.json"), None, None. reflexivity. Qed.
