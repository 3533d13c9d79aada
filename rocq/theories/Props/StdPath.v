(** C71: paths on Unix.  The short forms of [Model/Path.v], on which all other theorems about
    paths rest, compute what the algorithms of std compute byte by byte, and so does every
    function of the library that handles paths. *)
From Verif.Model Require Import Base Str Path StdPath OsPaths Error Value Walk De Triple EasyTypes Resolve Process
  Load Context Easy OsLoad.
From Verif.Proof Require Import StdPathProof StdUnixProof OsUnixProof OsLoadProof.

(** ** Single operations *)
Theorem C71_parent p : std_parent unix p = parent p.
Proof. exact (unix_parent p). Qed.
Print Assumptions C71_parent.
Theorem C71_ancestors p : std_ancestors unix p = ancestors p.
Proof. exact (unix_ancestors p). Qed.
Print Assumptions C71_ancestors.

(** What a component of [Model/Path.v] is for the machine. *)
Definition part_of (c : component) : part :=
  match c with RootDir => Root | CurDir => Cur | ParentDir => Up | Normal w => Name w end.
Theorem C71_components p : parts unix p = map part_of (components p).
Proof. exact (unix_parts p). Qed.
Print Assumptions C71_components.
(** Read from the back, the components come in the opposite order. *)
Theorem C71_components_back p : map bare (parts_back unix p) = rev (map part_of (components p)).
Proof. exact (unix_parts_back p). Qed.
Print Assumptions C71_components_back.
Theorem C71_equal p q : std_eqb unix p q = path_eqb p q.
Proof. exact (unix_eqb p q). Qed.
Print Assumptions C71_equal.
Theorem C71_absolute p : std_is_absolute unix p = is_absolute p /\ std_has_root unix p = is_absolute p.
Proof. exact (conj (unix_absolute p) (unix_has_root p)). Qed.
Print Assumptions C71_absolute.
Theorem C71_join base p : std_join unix base p = join base p.
Proof. exact (unix_join base p). Qed.
Print Assumptions C71_join.
Theorem C71_pop p : std_pop unix p = pop p.
Proof. exact (unix_pop p). Qed.
Print Assumptions C71_pop.
Theorem C71_file_name p :
  std_file_name unix p = file_name p /\ std_file_stem unix p = file_stem p /\ std_extension unix p = extension p.
Proof. exact (conj (unix_file_name p) (conj (unix_file_stem p) (unix_extension p))). Qed.
Print Assumptions C71_file_name.

(** ** The library *)
Theorem C71_walk ex cwd home : os_walk unix ex cwd home = walk_all ex (walk_init cwd home).
Proof. exact (unix_walk ex cwd home). Qed.
Print Assumptions C71_walk.
Theorem C71_cargo_home var dir cwd : os_cargo_home unix var dir cwd = cargo_home_with_cwd var dir cwd.
Proof. exact (unix_cargo_home var dir cwd). Qed.
Print Assumptions C71_cargo_home.
Theorem C71_values (E : Type) v cwd :
  @os_program_path unix E v cwd = resolve_as_program_path v cwd /\ @os_path unix E v cwd = resolve_as_path v cwd.
Proof. exact (conj (unix_program_path v cwd) (unix_path v cwd)). Qed.
Print Assumptions C71_values.
Theorem C71_env (E : Type) e cwd : @os_env_resolve unix E e cwd = env_resolve e cwd.
Proof. exact (unix_env_resolve e cwd). Qed.
Print Assumptions C71_env.
Theorem C71_triple (E : Type) s d cwd : @os_triple unix E s d cwd = triple_new s d cwd.
Proof. exact (unix_triple s d cwd). Qed.
Print Assumptions C71_triple.
Theorem C71_rustc w cargo s :
  fst (rustc_path w cargo s) = Ok (os_rustc_path unix [] cargo (w_exists w (s_clock s))).
Proof. exact (unix_rustc_path w cargo s). Qed.
Print Assumptions C71_rustc.
(** Loading and asking, as a whole. *)
Theorem C71_load f p cwd o : os_easy_load unix f p cwd o = easy_load_with_options f p cwd o.
Proof. exact (unix_easy_load f p cwd o). Qed.
Print Assumptions C71_load.
Theorem C71_query pr w c q s : os_run_query unix [] pr w c q s = run_query pr w c q s.
Proof. exact (unix_run_query pr w c q s). Qed.
Print Assumptions C71_query.

(** ** Concrete paths, run through the machine of std *)
Example C71_ex_parent :
  std_ancestors unix (B "//a/./b//../c/.") = [B "//a/./b//../c/."; B "//a/./b//.."; B "//a/./b"; B "//a"; B "/"]
  /\ std_parent unix (B "./a") = Some (B ".") /\ std_parent unix (B ".") = Some (B "")
  /\ std_parent unix (B "/") = None /\ std_parent unix (B "") = None /\ std_parent unix (B "/..") = Some (B "/").
Proof. vm_compute. auto 10. Qed.
Example C71_ex_components :
  parts unix (B "./a//./b/../.x/") = [Cur; Name (B "a"); Name (B "b"); Up; Name (B ".x")]
  /\ parts unix (B "//./a.") = [Root; Name (B "a.")] /\ parts_back unix (B "//./a.") = [Name (B "a."); Root].
Proof. vm_compute. auto. Qed.
Example C71_ex_equal :
  std_eqb unix (B "/h//.cargo/.") (B "/h/.cargo") = true /\ std_eqb unix (B "./h") (B "h") = false
  /\ std_eqb unix (B "/h/../h") (B "/h") = false.
Proof. vm_compute. auto. Qed.
Example C71_ex_names :
  std_file_name unix (B "/a/b.x.json/.") = Some (B "b.x.json") /\ std_file_stem unix (B "/a/b.x.json/.") = Some (B "b.x")
  /\ std_extension unix (B ".json") = None /\ std_file_stem unix (B ".json") = Some (B ".json")
  /\ std_file_name unix (B "a/..") = None.
Proof. vm_compute. auto 10. Qed.
Example C71_ex_join :
  std_join unix (B "/a") (B "b") = B "/a/b" /\ std_join unix (B "/a/") (B "b") = B "/a/b"
  /\ std_join unix (B "/a") (B "/b") = B "/b" /\ std_join unix [] (B "b") = B "b" /\ std_pop unix (B "/a//b/") = B "/a".
Proof. vm_compute. auto 10. Qed.
Example C71_ex_walk :
  os_walk unix (fun p => existsb (str_eqb p) [B "/p/a/.cargo/config.toml"; B "/p/.cargo/config"; B "/h/config"])
    (B "/p/a//b/.") (Some (B "/h"))
  = [B "/p/a/.cargo/config.toml"; B "/p/.cargo/config"; B "/h/config"].
Proof. vm_compute. reflexivity. Qed.
