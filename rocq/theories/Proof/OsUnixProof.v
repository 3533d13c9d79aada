(** The library's use of paths on Unix: the short forms of the model are the algorithms of std. *)
From Verif.Model Require Import Base Str Path StdPath OsPaths Error Value Walk De Triple Resolve.
From Verif.Proof Require Import StdPathProof StdUnixProof.

Lemma unix_config_path ex p : os_config_path unix ex p = config_path ex p.
Proof. unfold os_config_path, config_path. now rewrite !unix_join. Qed.
Lemma unix_cargo_home v d cwd : os_cargo_home unix v d cwd = cargo_home_with_cwd v d cwd.
Proof.
  unfold os_cargo_home, cargo_home_with_cwd. destruct v as [h|].
  - rewrite unix_absolute, unix_join. destruct (is_empty h); [|reflexivity]. destruct d; [now rewrite unix_join|reflexivity].
  - destruct d; [now rewrite unix_join|reflexivity].
Qed.
Lemma unix_dedup h p : os_dedup_home unix h p = dedup_home h p.
Proof. unfold os_dedup_home, dedup_home. destruct h; [now rewrite unix_eqb|reflexivity]. Qed.
Lemma unix_walk_next ex anc home :
  os_walk_next unix ex anc home = let '(r, s) := walk_next_from ex anc home in (r, (wk_ancestors s, wk_home s)).
Proof.
  revert home. induction anc as [|a rest IH]; intros home; cbn [os_walk_next walk_next_from].
  - destruct home; [now rewrite unix_config_path|reflexivity].
  - rewrite unix_join, unix_dedup, unix_config_path. destruct (config_path _ _); [reflexivity|apply IH].
Qed.
Lemma unix_walk_fuel ex n anc home : os_walk_fuel unix n ex (anc, home) = walk_all_fuel n ex (mkWalk anc home).
Proof.
  revert anc home. induction n as [|n IH]; intros anc home; [reflexivity|]. cbn [os_walk_fuel walk_all_fuel fst snd].
  rewrite unix_walk_next. unfold walk_next. cbn [wk_ancestors wk_home].
  destruct (walk_next_from ex anc home) as [[r|] [a h]]; [|reflexivity]. f_equal. apply IH.
Qed.
Lemma unix_walk ex cwd home : os_walk unix ex cwd home = walk_all ex (walk_init cwd home).
Proof. unfold os_walk, walk_all, walk_init. cbn [wk_ancestors]. rewrite unix_ancestors. apply unix_walk_fuel. Qed.
Lemma unix_parent_parent {E} p : @os_parent_parent unix E p = parent_parent p.
Proof. unfold os_parent_parent, parent_parent. rewrite unix_parent. destruct (parent p); [|reflexivity]. now rewrite unix_parent. Qed.
Lemma unix_root {E} d cwd : @os_root unix E d cwd = def_root d cwd.
Proof. destruct d as [p|k|[p|]]; cbn; auto using unix_parent_parent. Qed.
Lemma unix_root_opt {E} d cwd : @os_root_opt unix E d cwd = def_root_opt d cwd.
Proof. destruct d as [p|k|[p|]]; cbn; auto; now rewrite unix_parent_parent. Qed.
Lemma unix_program_path {E} v cwd : @os_program_path unix E v cwd = resolve_as_program_path v cwd.
Proof.
  unfold os_program_path, resolve_as_program_path. destruct (def v); [|reflexivity]. rewrite unix_absolute, unix_root.
  destruct (_ && _)%bool; [|reflexivity]. destruct (def_root _ _); cbn; [now rewrite unix_join|reflexivity..].
Qed.
Lemma unix_path {E} v cwd : @os_path unix E v cwd = resolve_as_path v cwd.
Proof.
  unfold os_path, resolve_as_path. destruct (def v); [|reflexivity]. rewrite unix_absolute, unix_root.
  destruct (negb _); [|reflexivity]. destruct (def_root _ _); cbn; [now rewrite unix_join|reflexivity..].
Qed.
Lemma unix_env_resolve {E} e cwd : @os_env_resolve unix E e cwd = env_resolve e cwd.
Proof.
  destruct e as [v|v f [r|]]; cbn; try reflexivity. destruct (val r); [|reflexivity]. destruct (def v); [|reflexivity].
  rewrite unix_root. destruct (def_root _ _); cbn; [now rewrite unix_join|reflexivity..].
Qed.
Lemma unix_is_spec_path s : os_is_spec_path unix s = is_spec_path s.
Proof. unfold os_is_spec_path, is_spec_path. now rewrite unix_extension. Qed.
Lemma unix_spec_path {E} s d cwd : @os_spec_path unix E s d cwd = resolve_spec_path s d cwd.
Proof.
  unfold os_spec_path, resolve_spec_path. destruct d; [|reflexivity]. rewrite unix_root_opt.
  destruct (def_root_opt _ _) as [[r|]| |]; cbn; [now rewrite unix_join|reflexivity..].
Qed.
Lemma unix_triple {E} s d cwd : @os_triple unix E s d cwd = triple_new s d cwd.
Proof. unfold os_triple, triple_new. now rewrite unix_is_spec_path, unix_file_stem, unix_spec_path. Qed.
Lemma unix_rustc_path w cargo s :
  fst (rustc_path w cargo s) = Ok (os_rustc_path unix [] cargo (w_exists w (s_clock s))).
Proof. unfold rustc_path, os_rustc_path. rewrite unix_pop, unix_join. reflexivity. Qed.
