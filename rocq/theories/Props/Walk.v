(** C04-C06, C47: discovery of configuration files. *)
From Verif.Model Require Import Base Str Path Walk.
From Verif.Spec Require Import StrSpec PathSpec WalkSpec.
From Verif.Proof Require Import StrFacts PathFacts WalkProof.

(** ** C04 *)

(** The files reported are those of the directories of the search order, in order. *)
Theorem C04_discovery_order ex cwd home dirs :
  search_order cwd home dirs -> files_in ex dirs (walk_all ex (walk_init cwd home)).
Proof.
  exact (fun H => let '(ex_intro _ ds (conj H1 H2)) := walk_order ex cwd home in
                  eq_ind ds (fun d => files_in ex d (walk_all ex (walk_init cwd home))) H2 dirs
                         (search_order_unique cwd home ds dirs H1 H)).
Qed.
Print Assumptions C04_discovery_order.

(** There is exactly one search order, and exactly one list of files for it. *)
Theorem C04_search_order_exists cwd home : exists dirs, search_order cwd home dirs.
Proof.
  exact (let '(ex_intro _ ds (conj H1 _)) := walk_order (fun _ => false) cwd home in
         ex_intro _ ds H1).
Qed.
Print Assumptions C04_search_order_exists.
Theorem C04_search_order_unique cwd home a b :
  search_order cwd home a -> search_order cwd home b -> a = b.
Proof. exact (search_order_unique cwd home a b). Qed.
Print Assumptions C04_search_order_unique.
Theorem C04_files_unique ex dirs a b : files_in ex dirs a -> files_in ex dirs b -> a = b.
Proof. exact (files_in_unique ex dirs a b). Qed.
Print Assumptions C04_files_unique.

(** For an ordinary absolute directory the directories above are what one expects. *)
Theorem C04_above_absolute names :
  Forall name_ok names -> ancestors (abs names) = map abs (prefixes_desc names).
Proof. exact (abs_ancestors names). Qed.
Print Assumptions C04_above_absolute.
Theorem C04_above_any cwd : upwards cwd (ancestors cwd).
Proof. exact (ancestors_up cwd). Qed.
Print Assumptions C04_above_any.

Definition some_files (l : list str) (p : str) : bool := existsb (str_eqb p) l.
Example C04_ex :
  walk_all (some_files [B "/p/a/.cargo/config.toml"; B "/p/.cargo/config"; B "/p/.cargo/config.toml";
                        B "/h/.cargo/config.toml"; B "/p/a/b/.cargo/other"])
           (walk_init (B "/p/a//b/.") (Some (B "/h/.cargo")))
  = [B "/p/a/.cargo/config.toml"; B "/p/.cargo/config"; B "/h/.cargo/config.toml"].
Proof. reflexivity. Qed.
Example C04_ex_names : Forall name_ok [B "home"; B "user"; B "my dir"].
Proof. repeat constructor; try discriminate; cbn; intuition discriminate. Qed.
Example C04_ex_above :
  ancestors (B "/p/a//b/.") = [B "/p/a//b/."; B "/p/a"; B "/p"; B "/"]
  /\ ancestors (B "./a/..") = [B "./a/.."; B "./a"; B "."; B ""].
Proof. split; reflexivity. Qed.

(** ** C05 *)

(** If CARGO_HOME is the [.cargo] of a directory above, nothing is added for it. *)
Theorem C05_home_seen ex cwd h :
  Exists (fun d => same_place h (dot_cargo d)) (ancestors cwd) ->
  walk_all ex (walk_init cwd (Some h)) = walk_all ex (walk_init cwd None).
Proof. exact (home_seen_same ex cwd h). Qed.
Print Assumptions C05_home_seen.

(** Otherwise its file, if any, comes after all others. *)
Theorem C05_home_last ex cwd h f :
  ~ Exists (fun d => same_place h (dot_cargo d)) (ancestors cwd) ->
  file_in ex h f ->
  walk_all ex (walk_init cwd (Some h)) = walk_all ex (walk_init cwd None) ++ f.
Proof. exact (home_new_last ex cwd h f). Qed.
Print Assumptions C05_home_last.

(** [same_place] ignores repeated separators, [.] and trailing separators. *)
Theorem C05_spellings p q a l : reads_as p a l -> reads_as q a l -> same_place p q.
Proof. exact (fun H H' => ex_intro _ a (ex_intro _ l (conj H H'))). Qed.
Print Assumptions C05_spellings.

Example C05_ex_seen :
  Exists (fun d => same_place (B "//p/./.cargo///") (dot_cargo d)) (ancestors (B "/p/a")).
Proof.
  right. left. exists AtRoot, [B "p"; B ".cargo"]. split; apply reads_as_iff; split; reflexivity.
Qed.
Example C05_ex_new :
  ~ Exists (fun d => same_place (B "/h/.cargo") (dot_cargo d)) (ancestors (B "/p")).
Proof.
  intros H. repeat (inversion H as [? ? K|? ? K]; subst; clear H;
    [apply path_eqb_same in K; discriminate K | rename K into H]).
  inversion H.
Qed.

(** ** C06 *)

(** Once a call has returned [None] every later call does. *)
Theorem C06_fused ex s n m : call ex s n = None -> n <= m -> call ex s m = None.
Proof. exact (walk_fused ex s n m). Qed.
Print Assumptions C06_fused.

(** [None] is reached after finitely many calls. *)
Theorem C06_terminates ex cwd home n :
  length cwd + 2 <= n -> call ex (walk_init cwd home) n = None.
Proof. exact (walk_terminates ex cwd home n). Qed.
Print Assumptions C06_terminates.

(** The calls return the elements of the list described in C04, one after the other. *)
Theorem C06_calls ex s n : call ex s n = nth_error (walk_all ex s) n.
Proof. exact (calls_all ex s n). Qed.
Print Assumptions C06_calls.

Example C06_ex :
  map (call (some_files [B "/.cargo/config"]) (walk_init (B "/a") None)) [0; 1; 2; 7]
  = [Some (B "/.cargo/config"); None; None; None].
Proof. reflexivity. Qed.

(** ** C47: where CARGO_HOME is *)
Theorem C47_cargo_home home_var home_dir cwd :
  cargo_home_with_cwd home_var home_dir cwd
  = match home_var with
    | Some (c :: h) => Some (if Ascii.eqb c separator then c :: h else child cwd (c :: h))
    | _ => match home_dir with Some d => Some (child d (B ".cargo")) | None => None end
    end.
Proof. exact (cargo_home_spec home_var home_dir cwd). Qed.
Print Assumptions C47_cargo_home.

(** From an absolute current directory CARGO_HOME never depends on the process's own
    working directory: it is absolute. *)
Theorem C47_cargo_home_absolute home_var home_dir cwd h :
  is_absolute cwd = true ->
  (forall d, home_dir = Some d -> is_absolute d = true) ->
  cargo_home_with_cwd home_var home_dir cwd = Some h -> is_absolute h = true.
Proof. exact (cargo_home_absolute home_var home_dir cwd h). Qed.
Print Assumptions C47_cargo_home_absolute.

Example C47_ex :
  cargo_home_with_cwd (Some (B "x/y")) (Some (B "/root")) (B "/w") = Some (B "/w/x/y")
  /\ cargo_home_with_cwd (Some (B "")) (Some (B "/root")) (B "/w") = Some (B "/root/.cargo").
Proof. split; reflexivity. Qed.
