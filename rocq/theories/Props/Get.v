(** C59: the program examples/get.rs. *)
From Coq Require Import Sorting.Sorted.
From Verif.Model Require Import Base Str Path BMap Error Value De Merge SetPath Serde Walk Load Get.
From Verif.Spec Require Import StrSpec Utf8Spec WalkSpec ConfigSpec LoadSpec SerdeSpec GetSpec.
From Verif.Proof Require Import StrFacts LoadProof SerdeDocProof RoundTripProof GetProof.
From Verif.Props Require Load.

(** A configuration is printed as one line for each leaf of its document, in the order of
    the keys.  (Storable: everything that is loaded, C42.) *)
Theorem C59_printed show c :
  storable c -> exists ls, listing (ser_config c) ls /\ print_config show c = lines show ls.
Proof. exact (fun St => print_listing show c (proj1 St)). Qed.
Print Assumptions C59_printed.
Theorem C59_listing_unique t ls ls' : listing t ls -> listing t ls' -> ls = ls'.
Proof. exact (listing_unique t ls ls'). Qed.
Print Assumptions C59_listing_unique.

(** Every line is a setting, ... *)
Theorem C59_only_settings c ls p u :
  storable c -> listing (ser_config c) ls -> In (p, u) ls -> setting c p u.
Proof.
  exact (fun St H I => let K := proj1 (proj2 H p u) I in leaf_setting c p u St (proj1 K) (proj2 K)).
Qed.
Print Assumptions C59_only_settings.
(** ... and every setting is a line. *)
Theorem C59_scalars_printed c ls :
  storable c -> listing (ser_config c) ls ->
  forall A (k : scalar_key A) v, look k c = Some v ->
  exists u, In (place k, u) ls /\ stands_for k u (val v)
    \/ In (place k ++ [B "value"], u) ls /\ stands_for k (TomlTab [(B "value", u)]) (val v).
Proof.
  intros St (_ & H) A k v L. destruct (scalar_leaf c A k v St L) as (p & u & P & Lu & [[-> S]|[-> S]]);
    exists u; [left|right]; (split; [apply H; auto|exact S]).
Qed.
Print Assumptions C59_scalars_printed.
Theorem C59_lists_printed c ls :
  storable c -> listing (ser_config c) ls ->
  forall k v, look_list k c = Some v ->
  exists u, In (list_place k, u) ls /\ list_stands_for k u (fst (stored_form k v), map val (snd v)).
Proof.
  intros St (_ & H) k v L. destruct (list_leaf c k v St L) as (u & w & P & Lu & S & ->).
  exists u. split; [apply H; auto|exact S].
Qed.
Print Assumptions C59_lists_printed.
Theorem C59_programs_printed c ls :
  storable c -> listing (ser_config c) ls ->
  forall k v, look_program k c = Some v ->
  exists u, In (program_place k, u) ls /\ program_value u (fst v, map val (snd v)).
Proof.
  intros St (_ & H) k v L. destruct (program_leaf c k v St L) as (u & w & P & Lu & S & ->).
  exists u. split; [apply H; auto|exact S].
Qed.
Print Assumptions C59_programs_printed.

(** The names and values of the lines tell the leaves, if no key contains a dot. *)
Theorem C59_lines_decide c c' ls ls' :
  listing (ser_config c) ls -> listing (ser_config c') ls' -> no_dots ls -> no_dots ls' ->
  map (fun e => (dotted (fst e), snd e)) ls = map (fun e => (dotted (fst e), snd e)) ls' -> ls = ls'.
Proof. exact (lines_decide _ _ ls ls'). Qed.
Print Assumptions C59_lines_decide.

(** With merged=no, files are shown in the order of the search until one cannot be read;
    whether they can be merged does not matter. *)
Theorem C59_each_file show escape f vars home_var home_dir cwd ps :
  visited f cwd (cargo_home_with_cwd home_var home_dir cwd) ps ->
  let (out, r) := get show escape false f vars home_var home_dir cwd in
  match r with
  | Ok n => shows show f ps out /\ n = note escape vars
  | Err e => exists pre p post, ps = pre ++ p :: post /\ shows show f pre out /\ stops_at f [] p e
  | Panic _ => False
  end.
Proof.
  intros V. apply visited_walk in V. unfold get. rewrite <- V. pose proof (print_files_spec show f ps) as K.
  destruct (print_files show f ps) as [out r]. cbn [fst snd] in K. destruct r; auto.
Qed.
Print Assumptions C59_each_file.
(** Otherwise all or nothing. *)
Theorem C59_merged show escape f vars home_var home_dir cwd :
  let (out, r) := get show escape true f vars home_var home_dir cwd in
  match r with
  | Ok n => exists c ls, load_with_cwd f home_var home_dir cwd = Ok c /\ listing (ser_config c) ls
                         /\ out = lines show ls /\ n = note escape vars
  | Err e => out = [] /\ load_with_cwd f home_var home_dir cwd = Err e
  | Panic _ => False
  end.
Proof.
  unfold get. destruct (load_with_cwd f home_var home_dir cwd) as [c|e|x] eqn:L; [|auto|].
  - destruct (C59_printed show c (load_storable _ _ _ L)) as (ls & Hl & E). exists c, ls. auto.
  - pose proof (Load.C14_no_panic f cwd (cargo_home_with_cwd home_var home_dir cwd)) as K.
    unfold load_with_cwd in L. rewrite L in K. discriminate.
Qed.
Print Assumptions C59_merged.
(** After that, the variables beginning with CARGO_ are listed. *)
Theorem C59_note escape vars :
  exists keep, (forall kv, keep kv = true <-> listed kv) /\
    note escape vars
    = B "note: The following environment variables may affect the loaded values." ++ [newline]
      ++ concat (map (fun kv => fst kv ++ B "=" ++ escape (snd kv) ++ [newline]) (filter keep vars)).
Proof. exact (note_spec escape vars). Qed.
Print Assumptions C59_note.

(** ** Examples *)
(** Texts in quotes, everything else but truth values as dots. *)
Definition showing (t : toml) : str :=
  match t with TomlStr s => B """" ++ s ++ B """" | TomlBool b => if b then B "true" else B "false" | _ => B "..." end.
Example C59_ex_print :
  print_config showing Load.loaded
  = B "build.jobs = ..." ++ [newline] ++ B "build.rustc = ""rc""" ++ [newline]
    ++ B "build.rustflags = ..." ++ [newline] ++ B "env.V.force = true" ++ [newline]
    ++ B "env.V.value = ""x""" ++ [newline] ++ B "target.t1.linker = ""ld""" ++ [newline]
    ++ B "target.t1.runner = ..." ++ [newline]
  /\ storable Load.loaded.
Proof. split; [vm_compute; reflexivity|]. exact (load_storable _ _ _ Load.C07_ex_load). Qed.
Example C59_ex_no_dots : exists ls, listing (ser_config Load.loaded) ls /\ no_dots ls /\ length ls = 7.
Proof.
  eexists. split; [apply listing_items, ser_orderly, (load_storable _ _ _ Load.C07_ex_load)|].
  split; [|reflexivity]. vm_compute. repeat (apply Forall_cons || apply Forall_nil); intuition discriminate.
Qed.
(** Two files that cannot be merged are shown all the same. *)
Definition conflict : fs :=
  Load.disk Load.near (Load.tab [("build"%string, Load.tab [("rustflags"%string, TomlStr (B "-m"))])]) Load.far.
Example C59_ex_unmerged :
  let (out, r) := get showing (fun s => s) false conflict [(B "CARGO_HOME", B "/h"); (B "X", B "y")]
                    (Some (B "/h")) None (B "/p/a") in
  out = B "# /p/a/.cargo/config.toml
build.jobs = ...
build.rustflags = ...
target.t1.runner = ...

# /p/.cargo/config
build.rustflags = ...

# /h/config
build.jobs = ...
build.rustc = ""old""
build.rustflags = ...
target.t1.linker = ""ld""
target.t1.runner = ...

"
  /\ is_ok (snd (get showing (fun s => s) true conflict [] (Some (B "/h")) None (B "/p/a"))) = false
  /\ r = Ok (B "note: The following environment variables may affect the loaded values." ++ [newline]
             ++ B "CARGO_HOME=/h" ++ [newline]).
Proof. vm_compute. repeat split. Qed.

(** ** What does not hold *)
(** Different configurations may be printed alike: a dot in the name of a variable, ... *)
Definition just (t : toml) : fs :=
  mkFsys (fun p => str_eqb p (B "/p/.cargo/config.toml")) (fun _ => ReadTree t).
Definition dotted_name : fs := just (Load.tab [("env"%string, Load.tab [("A.value"%string, TomlStr (B "x"))])]).
Definition nested_name : fs :=
  just (Load.tab [("env"%string, Load.tab [("A"%string, Load.tab [("value"%string, TomlStr (B "x"))])])]).
Theorem C59_tells_apart_refuted :
  exists f f' cwd c c', load_with_options f cwd None = Ok c /\ load_with_options f' cwd None = Ok c'
    /\ has_entry (EnvEntry (B "A")) c = false /\ has_entry (EnvEntry (B "A")) c' = true
    /\ forall show, print_config show c = print_config show c'.
Proof.
  exists dotted_name, nested_name, (B "/p").
  destruct (load_with_options dotted_name (B "/p") None) as [c| |] eqn:E; [|vm_compute in E; discriminate..].
  destruct (load_with_options nested_name (B "/p") None) as [c'| |] eqn:E'; [|vm_compute in E'; discriminate..].
  exists c, c'. split; [reflexivity|]. split; [reflexivity|].
  vm_compute in E, E'. injection E as <-. injection E' as <-.
  split; [reflexivity|]. split; [reflexivity|]. intros show. rewrite !print_config_items. reflexivity.
Qed.
Print Assumptions C59_tells_apart_refuted.
(** ... and an entry without settings is not printed at all. *)
Theorem C59_entries_printed_refuted :
  exists f cwd c, load_with_options f cwd None = Ok c /\ has_entry (TargetEntry (B "t")) c = true
    /\ forall show, print_config show c = [].
Proof.
  exists (just (Load.tab [("target"%string, Load.tab [("t"%string, Load.tab [])])])), (B "/p").
  eexists. split; [vm_compute; reflexivity|]. split; [reflexivity|]. intros show. reflexivity.
Qed.
Print Assumptions C59_entries_printed_refuted.
(** Tokens are printed, both those of files and those of variables. *)
Theorem C59_tokens_hidden_refuted :
  exists f vars cwd, forall show escape,
    get show escape true f vars None None cwd
    = (B "registry.token = " ++ show (TomlStr (B "s3cret")) ++ [newline],
       Ok (B "note: The following environment variables may affect the loaded values." ++ [newline]
           ++ B "CARGO_REGISTRY_TOKEN=" ++ escape (B "s3cret2") ++ [newline])).
Proof.
  exists (just (Load.tab [("registry"%string, Load.tab [("token"%string, TomlStr (B "s3cret"))])])),
    [(B "CARGO_REGISTRY_TOKEN", B "s3cret2")], (B "/p").
  intros show escape. unfold get.
  destruct (load_with_cwd _ None None (B "/p")) as [c| |] eqn:E; [|vm_compute in E; discriminate..].
  vm_compute in E. injection E as <-. f_equal.
  match goal with |- print_config show ?c = _ => transitivity (lines show (items (table_of (ser_config c)))) end.
  - apply print_config_items.
  - set (s := show (TomlStr (B "s3cret"))). 
    transitivity (lines show [([B "registry"; B "token"], TomlStr (B "s3cret"))]); [reflexivity|].
    unfold lines, line. cbn [map concat fst snd]. rewrite app_nil_r. reflexivity.
Qed.
Print Assumptions C59_tokens_hidden_refuted.
