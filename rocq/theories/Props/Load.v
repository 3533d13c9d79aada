(** C07-C14, C48: loading and merging configuration files. *)
From Verif.Model Require Import Base Str Path BMap Error Value De Merge SetPath Walk Serde Load.
From Verif.Spec Require Import StrSpec PathSpec WalkSpec ConfigSpec LoadSpec.
From Verif.Proof Require Import StrFacts BMapFacts MergeProof LoadProof.

(** Throughout, [visited f cwd home ps] says that [ps] are the files of the search
    order of C04, and [reads f ps l] pairs them with their contents. *)
Theorem C14_visited_unique f cwd home ps ps' :
  visited f cwd home ps -> visited f cwd home ps' -> ps = ps'.
Proof.
  exact (fun H H' => eq_trans (proj1 (visited_walk f cwd home ps) H)
                              (eq_sym (proj1 (visited_walk f cwd home ps') H'))).
Qed.
Print Assumptions C14_visited_unique.
Theorem C14_visited_exists f cwd home : exists ps, visited f cwd home ps.
Proof. exact (visited_ex f cwd home). Qed.
Print Assumptions C14_visited_exists.

(** ** C07 *)
Theorem C07_closest_file_wins f cwd home ps l c :
  visited f cwd home ps -> reads f ps l -> load_with_options f cwd home = Ok c ->
  forall A (k : scalar_key A), look k c = first_defined (map (scalar_in k) l).
Proof.
  exact (fun V R H => load_scalar f ps c l (eq_trans (eq_sym (visited_load f cwd home ps V)) H) R).
Qed.
Print Assumptions C07_closest_file_wins.

(** What [first_defined] means. *)
Theorem C07_first_defined A (l : list (option A)) a :
  first_defined l = Some a <-> exists l1 l2, l = l1 ++ Some a :: l2 /\ Forall (eq None) l1.
Proof. exact (first_defined_split l a). Qed.
Print Assumptions C07_first_defined.

(** ** C08 *)
Theorem C08_lists_joined f cwd home ps l c :
  visited f cwd home ps -> reads f ps l -> load_with_options f cwd home = Ok c ->
  forall k, look_list k c = join_lists (defined (map (list_in k) l)).
Proof.
  exact (fun V R H => load_list f ps c l (eq_trans (eq_sym (visited_load f cwd home ps V)) H) R).
Qed.
Print Assumptions C08_lists_joined.

(** ** C09 *)
Theorem C09_programs_joined f cwd home ps l c :
  visited f cwd home ps -> reads f ps l -> load_with_options f cwd home = Ok c ->
  forall k, look_program k c = join_programs (defined (map (program_in k) l)).
Proof.
  exact (fun V R H => load_program f ps c l (eq_trans (eq_sym (visited_load f cwd home ps V)) H) R).
Qed.
Print Assumptions C09_programs_joined.

(** ** C10 *)

(** Loading succeeds exactly if every file can be read and parsed and no key is
    written in two different ways. *)
Theorem C10_load_ok f cwd home ps :
  visited f cwd home ps ->
  (is_ok (load_with_options f cwd home) = true
   <-> exists l, reads f ps l /\ same_shapes (map snd l)).
Proof.
  exact (fun V => eq_ind_r (fun r => is_ok r = true <-> exists l, reads f ps l /\ same_shapes (map snd l))
                           (load_files_ok f ps) (visited_load f cwd home ps V)).
Qed.
Print Assumptions C10_load_ok.

(** The merge of two configurations fails exactly on a key written in two ways. *)
Theorem C10_merge_ok a b force :
  tables_in_order b ->
  (is_ok (merge_config a b force) = true <-> forall k, agree (shape_at k a) (shape_at k b)).
Proof. exact (fun S => merge_ok_iff a b force (proj1 (tables_in_order_sorted b) S)). Qed.
Print Assumptions C10_merge_ok.
Theorem C10_merge_conflict a b force :
  tables_in_order b -> is_ok (merge_config a b force) = false ->
  exists k, ~ agree (shape_at k a) (shape_at k b).
Proof. exact (fun S => merge_conflict a b force (proj1 (tables_in_order_sorted b) S)). Qed.
Print Assumptions C10_merge_conflict.

(** ** C11 *)
Theorem C11_entries_union f cwd home ps l c :
  visited f cwd home ps -> reads f ps l -> load_with_options f cwd home = Ok c ->
  forall k, has_entry k c = existsb (fun x => has_entry k (snd x)) l.
Proof.
  exact (fun V R H => load_entry f ps c l (eq_trans (eq_sym (visited_load f cwd home ps V)) H) R).
Qed.
Print Assumptions C11_entries_union.

(** An entry depends on the same-named entries of the files only. *)
Definition same_entry {V} (table : config -> bmap V) (n : str) (x y : str * config) : Prop :=
  fst x = fst y /\ bget n (table (snd x)) = bget n (table (snd y)).
Theorem C11_entry_local f ps l c f' ps' l' c' :
  load_files f ps = Ok c -> load_files f' ps' = Ok c' -> reads f ps l -> reads f' ps' l' ->
  forall n,
  (Forall2 (same_entry c_target n) l l' -> bget n (c_target c) = bget n (c_target c'))
  /\ (Forall2 (same_entry c_env n) l l' -> bget n (c_env c) = bget n (c_env c'))
  /\ (Forall2 (same_entry c_registries n) l l' -> bget n (c_registries c) = bget n (c_registries c'))
  /\ (Forall2 (same_entry c_alias n) l l' -> bget n (c_alias c) = bget n (c_alias c')).
Proof. exact (load_entry_local f ps c f' ps' c' l l'). Qed.
Print Assumptions C11_entry_local.

(** The tables of a loaded configuration list each name once, in order. *)
Theorem C11_tables_in_order f cwd home c :
  load_with_options f cwd home = Ok c -> tables_in_order c.
Proof. exact (fun H => proj2 (tables_in_order_sorted c) (load_files_sorted f _ c H)). Qed.
Print Assumptions C11_tables_in_order.

(** Together, C07-C11 determine the loaded configuration completely. *)
Theorem C11_keys_determine a b :
  tables_in_order a -> tables_in_order b -> plain a -> plain b ->
  (forall A (k : scalar_key A), look k a = look k b) ->
  (forall k, look_list k a = look_list k b) ->
  (forall k, look_program k a = look_program k b) ->
  (forall k, has_entry k a = has_entry k b) ->
  (forall k, shape_at k a = shape_at k b) -> a = b.
Proof.
  exact (fun S S' P P' H1 H2 H3 H4 H5 =>
    same_keys_eq a b (proj1 (tables_in_order_sorted a) S) (proj1 (tables_in_order_sorted b) S')
      (eq_trans (proj1 (plain_iff a) P) (eq_sym (proj1 (plain_iff b) P')))
      (conj H1 (conj H2 (conj H3 (conj H4 H5))))).
Qed.
Print Assumptions C11_keys_determine.
Theorem C11_loaded_plain f cwd home c : load_with_options f cwd home = Ok c -> plain c.
Proof. exact (fun H => proj2 (plain_iff c) (load_files_overrides f _ c H)). Qed.
Print Assumptions C11_loaded_plain.

(** ** C12 *)
Theorem C12_empty_right a force : tables_in_order a -> merge_config a config_default force = Ok a.
Proof. exact (fun S => merge_default_r a force (proj1 (tables_in_order_sorted a) S)). Qed.
Print Assumptions C12_empty_right.
Theorem C12_empty_left a force :
  tables_in_order a -> plain a -> merge_config config_default a force = Ok a.
Proof. exact (fun S => merge_default_l a force (proj1 (tables_in_order_sorted a) S)). Qed.
Print Assumptions C12_empty_left.
Theorem C12_associative a b c force :
  tables_in_order a -> tables_in_order b -> tables_in_order c ->
  same_outcome (ab <- merge_config a b force ;; merge_config ab c force)
               (bc <- merge_config b c force ;; merge_config a bc force).
Proof.
  exact (fun Sa Sb Sc => merge_assoc a b c force (proj1 (tables_in_order_sorted a) Sa)
           (proj1 (tables_in_order_sorted b) Sb) (proj1 (tables_in_order_sorted c) Sc)).
Qed.
Print Assumptions C12_associative.
(** Without [force] the left operand's scalar wins, with [force] the right one's. *)
Theorem C12_scalars a b force c :
  tables_in_order b -> merge_config a b force = Ok c ->
  forall A (k : scalar_key A),
  look k c = first_defined (if force then [look k b; look k a] else [look k a; look k b]).
Proof.
  exact (fun S H A k => eq_trans (merge_scalar a b force c (proj1 (tables_in_order_sorted b) S) H A k)
           (if force as f return pick f (look k a) (look k b)
              = first_defined (if f then [look k b; look k a] else [look k a; look k b])
            then match look k b, look k a with Some _, _ => eq_refl | None, Some _ => eq_refl | None, None => eq_refl end
            else match look k a, look k b with Some _, _ => eq_refl | None, Some _ => eq_refl | None, None => eq_refl end)).
Qed.
Print Assumptions C12_scalars.

(** ** C13 *)
Theorem C13_scalar_origin f cwd home ps c A (k : scalar_key A) v :
  visited f cwd home ps -> load_with_options f cwd home = Ok c -> look k c = Some v ->
  exists p c0 v0, In p ps /\ contents f p c0 /\ look k c0 = Some v0
                  /\ def v = Some (DefPath p) /\ val v = val v0.
Proof.
  exact (fun V H => origin_scalar f ps c A k v (eq_trans (eq_sym (visited_load f cwd home ps V)) H)).
Qed.
Print Assumptions C13_scalar_origin.
Theorem C13_list_origin f cwd home ps c k fm ws w :
  visited f cwd home ps -> load_with_options f cwd home = Ok c ->
  look_list k c = Some (fm, ws) -> In w ws ->
  exists p c0 fm0 ws0 w0, In p ps /\ contents f p c0 /\ look_list k c0 = Some (fm0, ws0)
                          /\ In w0 ws0 /\ def w = Some (DefPath p) /\ val w = val w0.
Proof.
  exact (fun V H => origin_list f ps c k fm ws w (eq_trans (eq_sym (visited_load f cwd home ps V)) H)).
Qed.
Print Assumptions C13_list_origin.
Theorem C13_program_origin f cwd home ps c k fm ws w :
  visited f cwd home ps -> load_with_options f cwd home = Ok c ->
  look_program k c = Some (fm, ws) -> In w ws ->
  exists p c0 fm0 ws0 w0, In p ps /\ contents f p c0 /\ look_program k c0 = Some (fm0, ws0)
                          /\ In w0 ws0 /\ def w = Some (DefPath p) /\ val w = val w0.
Proof.
  exact (fun V H => origin_program f ps c k fm ws w (eq_trans (eq_sym (visited_load f cwd home ps V)) H)).
Qed.
Print Assumptions C13_program_origin.
(** Setting the path changes the recorded origin of every value and nothing else. *)
Theorem C13_set_path p c :
  (forall A (k : scalar_key A), look k (sp_config p c) = scalar_in k (p, c))
  /\ (forall k, look_list k (sp_config p c) = list_in k (p, c))
  /\ (forall k, look_program k (sp_config p c) = program_in k (p, c))
  /\ (forall k, has_entry k (sp_config p c) = has_entry k c)
  /\ (forall k, shape_at k (sp_config p c) = shape_at k c).
Proof.
  exact (conj (fun A k => look_sp k p c) (conj (fun k => look_list_sp k p c)
        (conj (fun k => look_program_sp k p c) (conj (fun k => entry_sp k p c) (fun k => shape_sp k p c))))).
Qed.
Print Assumptions C13_set_path.

(** ** C14 *)
Theorem C14_all_or_nothing f cwd home ps c :
  visited f cwd home ps -> load_with_options f cwd home = Ok c -> exists l, reads f ps l.
Proof.
  exact (fun V H => let '(ex_intro _ l (conj R _)) := proj1 (C10_load_ok f cwd home ps V)
                       (f_equal is_ok H) in ex_intro _ l R).
Qed.
Print Assumptions C14_all_or_nothing.
Theorem C14_no_file f cwd home :
  visited f cwd home [] -> load_with_options f cwd home = Ok config_default.
Proof. exact (fun V => visited_load f cwd home [] V). Qed.
Print Assumptions C14_no_file.
Theorem C14_default_empty :
  (forall A (k : scalar_key A), look k config_default = None)
  /\ (forall k, look_list k config_default = None)
  /\ (forall k, look_program k config_default = None)
  /\ (forall k, has_entry k config_default = false).
Proof.
  exact (conj (@look_default) (conj look_list_default (conj look_program_default entry_default))).
Qed.
Print Assumptions C14_default_empty.
Theorem C14_unvisited_irrelevant f g cwd home ps :
  visited f cwd home ps -> visited g cwd home ps ->
  (forall p, In p ps -> fs_read f p = fs_read g p) ->
  load_with_options f cwd home = load_with_options g cwd home.
Proof.
  exact (fun V V' H => eq_trans (visited_load f cwd home ps V)
           (eq_trans (load_files_ext f g ps H) (eq_sym (visited_load g cwd home ps V')))).
Qed.
Print Assumptions C14_unvisited_irrelevant.
Theorem C14_no_panic f cwd home : is_panic (load_with_options f cwd home) = false.
Proof. exact (load_files_panic f _). Qed.
Print Assumptions C14_no_panic.

(** ** C48 *)
Theorem C48_error_names_file f cwd home ps e :
  visited f cwd home ps -> load_with_options f cwd home = Err e ->
  exists pre p post, ps = pre ++ p :: post /\ is_ok (load_files f pre) = true /\ stops_at f pre p e.
Proof.
  exact (fun V H => load_files_err f ps e (eq_trans (eq_sym (visited_load f cwd home ps V)) H)).
Qed.
Print Assumptions C48_error_names_file.

(** ** A concrete case: three files, closest first. *)
Definition tab (l : list (string * toml)) : toml := TomlTab (map (fun x => (B (fst x), snd x)) l).
Definition arr (l : list string) : toml := TomlArr (map (fun s => TomlStr (B s)) l).
Definition near : toml := tab [
  ("build", tab [("jobs", TomlInt 4); ("rustflags", arr ["-n"%string]); ("unknown", TomlBool true)]);
  ("target", tab [("t1", tab [("runner", arr ["run"; "-x"]%string)])])]%string.
Definition middle : toml := tab [
  ("build", tab [("rustc", TomlStr (B "rc")); ("rustflags", arr ["-m"; "-m"]%string)]);
  ("env", tab [("V", tab [("value", TomlStr (B "x")); ("force", TomlBool true)])])]%string.
Definition far : toml := tab [
  ("build", tab [("jobs", TomlInt 8); ("rustc", TomlStr (B "old")); ("rustflags", arr ["-f"%string])]);
  ("target", tab [("t1", tab [("runner", arr ["far"%string]); ("linker", TomlStr (B "ld"))]); ("t2", tab [])])]%string.
Definition disk (a b c : toml) : fs :=
  mkFsys (fun p => existsb (str_eqb p) [B "/p/a/.cargo/config.toml"; B "/p/.cargo/config"; B "/h/config"])
       (fun p => if str_eqb p (B "/p/a/.cargo/config.toml") then ReadTree a
                 else if str_eqb p (B "/p/.cargo/config") then ReadTree b
                 else if str_eqb p (B "/h/config") then ReadTree c else ReadErr KNotFound).
Definition three := [B "/p/a/.cargo/config.toml"; B "/p/.cargo/config"; B "/h/config"].

Example C07_ex_visited a b c : visited (disk a b c) (B "/p/a") (Some (B "/h")) three.
Proof. apply visited_walk. reflexivity. Qed.
Example C07_ex_reads : exists l, reads (disk near middle far) three l /\ same_shapes (map snd l).
Proof. apply load_files_ok. vm_compute. reflexivity. Qed.
Definition loaded : config :=
  match load_with_options (disk near middle far) (B "/p/a") (Some (B "/h")) with Ok c => c | _ => config_default end.
Example C07_ex_load : load_with_options (disk near middle far) (B "/p/a") (Some (B "/h")) = Ok loaded.
Proof. vm_compute. reflexivity. Qed.
Example C07_ex_jobs : look BuildJobs loaded = Some (mkValue 4%Z (Some (DefPath (B "/p/a/.cargo/config.toml")))).
Proof. vm_compute. reflexivity. Qed.
Example C07_ex_rustc : look BuildRustc loaded = Some (mkValue (B "rc") (Some (DefPath (B "/p/.cargo/config")))).
Proof. vm_compute. reflexivity. Qed.
Example C08_ex :
  option_map (fun x => (fst x, map val (snd x))) (look_list BuildRustflags loaded)
  = Some (AsArray, [B "-f"; B "-m"; B "-m"; B "-n"]).
Proof. vm_compute. reflexivity. Qed.
Example C09_ex :
  option_map (fun x => (fst x, map val (snd x))) (look_program (TargetRunner (B "t1")) loaded)
  = Some (AsArray, [B "run"; B "-x"; B "far"]).
Proof. vm_compute. reflexivity. Qed.
Example C10_ex_conflict :
  exists e, load_with_options (disk near (tab [("build"%string, tab [("rustflags"%string, TomlStr (B "-m"))])]) far)
              (B "/p/a") (Some (B "/h")) = Err e.
Proof. vm_compute. eexists. reflexivity. Qed.
Example C11_ex : map (fun n => has_entry (TargetEntry n) loaded) [B "t1"; B "t2"; B "t3"] = [true; true; false].
Proof. vm_compute. reflexivity. Qed.
Example C12_ex_order : tables_in_order loaded /\ plain loaded.
Proof.
  split; [exact (C11_tables_in_order _ _ _ _ C07_ex_load) | exact (C11_loaded_plain _ _ _ _ C07_ex_load)].
Qed.
Example C14_ex_no_file :
  visited (mkFsys (fun _ => false) (fun _ => ReadErr KNotFound)) (B "/p") (Some (B "/h")) [].
Proof. apply visited_walk. reflexivity. Qed.
Example C48_ex :
  load_with_options (disk near (tab [("build"%string, TomlInt 3)]) far) (B "/p/a") (Some (B "/h"))
  = Err (EWithContext (MText (B "failed to parse `/p/.cargo/config` as cargo configuration")) (Some SToml)).
Proof. vm_compute. reflexivity. Qed.
