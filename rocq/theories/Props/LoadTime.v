(** C58: loading while the files change. *)
From Verif.Model Require Import Base Str Path BMap Error Value De Merge SetPath Serde Walk Load Context ApplyEnv Easy LoadTime.
From Verif.Spec Require Import StrSpec PathSpec WalkSpec LoadSpec LoadTimeSpec.
From Verif.Proof Require Import LoadProof LoadTimeProof.
From Verif.Props Require Import Load.

(** However the file system [F] changes while loading goes on, the result is that of a
    file system that stands still, each of whose answers was true at some time. *)
Theorem C58_snapshot F cwd home :
  exists f, was_so F f /\ answered F f (snd (load_over_time F cwd home))
            /\ fst (load_over_time F cwd home) = load_with_options f cwd home.
Proof. exact (over_time_snapshot F cwd home). Qed.
Print Assumptions C58_snapshot.

(** Every file system that gives the answers that were given has that result. *)
Theorem C58_answers_decide F f cwd home :
  answered F f (snd (load_over_time F cwd home)) ->
  fst (load_over_time F cwd home) = load_with_options f cwd home.
Proof. exact (over_time_answered F f cwd home). Qed.
Print Assumptions C58_answers_decide.

(** No question is asked twice, so no two answers can contradict each other. *)
Theorem C58_once F cwd home : NoDup (snd (load_over_time F cwd home)).
Proof. exact (over_time_once F cwd home). Qed.
Print Assumptions C58_once.

(** Only the configuration files of the search order are asked about, ... *)
Theorem C58_only_config_files F cwd home ds :
  search_order cwd home ds -> Forall (about ds) (snd (load_over_time F cwd home)).
Proof. exact (over_time_about F cwd home ds). Qed.
Print Assumptions C58_only_config_files.
(** ... at most three times for each directory, ... *)
Theorem C58_few F cwd home ds :
  search_order cwd home ds -> length (snd (load_over_time F cwd home)) <= 3 * length ds.
Proof. exact (over_time_count F cwd home ds). Qed.
Print Assumptions C58_few.
(** ... and a file is only read if the question before was whether it exists and the
    answer was yes. *)
Theorem C58_read_after_check F cwd home newer p older :
  snd (load_over_time F cwd home) = newer ++ ORead p :: older ->
  exists older', older = OExists p :: older' /\ fs_exists (F (length older')) p = true.
Proof. exact (over_time_confirmed F cwd home newer p older). Qed.
Print Assumptions C58_read_after_check.

(** If those files do not change, nothing else matters. *)
Theorem C58_settled F f cwd home ds :
  search_order cwd home ds ->
  (forall t d n, In d ds -> n = B "config" \/ n = B "config.toml" ->
     fs_exists (F t) (child d n) = fs_exists f (child d n) /\ fs_read (F t) (child d n) = fs_read f (child d n)) ->
  fst (load_over_time F cwd home) = load_with_options f cwd home.
Proof. exact (over_time_settled F f cwd home ds). Qed.
Print Assumptions C58_settled.

(** The same for the configuration that is handed to users. *)
Theorem C58_easy F p cwd o :
  exists f, was_so F f /\ easy_load_over_time F p cwd o = easy_load_with_options f p cwd o.
Proof. exact (easy_over_time_snapshot F p cwd o). Qed.
Print Assumptions C58_easy.

(** ** Examples *)
Definition ask_all : nat -> fs := fun _ => disk near middle far.
Example C58_ex_questions :
  rev (snd (load_over_time ask_all (B "/p/a") (Some (B "/h"))))
  = [OExists (B "/p/a/.cargo/config"); OExists (B "/p/a/.cargo/config.toml"); ORead (B "/p/a/.cargo/config.toml");
     OExists (B "/p/.cargo/config"); ORead (B "/p/.cargo/config");
     OExists (B "/.cargo/config"); OExists (B "/.cargo/config.toml");
     OExists (B "/h/config"); ORead (B "/h/config")]
  /\ fst (load_over_time ask_all (B "/p/a") (Some (B "/h"))) = Ok loaded.
Proof. split; vm_compute; reflexivity. Qed.
Example C58_ex_dirs :
  search_order (B "/p/a") (Some (B "/h")) [B "/p/a/.cargo"; B "/p/.cargo"; B "/.cargo"; B "/h"].
Proof. exact (dirs_search (B "/p/a") (Some (B "/h"))). Qed.

(** The file of [/p] is replaced while that of [/p/a] is read: the new one is used with
    the old one of [/p/a]. *)
Definition newer_middle : toml := tab [("build"%string, tab [("rustc"%string, TomlStr (B "rc2"))])].
Definition replaced (t : nat) : fs := if t <? 3 then disk near middle far else disk (tab []) newer_middle far.
Example C58_ex_replaced :
  fst (load_over_time replaced (B "/p/a") (Some (B "/h")))
  = load_with_options (disk near newer_middle far) (B "/p/a") (Some (B "/h"))
  /\ is_ok (fst (load_over_time replaced (B "/p/a") (Some (B "/h")))) = true.
Proof. split; vm_compute; reflexivity. Qed.

(** What does not hold: the result need not be that of any one moment.  A file that is
    removed between being found and being read makes loading fail, although loading
    would have succeeded at any moment before, and at any after. *)
Definition removed (t : nat) : fs :=
  if t <? 2 then disk near middle far else mkFsys (fun _ => false) (fun _ => ReadErr KNotFound).
Theorem C58_one_moment_refuted :
  exists F cwd home, (forall t, is_ok (load_with_options (F t) cwd home) = true) /\
    is_ok (fst (load_over_time F cwd home)) = false.
Proof.
  exists removed, (B "/p/a"), (Some (B "/h")). split.
  - intros t. unfold removed. destruct (t <? 2); vm_compute; reflexivity.
  - vm_compute. reflexivity.
Qed.
Print Assumptions C58_one_moment_refuted.
Example C58_ex_removed :
  fst (load_over_time removed (B "/p/a") (Some (B "/h")))
  = Err (EWithContext (MText (B "failed to read `/p/a/.cargo/config.toml`")) (Some (SIo KNotFound))).
Proof. vm_compute. reflexivity. Qed.
(** Nor does a file whose name changes from [config.toml] to [config] during loading
    have to be seen. *)
Definition renamed (t : nat) : fs :=
  mkFsys (fun p => str_eqb p (if t =? 0 then B "/p/.cargo/config.toml" else B "/p/.cargo/config"))
    (fun p => ReadTree near).
Theorem C58_file_always_there_refuted :
  exists F cwd home, (forall t, exists p, visited (F t) cwd home [p]) /\
    fst (load_over_time F cwd home) = Ok config_default.
Proof.
  exists renamed, (B "/p"), None. split.
  - intros [|t]; eexists; apply visited_walk; reflexivity.
  - vm_compute. reflexivity.
Qed.
Print Assumptions C58_file_always_there_refuted.
