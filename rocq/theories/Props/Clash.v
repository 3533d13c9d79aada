(** C63: the report of a key written in two ways. *)
From Verif.Model Require Import Base Str Path BMap Error Value De Debug Merge SetPath Walk Serde Load ErrorText.
From Verif.Spec Require Import StrSpec PathSpec WalkSpec ConfigSpec LoadSpec ClashSpec.
From Verif.Proof Require Import StrFacts BMapFacts MergeProof LoadProof ClashProof.
From Verif.Props Require Import Load.

(** A merge fails with an error exactly if it is the report about the first key
    written in two ways. *)
Theorem C63_merge a b force e :
  tables_in_order b -> (merge_config a b force = Err e <-> clash_report a b force e).
Proof. exact (fun S => clash_iff a b force e (proj1 (tables_in_order_sorted b) S)). Qed.
Print Assumptions C63_merge.

(** There is one such key and one such report. *)
Theorem C63_first_key a b k k' : first_clash a b k -> first_clash a b k' -> k = k'.
Proof. exact (first_clash_unique a b k k'). Qed.
Print Assumptions C63_first_key.
Theorem C63_one_report a b force s s' k e e' :
  report a b force s s' k e -> report a b force s s' k e' -> e = e'.
Proof. exact (report_unique a b force s s' k e e'). Qed.
Print Assumptions C63_one_report.

(** Loading fails with an error exactly if one of the visited files ends it: the
    files before it can be loaded, and the error says what is wrong with this one. *)
Theorem C63_load f cwd home ps e :
  visited f cwd home ps ->
  (load_with_options f cwd home = Err e <->
   exists pre p post base,
     ps = pre ++ p :: post /\ load_files f pre = Ok base /\ ends_at f pre base p e).
Proof.
  exact (fun V => eq_ind_r (fun r => r = Err e <-> _) (load_ends f ps e) (visited_load f cwd home ps V)).
Qed.
Print Assumptions C63_load.

(** In words: for any rendering of the two entries, the report is this text. *)
Theorem C63_text io dbg key entry value cause :
  error_text io dbg (EWithContext (MMergeKey key entry value) cause)
  = B "failed to merge key `" ++ key ++ B "` between " ++ dbg entry ++ B " and " ++ dbg value.
Proof. unfold error_text, msg_text, bt. rewrite <- !app_assoc. reflexivity. Qed.
Print Assumptions C63_text.

(** ** Concrete cases *)
Definition of_toml (t : toml) : config :=
  match de_config t with Some c => c | None => config_default end.

(** Several clashes; the one of the first key is reported. *)
Definition many_a : config := of_toml (tab [
  ("build", tab [("rustflags", TomlStr (B "-a"))]);
  ("env", tab [("A", TomlStr (B "1")); ("B", TomlStr (B "2"))])]%string).
Definition many_b : config := of_toml (tab [
  ("build", tab [("rustflags", TomlStr (B "-b"))]);
  ("env", tab [("A", TomlStr (B "3")); ("B", tab [("value", TomlStr (B "4"))])]);
  ("target", tab [])]%string).
Example C63_ex_in_order : tables_in_order many_b.
Proof.
  apply tables_in_order_sorted. unfold cfg_sorted, many_b, of_toml. vm_compute.
  repeat split; repeat constructor.
Qed.
Example C63_ex_env :
  merge_config many_a many_b false =
  Err (EWithContext (MMergeKey (B "B") (DTuple "Value" [dbg_vstr (mkValue (B "2") None)])
                               (DStruct "Table" [("value", dbg_vstr (mkValue (B "4") None));
                                                 ("force", DUnit "None"); ("relative", DUnit "None")]%string))
                    (Some (SCrate (EOther (MText (B "expected string, but found table")))))).
Proof. vm_compute. reflexivity. Qed.
Example C63_ex_report : exists e, clash_report many_a many_b false e.
Proof. eexists. apply C63_merge; [exact C63_ex_in_order|]. vm_compute. reflexivity. Qed.

Example C63_ex_text : forall e, merge_config many_a many_b false = Err e ->
  error_text (fun _ => []) (fun _ => B "_") e = B "failed to merge key `B` between _ and _".
Proof. intros e. rewrite C63_ex_env. intros [= <-]. vm_compute. reflexivity. Qed.

(** The entry shown has taken over what precedes the clash: the linker and the
    words of the runner of the other table. *)
Definition half_a : config := of_toml (tab [
  ("target", tab [("t", tab [("runner", arr ["r"]); ("rustflags", TomlStr (B "-a"))])])]%string).
Definition half_b : config := of_toml (tab [
  ("target", tab [("t", tab [("linker", TomlStr (B "ld")); ("runner", arr ["far"]); ("rustflags", arr ["-b"])])])]%string).
Definition bare (s : string) : value str := mkValue (B s) None.
Example C63_ex_half :
  merge_config half_a half_b false =
  Err (EWithContext
         (MMergeKey (B "t")
            (dbg_target (mkTarget (Some (bare "ld")) (Some (mkPathAndArgs (bare "r") [bare "far"] ReprArray))
                                  (Some (mkFlags [bare "-a"] ReprString)) None))
            (dbg_target (mkTarget (Some (bare "ld")) (Some (mkPathAndArgs (bare "far") [] ReprArray))
                                  (Some (mkFlags [bare "-b"] ReprArray)) None)))
         (Some (SCrate (EOther (MText (B "expected string, but found array")))))).
Proof. vm_compute. reflexivity. Qed.

(** Loading: the report names the two files. *)
Example C63_ex_load :
  load_with_options (disk near (tab [("build"%string, tab [("rustflags"%string, TomlStr (B "-m"))])]) far)
    (B "/p/a") (Some (B "/h"))
  = Err (EWithContext
      (MText (B "failed to merge config from `/p/.cargo/config` into `/p/a/.cargo/config.toml`"))
      (Some (SCrate (EOther (MText (B "expected array, but found string")))))).
Proof. vm_compute. reflexivity. Qed.

(** ** What the report does not say *)

(** The clashing key cannot be told from the report: for [build] and [doc] nothing
    names it. *)
Definition rustflags_as (t : toml) : config := of_toml (tab [("build"%string, tab [("rustflags"%string, t)])]).
Definition rustdocflags_as (t : toml) : config := of_toml (tab [("build"%string, tab [("rustdocflags"%string, t)])]).
Theorem C63_key_told_refuted :
  exists a b a' b' k k' e,
    k <> k' /\ first_clash a b k /\ first_clash a' b' k'
    /\ merge_config a b false = Err e /\ merge_config a' b' false = Err e.
Proof.
  exists (rustflags_as (TomlStr (B "-a"))), (rustflags_as (arr ["-b"%string])),
    (rustdocflags_as (TomlStr (B "-a"))), (rustdocflags_as (arr ["-b"%string])),
    (ShapeList BuildRustflags), (ShapeList BuildRustdocflags). eexists.
  split; [discriminate|]. split; [|split]; [| |split; vm_compute; reflexivity].
  - split; [vm_compute; discriminate|].
    intros [[n| | | |n|n]|[|n]|n] P; try exact I; vm_compute in P; exfalso; intuition; try discriminate.
    all: match goal with H : (_ <= _)%nat |- _ => inversion H; subst; clear H end.
    all: match goal with H : (_ <= _)%nat |- _ => inversion H end.
  - split; [vm_compute; discriminate|]. intros [[n| | | |n|n]|[|n]|n] P; try exact I.
    vm_compute in P; exfalso; intuition; try discriminate.
Qed.
Print Assumptions C63_key_told_refuted.
