(** C74 for loaded configurations: the JSON is UTF-8, as the files are. *)
From Verif.Model Require Import Base Str Path BMap Error Value De Serde Walk Load Get GetArgs JsonText.
From Verif.Spec Require Import StrSpec Utf8Spec WalkSpec ConfigSpec SerdeSpec LoadSpec GetSpec JsonSpec.
From Verif.Proof Require Import StrFacts Utf8Proof LoadProof RoundTripProof GetProof JsonUseProof ConstructProof JsonLoadProof.
From Verif.Props Require Import Serde Load Json.

(** Only the files that are visited matter. *)
Theorem C74_loaded_utf8 f cwd home ps c :
  visited f cwd home ps -> load_with_options f cwd home = Ok c ->
  (forall p t, In p ps -> fs_read f p = ReadTree t -> laid_out t /\ texts t) ->
  texts (ser_config c) /\ utf8 (json_text (ser_config c)).
Proof.
  intros V H U. rewrite (visited_load f cwd home ps V) in H.
  assert (T : texts (ser_config c)); [|split; [exact T|exact (C74_utf8 c T)]].
  apply texts_config; [exact (load_text f ps c H U)|]. exact (proj1 (load_storable _ _ _ H)).
Qed.
Print Assumptions C74_loaded_utf8.
(** What the program get writes, with its newline. *)
Theorem C74_main_utf8 show escape version words f vars home_var home_dir cwd out t ps :
  parse words = Parsed Json true ->
  main show json_text escape version words f vars home_var home_dir cwd = (out, Done t) ->
  visited f cwd (cargo_home_with_cwd home_var home_dir cwd) ps ->
  (forall p t, In p ps -> fs_read f p = ReadTree t -> laid_out t /\ texts t) -> utf8 out.
Proof.
  intros W M V U. revert M. unfold main. rewrite W.
  destruct (load_with_cwd f home_var home_dir cwd) as [c|e|x] eqn:L; try discriminate.
  intros [= <- _]. change (utf8 (json_text (ser_config c) ++ [newline])). apply CfgEvalProof.utf8_app; [|apply ascii_utf8; repeat constructor].
  exact (proj2 (C74_loaded_utf8 f cwd _ ps c V L U)).
Qed.
Print Assumptions C74_main_utf8.

(** ** An example: a text with a two-byte letter, cut at a two-byte blank *)
Definition c74_word : str := map ascii_of_N [195; 164]%N.
Definition c74_doc : toml := TomlTab [
  (B "alias", TomlTab [(c74_word, TomlStr (B "r " ++ c74_word ++ map ascii_of_N [194; 160; 32]%N ++ B "-q"))]);
  (B "unknown", TomlInt 1)].
Definition c74_fs : fs :=
  mkFsys (fun p => str_eqb p (B "/p/.cargo/config.toml"))
         (fun p => if str_eqb p (B "/p/.cargo/config.toml") then ReadTree c74_doc else ReadErr KNotFound).
Example C74_ex_loaded_meets :
  visited c74_fs (B "/p/a") None [B "/p/.cargo/config.toml"]
  /\ (exists c, load_with_options c74_fs (B "/p/a") None = Ok c
        /\ json_text (ser_config c) = B "{""alias"":{""" ++ c74_word ++ B """:""r " ++ c74_word ++ B " -q""}}")
  /\ (forall p t, In p [B "/p/.cargo/config.toml"] -> fs_read c74_fs p = ReadTree t -> laid_out t /\ texts t).
Proof.
  split; [apply visited_walk; vm_compute; reflexivity|]. split.
  - destruct (load_with_options c74_fs (B "/p/a") None) as [c| |] eqn:E; [|vm_compute in E; discriminate E..].
    exists c. split; [reflexivity|]. vm_compute in E. injection E as <-. vm_compute. reflexivity.
  - intros p t [<-|[]] R. cbv in R. assert (t = c74_doc) as -> by (injection R as <-; reflexivity).
    split; [apply laid_out_check; vm_compute; reflexivity|]. cbn.
    repeat split; try exact I; apply utf8_valid_iff; vm_compute; reflexivity.
Qed.
