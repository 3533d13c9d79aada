(** C43, continued: tables written as arrays or dates. *)
From Verif.Model Require Import Base Str Path BMap Error Value De Serde.
From Verif.Spec Require Import StrSpec FlagsSpec ConfigSpec EnvSpec LoadSpec SerdeSpec SerdeFormsSpec.
From Verif.Proof Require Import StrFacts SerdeProof SerdeDocProof SerdeFormsProof.

(** A table given as an array of its values in order, or as a date, is read like the same
    table with names; nothing is required of the document. *)
Theorem C43_other_forms t : de_config (in_names reading_order t) = de_config t.
Proof. exact (named_config t). Qed.
Print Assumptions C43_other_forms.

(** Giving names changes nothing where tables are tables already. *)
Theorem C43_tables_unchanged t : laid_out t -> in_names reading_order t = t.
Proof. exact (laid_out_same t). Qed.
Print Assumptions C43_tables_unchanged.

(** Hence which documents are accepted, however they are laid out: all tables are tables
    once the names are given (arrays are long enough), and all keys have their values. *)
Theorem C43_any_document t :
  no_repeats t ->
  ((exists c, de_config t = Some c)
   <-> laid_out (in_names reading_order t) /\ well_typed (in_names reading_order t)).
Proof.
  intros R. split.
  - intros (c & D). pose proof (accepted_laid_out t c R D) as L. split; [exact L|].
    apply (accepted_iff _ L). exists c. now rewrite named_config.
  - intros (L & W). apply (accepted_iff _ L) in W. destruct W as (c & D). exists c. now rewrite <- named_config.
Qed.
Print Assumptions C43_any_document.

(** And what is read from them. *)
Theorem C43_any_values t c :
  no_repeats t -> de_config t = Some c ->
  let t' := in_names reading_order t in
  (forall A (k : scalar_key A),
     says (place k) (fun u v => exists a, stands_for k u a /\ v = unlabelled a) t' (look k c))
  /\ (forall k, says (list_place k) (fun u v => exists w, list_stands_for k u w /\ v = unlabelled_words w) t' (look_list k c))
  /\ (forall k, says (program_place k) (fun u v => exists w, program_value u w /\ v = unlabelled_words w) t' (look_program k c))
  /\ (forall k, has_entry k c = is_some (at_path (entry_place k) t')).
Proof.
  intros R D t'. pose proof (accepted_laid_out t c R D : laid_out t') as L.
  assert (D' : de_config t' = Some c) by (unfold t'; now rewrite named_config).
  clearbody t'. clear R D t. destruct (laid_out_root t' L) as (root & ->).
  split; [|split; [|split]].
  - intros A k. exact (doc_scalar root c A k L D').
  - intros k. exact (doc_list root c k L D').
  - intros k. exact (doc_program root c k L D').
  - intros k. exact (doc_entry root c k L D').
Qed.
Print Assumptions C43_any_values.

(** Arrays of the right length, one that is longer, a nested one, and a date. *)
Definition forms_doc : toml :=
  TomlTab
    [(B "net", TomlArr [TomlInt 3; TomlBool true; TomlBool false]);
     (B "registries", TomlTab [(B "r", TomlArr [TomlStr (B "https://r"); TomlStr (B "tok"); TomlStr (B "sparse");
                                                TomlInt 7])]);
     (B "term", TomlArr [TomlBool true; TomlBool false; TomlStr (B "never"); TomlArr [TomlStr (B "auto"); TomlInt 80]]);
     (B "doc", TomlDate (B "1979-05-27"))].
Example C43_forms_example :
  at_path [B "net"; B "git-fetch-with-cli"] (in_names reading_order forms_doc) = Some (TomlBool true)
  /\ at_path [B "registries"; B "r"; B "protocol"] (in_names reading_order forms_doc) = Some (TomlStr (B "sparse"))
  /\ at_path [B "term"; B "progress"; B "width"] (in_names reading_order forms_doc) = Some (TomlInt 80)
  /\ at_path [B "doc"; B "browser"] (in_names reading_order forms_doc) = None
  /\ exists c, de_config forms_doc = Some c
     /\ look NetGitFetchWithCli c = Some (unlabelled true)
     /\ look (RegistriesProtocol (B "r")) c = Some (unlabelled ProtoSparse)
     /\ look TermProgressWidth c = Some (unlabelled 80%N).
Proof. vm_compute. repeat split. eexists. repeat split. Qed.
Fixpoint all_once (n : nat) (t : toml) : bool :=
  match n, t with
  | S n, TomlTab l =>
      (fix once (l : list str) := match l with [] => true | k :: r => negb (existsb (str_eqb k) r) && once r end) (map fst l)
      && forallb (fun kv => all_once n (snd kv)) l
  | S n, TomlArr l => forallb (all_once n) l
  | O, _ => false
  | _, _ => true
  end.
Example C43_forms_no_repeats : no_repeats forms_doc.
Proof.
  assert (H : all_once 5 forms_doc = true) by reflexivity. revert H. generalize 5 forms_doc.
  intros n t H l W. revert n H. induction W as [|k u l' Hin W IH|u l' Hin W IH]; intros n H; destruct n as [|n]; try discriminate.
  - cbn [all_once] in H. apply andb_prop in H. destruct H as (H & _). revert H. generalize (map fst l). intros ks.
    induction ks as [|k ks IH]; [constructor|]. intros N. apply andb_prop in N. destruct N as (N & Ns).
    constructor; [|now apply IH]. intros Hin. rewrite negb_true_iff in N.
    apply Bool.not_true_iff_false in N. apply N. apply existsb_exists. exists k. split; [exact Hin|apply str_eqb_refl].
  - cbn [all_once] in H. apply andb_prop in H. destruct H as (_ & H). rewrite forallb_forall in H.
    exact (IH n (H _ Hin)).
  - cbn [all_once] in H. rewrite forallb_forall in H. exact (IH n (H _ Hin)).
Qed.
(** An array that is too short is refused, also if what it says is right; the last field of
    [term] may be left out. *)
Example C43_short_arrays :
  de_config (TomlTab [(B "net", TomlArr [TomlInt 3; TomlBool true])]) = None
  /\ at_path [B "net"] (in_names reading_order (TomlTab [(B "net", TomlArr [TomlInt 3; TomlBool true])]))
     = Some (TomlArr [TomlInt 3; TomlBool true])
  /\ is_some (de_config (TomlTab [(B "term", TomlArr [TomlBool true; TomlBool true; TomlStr (B "auto")])])) = true.
Proof. vm_compute. repeat split. Qed.
