(** C41-C43: enumeration texts, reading and writing documents. *)
From Verif.Model Require Import Base Str Path BMap Error Value De Merge SetPath Walk Serde Load Context ApplyEnv.
From Verif.Spec Require Import StrSpec FlagsSpec PathSpec WalkSpec ConfigSpec EnvSpec LoadSpec SerdeSpec.
From Verif.Proof Require Import StrFacts BMapFacts MergeProof LoadProof FlagsProof EnvTextProof EnvVarsProof
  SerdeProof SerdeDocProof RoundTripProof.

(** ** C41 *)

(** The same table of texts is used by [FromStr] (the environment), [as_str], when a
    file is read and when a value is written. *)
Definition spelt {A} (texts : list (str * A)) (from_str : str -> option A)
  (read : toml -> option A) (write : A -> toml) : Prop :=
  (forall s v, from_str s = Some v <-> In (s, v) texts)
  /\ (forall s v, read (TomlStr s) = Some v <-> In (s, v) texts)
  /\ (forall t v, write v = t <-> exists s, t = TomlStr s /\ In (s, v) texts).

Lemma write_spelt {A} (texts : list (str * A)) (f : A -> str) :
  (forall s v, f v = s <-> In (s, v) texts) ->
  forall t v, TomlStr (f v) = t <-> exists s, t = TomlStr s /\ In (s, v) texts.
Proof.
  intros H t v. split.
  - intros <-. exists (f v). split; [reflexivity|now apply H].
  - intros (s & -> & Hin). f_equal. now apply H.
Qed.
Ltac by_cases := let s := fresh in let v := fresh in let H := fresh in
  intros s v; split; [intros <-; destruct v; vm_compute; tauto|];
  intros H; cbn in H; repeat match goal with H : _ \/ _ |- _ => destruct H as [H|H] end;
  try contradiction; injection H; intros; subst; reflexivity.

Theorem C41_color :
  spelt colors color_from_str (de_enum (variant_named color_variants)) (fun v => ser_variant (color_variant v))
  /\ forall s v, color_as_str v = s <-> In (s, v) colors.
Proof.
  split; [|by_cases]. split; [exact color_words|split; [exact color_named|apply write_spelt; by_cases]].
Qed.
Print Assumptions C41_color.
Theorem C41_when :
  spelt whens when_from_str (de_enum (variant_named when_variants)) (fun v => ser_variant (when_variant v))
  /\ forall s v, when_as_str v = s <-> In (s, v) whens.
Proof.
  split; [|by_cases]. split; [exact when_words|split; [exact when_named|apply write_spelt; by_cases]].
Qed.
Print Assumptions C41_when.
Theorem C41_frequency :
  spelt frequencies frequency_from_str (de_enum (variant_named frequency_variants))
    (fun v => ser_variant (frequency_variant v))
  /\ forall s v, frequency_as_str v = s <-> In (s, v) frequencies.
Proof.
  split; [|by_cases]. split; [exact frequency_words|split; [exact frequency_named|apply write_spelt; by_cases]].
Qed.
Print Assumptions C41_frequency.
Theorem C41_vcs :
  spelt vcss vcs_from_str (de_enum (variant_named vcs_variants)) (fun v => ser_variant (vcs_variant v))
  /\ forall s v, vcs_as_str v = s <-> In (s, v) vcss.
Proof.
  split; [|by_cases]. split; [exact vcs_words|split; [exact vcs_named|apply write_spelt; by_cases]].
Qed.
Print Assumptions C41_vcs.
Theorem C41_protocol :
  spelt protocols protocol_from_str (de_enum (variant_named protocol_variants))
    (fun v => ser_variant (protocol_variant v)).
Proof.
  split; [exact protocol_words|split; [exact protocol_named|apply write_spelt; by_cases]].
Qed.
Print Assumptions C41_protocol.

(** Hence a text that is written is read back, and two values never share a text. *)
Theorem C41_round_trip A (texts : list (str * A)) from_str read write :
  spelt texts from_str read write ->
  (forall v, read (write v) = Some v)
  /\ (forall v w, write v = write w -> v = w)
  /\ (forall s, from_str s = None <-> ~ exists v, write v = TomlStr s).
Proof.
  intros (F & R & W).
  assert (E : forall v, exists s, write v = TomlStr s /\ In (s, v) texts).
  { intros v. destruct (proj1 (W (write v) v) eq_refl) as (s & E & Hin). eauto. }
  split; [|split].
  - intros v. destruct (E v) as (s & -> & Hin). now apply R.
  - intros v w H. destruct (E v) as (s & Ev & Hv). destruct (E w) as (s' & Ew & Hw).
    rewrite Ev, Ew in H. injection H as <-. apply R in Hv, Hw. congruence.
  - intros s. split.
    + intros N (v & Hv). apply W in Hv. destruct Hv as (s' & [= <-] & Hin). apply F in Hin. congruence.
    + intros N. destruct (from_str s) as [v|] eqn:Ev; [|reflexivity]. exfalso. apply N. exists v.
      apply F in Ev. apply W. eauto.
Qed.
Print Assumptions C41_round_trip.

(** Every other form a file may use. *)
Theorem C41_file_forms t :
  (forall v, de_enum (variant_named color_variants) t = Some v <-> one_of colors t v)
  /\ (forall v, de_enum (variant_named when_variants) t = Some v <-> one_of whens t v)
  /\ (forall v, de_enum (variant_named frequency_variants) t = Some v <-> one_of frequencies t v)
  /\ (forall v, de_enum (variant_named vcs_variants) t = Some v <-> one_of vcss t v)
  /\ (forall v, de_enum (variant_named protocol_variants) t = Some v <-> one_of protocols t v).
Proof.
  exact (conj (fun v => de_enum_iff _ _ t v color_named) (conj (fun v => de_enum_iff _ _ t v when_named)
        (conj (fun v => de_enum_iff _ _ t v frequency_named) (conj (fun v => de_enum_iff _ _ t v vcs_named)
              (fun v => de_enum_iff _ _ t v protocol_named))))).
Qed.
Print Assumptions C41_file_forms.

Example C41_example :
  vcs_from_str (B "hg") = Some VcsMercurial /\ vcs_from_str (B "mercurial") = None
  /\ ser_variant (vcs_variant VcsMercurial) = TomlStr (B "hg")
  /\ de_enum (variant_named vcs_variants) (TomlStr (B "Git")) = None
  /\ color_from_str (B "Always") = None /\ protocol_from_str (B "git ") = None.
Proof. vm_compute. repeat split. Qed.

(** ** C43 *)

(** A document with one thing of every kind. *)
Definition ex_doc : toml :=
  TomlTab
    [(B "alias", TomlTab [(B "b", TomlStr (B "build  --all")); (B "r", TomlArr [TomlStr (B "run x")])]);
     (B "build", TomlTab [(B "jobs", TomlInt (-2)); (B "rustflags", TomlStr (B "-Ca -Cb"));
                          (B "target", TomlArr [TomlStr (B "a"); TomlStr (B "b")]);
                          (B "unheard-of", TomlFloat (B "1.5"))]);
     (B "doc", TomlTab [(B "browser", TomlArr [TomlStr (B "my browser"); TomlStr (B "-x")])]);
     (B "env", TomlTab [(B "A", TomlStr (B "1"));
                        (B "P", TomlTab [(B "value", TomlStr (B "p")); (B "relative", TomlBool true)])]);
     (B "profile", TomlTab [(B "release", TomlTab [(B "lto", TomlBool true)])]);
     (B "registries", TomlTab [(B "r", TomlTab [(B "index", TomlStr (B "https://r"))])]);
     (B "cargo-new", TomlTab [(B "vcs", TomlStr (B "hg"))]);
     (B "target", TomlTab [(B "cfg(unix)", TomlTab [(B "linker", TomlStr (B "ld"))])]);
     (B "term", TomlTab [(B "progress", TomlTab [(B "when", TomlStr (B "never")); (B "width", TomlInt 80)])])].

(** Keys that are not documented do not matter, wherever they are. *)
Theorem C43_unknown_keys_ignored t : de_config (prune documented t) = de_config t.
Proof. exact (de_config_prune t). Qed.
Print Assumptions C43_unknown_keys_ignored.
Theorem C43_adding_unknown_keys t t' : prune documented t = prune documented t' -> de_config t = de_config t'.
Proof.
  exact (fun H => eq_trans (eq_sym (de_config_prune t)) (eq_trans (f_equal de_config H) (de_config_prune t'))).
Qed.
Print Assumptions C43_adding_unknown_keys.
Example C43_unknown_example :
  at_path [B "profile"; B "release"; B "lto"] ex_doc = Some (TomlBool true)
  /\ at_path [B "profile"] (prune documented ex_doc) = None
  /\ at_path [B "build"; B "unheard-of"] (prune documented ex_doc) = None
  /\ at_path [B "build"; B "jobs"] (prune documented ex_doc) = Some (TomlInt (-2))
  /\ at_path [B "env"; B "P"; B "relative"] (prune documented ex_doc) = Some (TomlBool true)
  /\ is_some (de_config ex_doc) = true.
Proof. vm_compute. repeat split. Qed.

(** What is read is what the document says at the documented place of a key. *)
Theorem C43_scalars t c :
  laid_out t -> de_config t = Some c ->
  forall A (k : scalar_key A),
  says (place k) (fun u v => exists a, stands_for k u a /\ v = unlabelled a) t (look k c).
Proof. intros L D A k. destruct (laid_out_root t L) as (root & ->). exact (doc_scalar root c A k L D). Qed.
Print Assumptions C43_scalars.
Theorem C43_lists t c :
  laid_out t -> de_config t = Some c ->
  forall k, says (list_place k) (fun u v => exists w, list_stands_for k u w /\ v = unlabelled_words w) t (look_list k c).
Proof. intros L D k. destruct (laid_out_root t L) as (root & ->). exact (doc_list root c k L D). Qed.
Print Assumptions C43_lists.
Theorem C43_programs t c :
  laid_out t -> de_config t = Some c ->
  forall k, says (program_place k) (fun u v => exists w, program_value u w /\ v = unlabelled_words w) t (look_program k c).
Proof. intros L D k. destruct (laid_out_root t L) as (root & ->). exact (doc_program root c k L D). Qed.
Print Assumptions C43_programs.
Theorem C43_entries t c :
  laid_out t -> de_config t = Some c ->
  (forall k, has_entry k c = is_some (at_path (entry_place k) t))
  /\ (forall n, says [B "env"; n] (fun u s => s = match u with TomlTab _ => Compound | _ => Simple end) t
                  (shape_at (ShapeEnv n) c)).
Proof.
  intros L D. destruct (laid_out_root t L) as (root & ->). split; intros.
  - exact (doc_entry root c k L D).
  - exact (doc_env_shape root c n L D).
Qed.
Print Assumptions C43_entries.

(** A document is rejected exactly if some documented key has none of its values. *)
Theorem C43_accepted_iff t : laid_out t -> ((exists c, de_config t = Some c) <-> well_typed t).
Proof. exact (accepted_iff t). Qed.
Print Assumptions C43_accepted_iff.
(** One mistyped key is enough, however the rest of the document is laid out. *)
Theorem C43_mistyped t :
  (exists A (k : scalar_key A) u, at_path (place k) t = Some u /\ ~ exists a, stands_for k u a)
  \/ (exists k u, at_path (list_place k) t = Some u /\ ~ exists w, list_stands_for k u w)
  \/ (exists k u, at_path (program_place k) t = Some u /\ ~ exists w, program_value u w) ->
  de_config t = None.
Proof.
  intros H. destruct (de_config t) as [c|] eqn:D; [exfalso|reflexivity].
  destruct H as [(A & k & u & Hu & N)|[(k & u & Hu & N)|(k & u & Hu & N)]]; apply N.
  - exact (typed_scalar t c A k u D Hu).
  - exact (typed_list t c k u D Hu).
  - exact (typed_program t c k u D Hu).
Qed.
Print Assumptions C43_mistyped.
(** What is read has no definition yet and no environment override. *)
Theorem C43_plain t c : de_config t = Some c -> plain c /\ storable c.
Proof. intros D. split; [exact (proj2 (plain_iff c) (de_config_overrides t c D))|exact (de_config_storable t c D)]. Qed.
Print Assumptions C43_plain.

Fixpoint once (l : list str) : bool :=
  match l with [] => true | k :: r => negb (existsb (str_eqb k) r) && once r end.
Example C43_laid_out : laid_out ex_doc.
Proof.
  assert (T : forall l (u : toml), Some (TomlTab l) = Some u -> once (map fst l) = true ->
              exists l, u = TomlTab l /\ NoDup (map fst l)).
  { intros l u [= <-] N. exists l. split; [reflexivity|]. revert N. generalize (map fst l). intros ks.
    induction ks as [|k ks IH]; [constructor|]. cbn. intros N. apply andb_prop in N. destruct N as (N & Ns).
    constructor; [|now apply IH]. intros Hin. rewrite negb_true_iff in N.
    apply Bool.not_true_iff_false in N. apply N. apply existsb_exists. exists k. split; [exact Hin|apply str_eqb_refl]. }
  intros p u [|s H| |n|n] E.
  - exact (T _ _ E eq_refl).
  - cbn in H. repeat destruct H as [<-|H]; try contradiction; try discriminate E;
      (eapply T; [exact E|reflexivity]).
  - eapply T; [exact E|reflexivity].
  - change (match option_map snd (if str_eqb n (B "r") then Some ((B "r"), (TomlTab [(B "index", TomlStr (B "https://r"))])) else None) with
            | Some v => Some v | None => None end = Some u) in E.
    destruct (str_eqb n (B "r")); [|discriminate]. eapply T; [exact E|reflexivity].
  - change (match option_map snd (if str_eqb n (B "cfg(unix)") then Some ((B "cfg(unix)"), (TomlTab [(B "linker", TomlStr (B "ld"))])) else None) with
            | Some v => Some v | None => None end = Some u) in E.
    destruct (str_eqb n (B "cfg(unix)")); [|discriminate]. eapply T; [exact E|reflexivity].
Qed.
Definition read_ex : config := match de_config ex_doc with Some c => c | None => config_default end.
Example C43_example :
  de_config ex_doc = Some read_ex
  /\ look BuildJobs read_ex = Some (unlabelled (-2)%Z)
  /\ look_list (Alias (B "b")) read_ex = Some (unlabelled_words (AsString, [B "build"; B "--all"]))
  /\ look_list (Alias (B "r")) read_ex = Some (unlabelled_words (AsArray, [B "run x"]))
  /\ look_list BuildRustflags read_ex = Some (unlabelled_words (AsString, [B "-Ca"; B "-Cb"]))
  /\ look_program DocBrowser read_ex = Some (unlabelled_words (AsArray, [B "my browser"; B "-x"]))
  /\ look (EnvVarRelative (B "P")) read_ex = Some (unlabelled true)
  /\ look CargoNewVcs read_ex = Some (unlabelled VcsMercurial)
  /\ look TermProgressWidth read_ex = Some (unlabelled 80%N)
  /\ look TermColor read_ex = None.
Proof. vm_compute. repeat split. Qed.
Definition mistyped_doc : toml :=
  TomlTab [(B "build", TomlTab [(B "rustc", TomlStr (B "r")); (B "jobs", TomlStr (B "4"))])].
Example C43_mistyped_example :
  (exists u, at_path (place BuildJobs) mistyped_doc = Some u /\ ~ exists a, stands_for BuildJobs u a)
  /\ de_config mistyped_doc = None.
Proof.
  split; [|reflexivity]. eexists. split; [reflexivity|]. intros (a & H & _). discriminate H.
Qed.

(** The layout is not required, contrary to what the documentation says: a section may be
    an array of its values, and a date is a table. *)
Theorem C43_only_documented_forms_refuted :
  ~ (forall t, (exists c, de_config t = Some c) -> laid_out t).
Proof.
  intros H.
  set (t := TomlTab [(B "term", TomlArr [TomlBool true; TomlBool false; TomlStr (B "never")])]).
  destruct (H t (ex_intro _ _ eq_refl) [B "term"] _ (section_named (B "term") ltac:(cbn; tauto)) eq_refl)
    as (l & E & _). discriminate E.
Qed.
Print Assumptions C43_only_documented_forms_refuted.
Example C43_array_section :
  option_map (look TermColor)
    (de_config (TomlTab [(B "term", TomlArr [TomlBool true; TomlBool false; TomlStr (B "never")])]))
  = Some (Some (unlabelled ColorNever)).
Proof. vm_compute. reflexivity. Qed.
Example C43_date_section :
  option_map (look_list (Alias (B "$__toml_private_datetime")))
    (de_config (TomlTab [(B "alias", TomlDate (B "1979-05-27"))]))
  = Some (Some (unlabelled_words (AsString, [B "1979-05-27"]))).
Proof. vm_compute. reflexivity. Qed.

(** ** C42 *)

(** Writing a configuration and reading it again keeps every key, entry and form, except
    that definitions are lost and flags become arrays.  Writing it once more changes
    nothing. *)
Theorem C42_round_trip c :
  storable c ->
  exists c', de_config (ser_config c) = Some c'
  /\ (forall A (k : scalar_key A), look k c' = option_map anonymous (look k c))
  /\ (forall k, look_list k c' = option_map (fun w => anonymous_words (stored_form k w)) (look_list k c))
  /\ (forall k, look_program k c' = option_map anonymous_words (look_program k c))
  /\ (forall k, has_entry k c' = has_entry k c)
  /\ (forall n, shape_at (ShapeEnv n) c' = shape_at (ShapeEnv n) c)
  /\ tables_in_order c' /\ plain c'
  /\ ser_config c' = ser_config c.
Proof.
  intros St. exists (a_config c). split; [exact (anon_config c St)|].
  repeat match goal with |- _ /\ _ => split end.
  - exact (a_look c).
  - exact (a_look_list c).
  - exact (a_look_program c).
  - exact (a_entry c).
  - exact (a_env_shape c).
  - destruct St as (T & _). exact (a_in_order c T).
  - exact (a_plain c).
  - exact (ser_again c).
Qed.
Print Assumptions C42_round_trip.

(** Everything that can be obtained by loading files and applying the environment can be
    written and read. *)
Theorem C42_loaded f cwd home env c c' :
  one_value_each env -> load_with_options f cwd home = Ok c -> apply_env env c = Ok c' ->
  storable c /\ storable c'.
Proof.
  intros N L E. pose proof (load_storable _ _ _ L) as St. split; [exact St|].
  exact (apply_env_storable env c c' N St E).
Qed.
Print Assumptions C42_loaded.

Theorem C42_empty c : ser_config c = TomlTab [] <-> nothing_set c.
Proof. exact (empty_iff c). Qed.
Print Assumptions C42_empty.

Example C42_example :
  exists t, ser_config read_ex = t
  /\ storable read_ex
  /\ at_path [B "alias"; B "b"] t = Some (TomlStr (B "build --all"))
  /\ at_path [B "build"; B "rustflags"] t = Some (TomlArr [TomlStr (B "-Ca"); TomlStr (B "-Cb")])
  /\ at_path [B "build"; B "unheard-of"] t = None
  /\ at_path [B "env"; B "P"; B "relative"] t = Some (TomlBool true)
  /\ at_path [B "http"] t = None
  /\ at_path [B "cargo-new"; B "vcs"] t = Some (TomlStr (B "hg")).
Proof.
  eexists. split; [reflexivity|]. split; [apply (de_config_storable ex_doc); reflexivity|].
  vm_compute. repeat split.
Qed.
Example C42_empty_example : nothing_set config_default /\ ser_config config_default = TomlTab [].
Proof. split; [apply C42_empty|]; reflexivity. Qed.

(** A configuration built by hand need not survive: a word with a space in it. *)
Definition by_hand : config :=
  mkConfig [(B "a", mkStringList [mkValue (B "b c") None] ReprString)] build_default doc_default [] (c_future_incompat_report config_default)
    (c_cargo_new config_default) (c_http config_default) (c_net config_default) [] (c_registry config_default) []
    (c_term config_default).
Theorem C42_any_config_refuted :
  ~ (forall c, exists c', de_config (ser_config c) = Some c'
       /\ forall n, look_list (Alias n) c' = option_map anonymous_words (look_list (Alias n) c)).
Proof.
  intros H. destruct (H by_hand) as (c' & D & L). specialize (L (B "a")).
  vm_compute in D. injection D as <-. vm_compute in L. discriminate L.
Qed.
Print Assumptions C42_any_config_refuted.
