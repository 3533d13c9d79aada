(** C74 for resolved configurations: the JSON is UTF-8, as the files and the names of variables are. *)
From Verif.Model Require Import Base Str Path BMap Error Value De Serde Walk Load Triple EasyTypes Context Resolve Process Easy EasySerde JsonText.
From Verif.Spec Require Import StrSpec Utf8Spec WalkSpec ConfigSpec SerdeSpec LoadSpec EnvSpec RootSpec TargetSpec JsonSpec FinalSpec OptionsSpec.
From Verif.Proof Require Import StrFacts BMapFacts Utf8Proof LoadProof EnvProof JsonUseProof ConstructProof JsonLoadProof JsonResolvedProof.
From Verif.Props Require Import Serde Final Options Json JsonLoaded.

(** Values of variables need no hypothesis: they are only taken if they are UTF-8. Paths that
    are not make the writing fail. [targets] are any targets. *)
Theorem C74_resolved_utf8 f p cwd o env l ec targets t :
  sources f p cwd o env l -> easy_load_with_options f p cwd o = Ok ec ->
  (forall q d, In q (map fst l) -> fs_read f q = ReadTree d -> laid_out d /\ texts d) ->
  (forall e, o_env o = Some e -> Forall (fun x => utf8 (fst x)) e) ->
  (forall n e fl, In (n, e) targets -> et_rustflags e = Some fl \/ et_rustdocflags e = Some fl -> Forall utf8 (ef_flags fl)) ->
  eser_config ec targets = Some t -> texts t /\ utf8 (json_text t).
Proof.
  intros S H U O G E. destruct (C53_well_formed _ _ _ _ _ H) as (W1 & W2 & W3 & _).
  assert (T : texts t).
  { apply (resolved_texts ec (sources_text _ _ _ _ _ _ _ S H U O) (proj1 (in_order_sorted _) W1) (proj1 (in_order_sorted _) W2)
             (proj1 (in_order_sorted _) W3) targets); [|exact E].
    intros n e I. split; intros fl K; apply (G n e fl I); tauto. }
  split; [exact T|]. exact (text_utf8 t (plain_resolved ec targets t E) T).
Qed.
Print Assumptions C74_resolved_utf8.

(** After any queries the flags of the targets asked for are UTF-8, so nothing is left to assume. *)
Theorem C74_asked_utf8 f p cwd o env l ec pr w s t :
  sources f p cwd o env l -> easy_load_with_options f p cwd o = Ok ec ->
  (forall q d, In q (map fst l) -> fs_read f q = ReadTree d -> laid_out d /\ texts d) ->
  (forall e, o_env o = Some e -> Forall (fun x => utf8 (fst x)) e) ->
  reached pr w ec s -> eser_config ec (s_target s) = Some t -> texts t /\ utf8 (json_text t).
Proof.
  intros S H U O R E. apply (C74_resolved_utf8 f p cwd o env l ec (s_target s) t S H U O); [|exact E].
  intros n e fl I. destruct (reached_flags f p cwd o env l ec pr w s n e S H (files_text _ _ _ _ _ _ S U) R I) as [A A'].
  intros [K|K]; [exact (A fl K)|exact (A' fl K)].
Qed.
Print Assumptions C74_asked_utf8.
(** Options can only be built by calls of the builder, which keeps no other names. *)
Theorem C74_built_utf8 f p cwd calls ec pr w s t :
  (forall q d, fs_read f q = ReadTree d -> laid_out d /\ texts d) ->
  easy_load_with_options f p cwd (built calls) = Ok ec ->
  reached pr w ec s -> eser_config ec (s_target s) = Some t -> texts t /\ utf8 (json_text t).
Proof.
  intros U H R E. destruct (C60_builder calls) as (_ & _ & _ & _ & v & _ & G).
  assert (O : forall e, o_env (built calls) = Some e -> one_value_each e /\ Forall (fun x => utf8 (fst x)) e).
  { intros e K. rewrite K in G. destruct v as [vars|]; [|destruct G]. destruct G as [N G]. split; [exact N|].
    apply Forall_forall. intros [n x] I. apply (in_env_get n x e N) in I. apply G in I as [[V _] _]. now apply utf8_valid_iff. }
  destruct (proj1 (C53_accepted f p cwd (built calls) (fun e K => proj1 (O e K)))) as (env & l & S & _); [now rewrite H|].
  apply (C74_asked_utf8 f p cwd (built calls) env l ec pr w s t S H); auto; [intros q d _; apply U|intros e K; now apply O].
Qed.
Print Assumptions C74_built_utf8.

(** ** An example: the name of an alias is a two-byte letter, from a file and from a variable *)
Definition c74_process : process_env :=
  mkProcess [(B "CARGO_ALIAS_x" ++ c74_word, B "t " ++ c74_word); (B "CARGO_HOME", B "/h");
             (B "CARGO_ENCODED_RUSTFLAGS", c74_word ++ us :: B "-q");
             (B "CARGO_TARGET_T_RUSTDOCFLAGS", B "-q  " ++ c74_word)] None.
Definition c74_read : result econfig := easy_load_with_options c74_fs c74_process (B "/p/a") options_default.
Definition c74_targets : bmap etarget :=
  [(B "t", mkEtarget None None (Some (mkEflags [c74_word])) None)].
Example C74_ex_resolved_meets :
  (exists env l, sources c74_fs c74_process (B "/p/a") options_default env l)
  /\ (forall q d, fs_read c74_fs q = ReadTree d -> laid_out d /\ texts d)
  /\ match c74_read with
     | Ok ec => option_map json_text (eser_config ec c74_targets)
         = Some (B "{""alias"":{""x" ++ c74_word ++ B """:[""t"",""" ++ c74_word ++ B """],""" ++ c74_word ++ B """:[""r"",""" ++ c74_word
                 ++ B """,""-q""]},""build"":{""rustflags"":[""" ++ c74_word ++ B """,""-q""]},""target"":{""t"":{""rustflags"":["""
                 ++ c74_word ++ B """]}}}")
     | _ => False
     end
  /\ utf8 c74_word.
Proof.
  split; [|split; [|split]].
  - destruct (C53_accepted c74_fs c74_process (B "/p/a") options_default) as [X _]; [discriminate|].
    destruct X as (env & l & S & _); [vm_compute; reflexivity|]. now exists env, l.
  - intros q d R. cbn in R. destruct (str_eqb q _); [|discriminate R]. assert (d = c74_doc) as -> by (injection R as <-; reflexivity).
    split; [apply laid_out_check; vm_compute; reflexivity|]. cbn.
    repeat split; try exact I; apply utf8_valid_iff; vm_compute; reflexivity.
  - vm_compute. reflexivity.
  - apply utf8_valid_iff. vm_compute. reflexivity.
Qed.
Definition c74_world : world := mkWorld (fun _ _ => false) (fun _ _ => NotStarted KNotFound).
Example C74_ex_asked :
  match c74_read with
  | Ok ec => let s := run_queries release c74_world ec [QLinker (ArgText (B "t"))] (state_init (ec_cx ec)) in
      reached release c74_world ec s
      /\ option_map (fun t => at_path [B "target"] t) (eser_config ec (s_target s))
         = Some (Some (TomlTab [(B "t", TomlTab [(B "rustflags", TomlArr [TomlStr c74_word; TomlStr (B "-q")]);
                                                 (B "rustdocflags", TomlArr [TomlStr (B "-q"); TomlStr c74_word])])]))
  | _ => False
  end.
Proof.
  destruct c74_read as [ec| |] eqn:E; [|vm_compute in E; discriminate E..].
  cbv zeta. split; [exists [QLinker (ArgText (B "t"))]; split; [repeat constructor|reflexivity]|].
  vm_compute in E. injection E as <-. vm_compute. reflexivity.
Qed.
(** The options by default are built without calls; these names are not kept. *)
Example C74_ex_built : built [] = options_default
  /\ o_env (built [CallEnv [(B "CARGO_ALIAS_" ++ [ascii_of_N 255], B "t"); (B "CARGO_ALIAS_" ++ c74_word, B "t")]])
     = Some [(B "CARGO_ALIAS_" ++ c74_word, B "t")].
Proof. split; [reflexivity|vm_compute; reflexivity]. Qed.
