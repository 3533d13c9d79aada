(** C62: settings handed on to another process by its variables arrive unchanged. *)
From Verif.Model Require Import Base Str Path BMap Error Value De EasyTypes Triple Serde Load Context Process Resolve Easy.
From Verif.Spec Require Import StrSpec Utf8Spec FlagsSpec PathSpec ConfigSpec LoadSpec EnvSpec RootSpec TripleSpec QuerySpec TargetSpec ReloadSpec
  FinalSpec HandSpec.
From Verif.Proof Require Import StrFacts Utf8Proof FlagsProof EnvTextProof EnvVarsProof FinalProof ReloadProof HandProof.
From Verif.Spec Require Import FinalSpec.
From Verif.Props Require Import Final Flags Local.

(** The receiving run: any files, any directory, any other variables. *)
Definition received (f : fs) (p : process_env) (cwd : str) (o : options) (env : env_map) (l : files) (c : econfig) : Prop :=
  sources f p cwd o env l /\ easy_load_with_options f p cwd o = Ok c.
(** A query of the receiving run that is answered. *)
Definition answered (pr : profile) (w : world) (l : files) (c : econfig) (q : query) (a : target_arg) (x : answer) : Prop :=
  Forall (fun y => text_keys (c_target (snd y))) l /\ real_arg a
  /\ exists s s', reached pr w c s /\ run_query pr w c q s = (Ok x, s').

Section Receiving.
Context (f : fs) (p : process_env) (cwd : str) (o : options) (env : env_map) (l : files) (c : econfig).

(** Single values that do not depend on where they are read. *)
Theorem C62_value A (k : scalar_key A) a : received f p cwd o env l c -> field k = true ->
  handed_on env k a -> settled k a -> switches_off k a = false -> easy_look k c = Some a.
Proof. intros [S H]. now apply (hand_value f p cwd o env l c). Qed.
(** So every value of one run can be handed on to another. *)
Theorem C62_between f0 p0 cwd0 o0 c0 A (k : scalar_key A) a :
  (forall e, o_env o0 = Some e -> one_value_each e) -> absolute cwd0 ->
  (forall h, home_of p0 o0 cwd0 (Some h) -> absolute h) -> easy_load_with_options f0 p0 cwd0 o0 = Ok c0 ->
  easy_look k c0 = Some a ->
  received f p cwd o env l c -> field k = true -> handed_on env k a -> switches_off k a = false ->
  easy_look k c = easy_look k c0.
Proof.
  intros N D Hh L E R F G O. rewrite E. apply C62_value; auto.
  exact (proj1 (load_settled f0 p0 cwd0 o0 c0 N D Hh L) A k a E).
Qed.

(** Flags in [CARGO_ENCODED_RUSTFLAGS]: for all targets, whatever the files and the other
    variables say.  Exactly the lists not beginning with an empty flag arrive. *)
Theorem C62_encoded n fl s : received f p cwd o env l c ->
  encode (mkEflags fl) = Ok s -> env_get (B "CARGO_ENCODED_" ++ name_of_flags n) env = Some s ->
  (easy_words (flags_of_build n) c = Some fl <-> starts_with_text fl)
  /\ forall pr w a x, answered pr w l c (flags_query n a) a x ->
       (x = AFlags (Some (mkEflags fl)) <-> starts_with_text fl).
Proof.
  intros [S H] E G. assert (U : utf8 s) by (apply (flags_text f p cwd o env l c S H n); now left).
  assert (Fr : Forall (free_of unit_separator) fl) by (apply C01_encode_ok_iff; now rewrite E).
  assert (X : split_encoded s = fl <-> starts_with_text fl).
  { rewrite <- (C01_roundtrip_iff fl Fr). split.
    - intros K. exists s. split; [assumption|]. unfold eflags_from_encoded. now rewrite K.
    - intros (s1 & E1 & K). assert (s1 = s) by congruence. subst s1. unfold eflags_from_encoded in K. now injection K. }
  assert (W := encoded_words env l s n G U). split.
  - assert (K := C53_lists f p cwd o env l c S H (flags_of_build n) ltac:(now destruct n)). rewrite W in K.
    destruct (easy_words (flags_of_build n) c) as [y|]; [|contradiction]. cbn [both] in K.
    assert (Y : y = split_encoded s).
    { destruct n; cbn [flags_of_build final_words snd] in K; now rewrite vals_of_variable in K. }
    rewrite <- X, Y. split; [now intros [= K']|now intros ->].
  - intros pr w a x (T & Ra & st & st' & Rs & Q). rewrite <- X.
    rewrite (override_build f p cwd o env l c S H pr w a st st' T Rs Ra n x _ _ W ltac:(unfold overrides_target, EnvSpec.set; now rewrite G) Q).
    rewrite vals_of_variable. split; [now intros [= K']|now intros ->].
Qed.
(** Flags in [RUSTFLAGS]: exactly the lists of words arrive. *)
Theorem C62_spaced n fl s : received f p cwd o env l c ->
  encode_space_separated (mkEflags fl) = Ok s -> env_get (B "CARGO_ENCODED_" ++ name_of_flags n) env = None ->
  env_get (name_of_flags n) env = Some s ->
  (easy_words (flags_of_build n) c = Some fl <-> Forall (fun w => w <> [] /\ is_trimmed w) fl)
  /\ forall pr w a x, answered pr w l c (flags_query n a) a x ->
       (x = AFlags (Some (mkEflags fl)) <-> Forall (fun w => w <> [] /\ is_trimmed w) fl).
Proof.
  intros [S H] E N G. assert (U : utf8 s) by (apply (flags_text f p cwd o env l c S H n); now right).
  assert (Fr : Forall (free_of space) fl) by (apply encode_space_ok_iff; now rewrite E).
  assert (X : split_space_separated s = fl <-> Forall (fun w => w <> [] /\ is_trimmed w) fl).
  { rewrite <- (encode_space_same_iff fl Fr). split.
    - intros K. exists s. split; [assumption|]. unfold eflags_from_space_separated. now rewrite K.
    - intros (s1 & E1 & K). assert (s1 = s) by congruence. subst s1. unfold eflags_from_space_separated in K. now injection K. }
  assert (W := spaced_words env l s n N G U). split.
  - assert (K := C53_lists f p cwd o env l c S H (flags_of_build n) ltac:(now destruct n)). rewrite W in K.
    destruct (easy_words (flags_of_build n) c) as [y|]; [|contradiction]. cbn [both] in K.
    assert (Y : y = split_space_separated s).
    { destruct n; cbn [flags_of_build final_words snd] in K; now rewrite vals_of_variable in K. }
    rewrite <- X, Y. split; [now intros [= K']|now intros ->].
  - intros pr w a x (T & Ra & st & st' & Rs & Q). rewrite <- X.
    rewrite (override_build f p cwd o env l c S H pr w a st st' T Rs Ra n x _ _ W
               ltac:(unfold overrides_target, EnvSpec.set; rewrite G; apply Bool.orb_true_r) Q).
    rewrite vals_of_variable. split; [now intros [= K']|now intros ->].
Qed.

(** The linker and the runner of a target, and the target itself. *)
Theorem C62_linker pr w a t v x : received f p cwd o env l c -> answered pr w l c (QLinker a) a x ->
  to_triple a = Ok t -> env_get (target_variable (tt_triple t) (B "LINKER")) env = Some v -> settled_program v ->
  x = APath (Some v).
Proof.
  intros [S H] (T & Ra & st & st' & Rs & Q) E G V.
  exact (hand_linker f p cwd o env l c S H pr w a st st' T Rs Ra t v x E G V Q).
Qed.
Theorem C62_runner pr w a t path args x : received f p cwd o env l c -> answered pr w l c (QRunner a) a x ->
  to_triple a = Ok t ->
  env_get (target_variable (tt_triple t) (B "RUNNER")) env = Some (intercalate space (path :: args)) ->
  Forall plain_word (path :: args) -> settled_program path -> x = APa (Some (mkEpa path args)).
Proof.
  intros [S H] (T & Ra & st & st' & Rs & Q) E G P V.
  assert (Fr : Forall (free_of space) (path :: args)) by (eapply Forall_impl; [|exact P]; unfold plain_word; tauto).
  assert (Tr : Forall (fun w => w <> [] /\ is_trimmed w) (path :: args))
    by (eapply Forall_impl; [|exact P]; unfold plain_word; tauto).
  apply (encode_space_same_iff _ Fr) in Tr as (s1 & E1 & K1).
  assert (s1 = intercalate space (path :: args)).
  { unfold encode_space_separated in E1. rewrite sp_spec in E1. rewrite encode_internal_value in E1 by exact Fr.
    injection E1 as <-. destruct path; [|reflexivity]. inversion P as [|? ? [K _]]. now destruct K. }
  subst s1. unfold eflags_from_space_separated in K1. injection K1 as K1.
  exact (hand_runner f p cwd o env l c S H pr w a st st' T Rs Ra t _ path args x E G K1 V Q).
Qed.
Theorem C62_target v : received f p cwd o env l c -> env_get (B "CARGO_BUILD_TARGET") env = Some v ->
  (spec_like v -> absolute v) -> easy_words BuildTarget c = Some [v].
Proof. intros [S H]. now apply (hand_target f p cwd o env l c). Qed.
End Receiving.
Print Assumptions C62_value.
Print Assumptions C62_between.
Print Assumptions C62_encoded.
Print Assumptions C62_spaced.
Print Assumptions C62_linker.
Print Assumptions C62_runner.
Print Assumptions C62_target.

(** ** Examples *)
Definition c62_flags : list str := [B "-C"; B "link-arg=a b"; B ""].
Definition c62_encoded : str := B "-C" ++ [unit_separator] ++ B "link-arg=a b" ++ [unit_separator].
Definition c62_process : process_env :=
  mkProcess [(B "CARGO_HOME", B "/h/c"); (B "CARGO_ENCODED_RUSTFLAGS", c62_encoded); (B "RUSTFLAGS", B "-x");
             (B "RUSTDOCFLAGS", B "--cfg docsrs"); (B "CARGO_TARGET_T1_RUNNER", B "/bin/run -q");
             (B "CARGO_TARGET_T1_LINKER", B "mold"); (B "RUSTC", B "/opt/rc"); (B "CARGO_BUILD_RUSTC", B "rc2");
             (B "CARGO_BUILD_TARGET", B "t1")] None.
Definition c62_env : env_map := env_filter (p_vars c62_process).
Lemma c62_sources : sources c53_fs c62_process (B "/p/a") options_default c62_env c61_l.
Proof.
  split; [intros n v; apply env_filter_get|]. exists (Some (B "/h/c")), c53_paths.
  split; [apply home_absolute; [reflexivity|reflexivity|]; now exists (B "h/c")|]. split; [exact c53_visited|].
  split; [reflexivity|].
  repeat (constructor; [eexists; split; [reflexivity|vm_compute; reflexivity]|]). constructor.
Qed.
Definition c62_load := easy_load_with_options c53_fs c62_process (B "/p/a") options_default.
Example C62_ex_received : exists c, received c53_fs c62_process (B "/p/a") options_default c62_env c61_l c /\ c62_load = Ok c.
Proof.
  destruct c62_load as [c| |] eqn:E; [|vm_compute in E; discriminate..].
  exists c. split; [|reflexivity]. split; [exact c62_sources|exact E].
Qed.
Example C62_ex_handed :
  encode (mkEflags c62_flags) = Ok c62_encoded /\ starts_with_text c62_flags
  /\ env_get (B "CARGO_ENCODED_" ++ name_of_flags Rustflags) c62_env = Some c62_encoded
  /\ encode_space_separated (mkEflags [B "--cfg"; B "docsrs"]) = Ok (B "--cfg docsrs")
  /\ env_get (B "CARGO_ENCODED_" ++ name_of_flags Rustdocflags) c62_env = None
  /\ env_get (name_of_flags Rustdocflags) c62_env = Some (B "--cfg docsrs")
  /\ env_get (target_variable (B "t1") (B "RUNNER")) c62_env = Some (intercalate space [B "/bin/run"; B "-q"])
  /\ env_get (target_variable (B "t1") (B "LINKER")) c62_env = Some (B "mold")
  /\ handed_on c62_env BuildRustc (B "/opt/rc").
Proof.
  split; [reflexivity|]. split; [left; discriminate|]. do 6 (split; [reflexivity|]).
  exists (text (B "RUSTC")), [text (B "CARGO_BUILD_RUSTC")], (B "/opt/rc").
  split; [reflexivity|]. split; [reflexivity|]. split; [now apply utf8_valid_iff|reflexivity].
Qed.
Example C62_ex : match c62_load with
  | Ok c =>
      let ask q := fst (run_query release c53_world c q (state_init (ec_cx c))) in
      easy_look BuildRustc c = Some (B "/opt/rc") /\ easy_words BuildRustflags c = Some c62_flags
      /\ ask (QRustflags (ArgText (B "t1"))) = Ok (AFlags (Some (mkEflags c62_flags)))
      /\ ask (QRustflags (ArgText (B "other"))) = Ok (AFlags (Some (mkEflags c62_flags)))
      /\ ask (QRustdocflags (ArgText (B "t1"))) = Ok (AFlags (Some (mkEflags [B "--cfg"; B "docsrs"])))
      /\ ask (QRunner (ArgText (B "t1"))) = Ok (APa (Some (mkEpa (B "/bin/run") [B "-q"])))
      /\ ask (QLinker (ArgText (B "t1"))) = Ok (APath (Some (B "mold")))
      /\ easy_words BuildTarget c = Some [B "t1"]
  | _ => False
  end.
Proof. vm_compute. repeat split. Qed.

(** No flags at all do not arrive: there is one flag then, an empty one.  (Cargo itself takes an
    empty [CARGO_ENCODED_RUSTFLAGS] for no flags.) *)
Theorem C62_no_flags_refuted : exists f p cwd o env l c s, received f p cwd o env l c
  /\ encode (mkEflags []) = Ok s /\ env_get (B "CARGO_ENCODED_RUSTFLAGS") env = Some s
  /\ easy_words BuildRustflags c = Some [[]].
Proof.
  set (p := mkProcess [(B "CARGO_HOME", B "/h/c"); (B "CARGO_ENCODED_RUSTFLAGS", B "")] None).
  destruct (easy_load_with_options c53_fs p (B "/p/a") options_default) as [c| |] eqn:E; [|vm_compute in E; discriminate..].
  exists c53_fs, p, (B "/p/a"), options_default, (env_filter (p_vars p)), c61_l, c, [].
  split; [|split; [reflexivity|split; [reflexivity|]]].
  - split; [|exact E]. split; [intros n v; apply env_filter_get|]. exists (Some (B "/h/c")), c53_paths.
    split; [apply home_absolute; [reflexivity|reflexivity|]; now exists (B "h/c")|]. split; [exact c53_visited|].
    split; [reflexivity|].
    repeat (constructor; [eexists; split; [reflexivity|vm_compute; reflexivity]|]). constructor.
  - vm_compute in E. injection E as <-. reflexivity.
Qed.
Print Assumptions C62_no_flags_refuted.
