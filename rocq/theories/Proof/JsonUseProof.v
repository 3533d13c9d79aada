(** The JSON text of configurations. *)
From Verif.Model Require Import Base Str Path BMap Error Value De Serde Triple EasyTypes Context Resolve Easy EasySerde JsonText.
From Verif.Spec Require Import StrSpec Utf8Spec ConfigSpec SerdeSpec GetSpec JsonSpec.
From Verif.Proof Require Import StrFacts CfgEvalProof GetProof JsonProof.

Lemma alike_entry k l m : Forall2 (fun a b => fst a = fst b /\ alike (snd a) (snd b)) l m ->
  match entry k l, json_entry k m with
  | Some t, Some j => alike t j
  | None, None => True
  | _, _ => False
  end.
Proof.
  unfold entry, json_entry. induction 1 as [|[a t] [b j] l m [E A] F IH]; [exact I|]. cbn [find fst snd] in *. subst b.
  destruct (str_eqb k a); [exact A|exact IH].
Qed.
Lemma alike_at p : forall t j, alike t j ->
  match at_path p t, json_at p j with
  | Some u, Some i => alike u i
  | None, None => True
  | _, _ => False
  end.
Proof.
  induction p as [|k p IH]; intros t j A; [exact A|]. cbn [at_path json_at].
  inversion A as [| | |l m F|l m F]; subst; try exact I. pose proof (alike_entry k l m F) as H.
  destruct (entry k l), (json_entry k m); try contradiction; [now apply IH|exact I].
Qed.
Lemma alike_keys (l : list (str * toml)) (m : list (str * json)) : Forall2 (fun a b => fst a = fst b /\ alike (snd a) (snd b)) l m -> map fst l = map fst m.
Proof. induction 1 as [|a b l m [E _] F IH]; [reflexivity|]. cbn [map]. now rewrite E, IH. Qed.
Lemma json_keys c j p m : tables_in_order c -> alike (ser_config c) j -> json_at p j = Some (JObject m) -> NoDup (map fst m).
Proof.
  intros T A E. pose proof (alike_at p _ _ A) as H. rewrite E in H.
  destruct (at_path p (ser_config c)) as [u|] eqn:U; [|contradiction].
  apply (orderly_at _ _ _ (ser_orderly c T)) in U. inversion H as [| | |l m' F|l m' F]; subst.
  rewrite <- (alike_keys _ _ F). inversion U as [x L|]; subst; [now apply tab_leaf in L|assumption].
Qed.

(** Texts are UTF-8. *)
Lemma ascii_utf8 s : Forall (fun c => (code c < 128)%N) s -> utf8 s.
Proof.
  induction 1 as [|c s H F IH]; [constructor|]. rewrite <- (ascii_N_embedding c). fold (code c).
  exact (utf8_cons (code c) (bytes [code c]) s (encodes1 _ H) IH).
Qed.
Lemma small_same c : (128 <= code c)%N -> json_char c = [c].
Proof. all_bytes c; intros H; try reflexivity; exfalso; apply H; reflexivity. Qed.
Lemma small_small c : (code c < 128)%N -> utf8 (json_char c).
Proof. intros H. apply ascii_utf8. all_bytes c; try discriminate H; repeat (constructor; [reflexivity|]); constructor. Qed.
Lemma chars_same s : Forall (fun c => (128 <= code c)%N) s -> flat_map json_char s = s.
Proof. induction 1 as [|c s H F IH]; [reflexivity|]. cbn [flat_map]. rewrite small_same, IH by exact H. reflexivity. Qed.
Lemma high_byte n : (128 <= n < 256)%N -> (128 <= code (ascii_of_N n))%N.
Proof. intros H. unfold code. rewrite N_ascii_embedding; lia. Qed.
Lemma escaped_utf8 s : utf8 s -> utf8 (flat_map json_char s).
Proof.
  induction 1 as [|n c s E U IH]; [constructor|]. rewrite flat_map_app. apply utf8_app; [|exact IH].
  inversion E as [m L|m a b L Q H|m a b d L X Q H1 H2|m a b d e L Q H1 H2 H3]; subst.
  - unfold bytes. cbn [map flat_map]. rewrite app_nil_r. apply small_small. unfold code. rewrite N_ascii_embedding; lia.
  - rewrite chars_same; [exact (utf8_cons _ _ _ E utf8_nil)|]. unfold bytes. cbn [map].
    repeat (constructor; [apply high_byte; lia|]). constructor.
  - rewrite chars_same; [rewrite <- (app_nil_r (bytes _)); exact (utf8_cons _ _ _ E utf8_nil)|]. unfold bytes. cbn [map].
    repeat (constructor; [apply high_byte; lia|]). constructor.
  - rewrite chars_same; [rewrite <- (app_nil_r (bytes _)); exact (utf8_cons _ _ _ E utf8_nil)|]. unfold bytes. cbn [map].
    repeat (constructor; [apply high_byte; lia|]). constructor.
Qed.
Lemma string_utf8 s : utf8 s -> utf8 (json_string s).
Proof.
  intros U. unfold json_string. change (""""%char :: ?x) with ([""""%char] ++ x).
  apply utf8_app; [apply ascii_utf8; repeat constructor|]. apply utf8_app; [now apply escaped_utf8|apply ascii_utf8; repeat constructor].
Qed.
Lemma decimal_ascii n : utf8 (decimal_N n).
Proof.
  apply ascii_utf8. unfold decimal_N. rewrite decimal_digits. pose proof (dfuel_small (S (N.to_nat (N.log2 n))) n) as F.
  induction F as [|d l H F IH]; [constructor|]. cbn [map]. constructor; [|exact IH]. unfold code, digit. rewrite N_ascii_embedding; lia.
Qed.
Lemma commas_utf8 l : Forall utf8 l -> utf8 (with_commas l).
Proof.
  induction 1 as [|x l X F IH]; [constructor|]. destruct l as [|y l]; [exact X|]. rewrite with_commas_cons.
  apply utf8_app; [exact X|]. change (","%char :: ?x) with ([","%char] ++ x). apply utf8_app; [apply ascii_utf8; repeat constructor|exact IH].
Qed.
Ltac one := apply ascii_utf8; repeat constructor.
Lemma text_utf8 t : JsonProof.plain t = true -> texts t -> utf8 (json_text t).
Proof.
  induction t as [b|z|s|s|s|l IH|l IH] using toml_tree_ind; intros H U; try discriminate H; cbn [json_text JsonProof.plain texts] in *.
  - destruct b; one.
  - unfold decimal_Z. destruct (Z.ltb z 0); [|apply decimal_ascii]. change ("-"%char :: ?x) with (["-"%char] ++ x).
    apply utf8_app; [one|apply decimal_ascii].
  - now apply string_utf8.
  - change ("["%char :: ?x) with (["["%char] ++ x). apply utf8_app; [one|]. apply utf8_app; [|one]. apply commas_utf8.
    induction IH as [|x l X IH IHl]; [constructor|]. cbn [forallb map] in *. apply andb_prop in H as [H1 H2]. destruct U as [U1 U2].
    constructor; auto.
  - rewrite entry_texts. change ("{"%char :: ?x) with (["{"%char] ++ x). apply utf8_app; [one|]. apply utf8_app; [|one]. apply commas_utf8.
    induction IH as [|x l X IH IHl]; [constructor|]. cbn [forallb map] in *. apply andb_prop in H as [H1 H2]. destruct U as [[U0 U1] U2].
    constructor; [|auto]. unfold entry_text. apply utf8_app; [now apply string_utf8|]. change (":"%char :: ?x) with ([":"%char] ++ x).
    apply utf8_app; [one|auto].
Qed.

(** ** Resolved configurations *)
Definition eplain (o : epairs) : Prop := forall l, o = Some l -> forallb (fun kv => JsonProof.plain (snd kv)) l = true.
Definition oplain (o : option toml) : Prop := forall t, o = Some t -> JsonProof.plain t = true.
Lemma eplain_app a b : eplain a -> eplain b -> eplain (eapp a b).
Proof.
  intros A B0 l. destruct a as [x|]; [|discriminate]. destruct b as [y|]; [|discriminate]. cbn. intros [= <-].
  rewrite plain_app. now rewrite (A x eq_refl), (B0 y eq_refl).
Qed.
Lemma eplain_concat l : Forall eplain l -> eplain (econcat l).
Proof. induction 1; cbn [econcat]; [intros l [= <-]; reflexivity|now apply eplain_app]. Qed.
Lemma eplain_opt {A} k (f : A -> option toml) o : (forall a, oplain (f a)) -> eplain (esopt k f o).
Proof.
  intros H l. destruct o as [a|]; cbn; [|intros [= <-]; reflexivity]. specialize (H a). destruct (f a) as [t|]; [|discriminate].
  intros [= <-]. cbn. now rewrite (H t eq_refl).
Qed.
Lemma eplain_skip {A} k skip (f : A -> option toml) a : oplain (f a) -> eplain (esskip k skip f a).
Proof.
  intros H l. unfold esskip. destruct (skip a); [intros [= <-]; reflexivity|]. destruct (f a) as [t|]; [|discriminate].
  intros [= <-]. cbn. now rewrite (H t eq_refl).
Qed.
Lemma oplain_tab p : eplain p -> oplain (tab p).
Proof. intros H t. destruct p as [l|]; [|discriminate]. intros [= <-]. exact (H l eq_refl). Qed.
Lemma oplain_ok {A} (f : A -> toml) a : JsonProof.plain (f a) = true -> oplain (ok1 f a).
Proof. intros H t [= <-]. exact H. Qed.
Lemma oplain_path p : oplain (ser_path p).
Proof. intros t. unfold ser_path. destruct (to_str p); [|discriminate]. intros [= <-]. reflexivity. Qed.
Lemma eplain_entries {V} (f : V -> option toml) m : (forall v, oplain (f v)) -> eplain (ser_entries f m).
Proof.
  intros H. induction m as [|[k v] m IH]; [intros l [= <-]; reflexivity|]. cbn [ser_entries]. apply eplain_app; [|exact IH].
  intros l. specialize (H v). destruct (f v) as [x|]; [|discriminate]. intros [= <-]. cbn. now rewrite (H x eq_refl).
Qed.
Lemma plain_strs l : JsonProof.plain (ser_strs l) = true.
Proof. unfold ser_strs. cbn [JsonProof.plain]. apply forallb_forall. intros x I. apply in_map_iff in I as (s & <- & _). reflexivity. Qed.
Ltac eplainly :=
  repeat first
    [ apply oplain_tab | apply eplain_concat | apply Forall_cons | apply Forall_nil | apply eplain_skip | apply eplain_opt; intros ?
    | apply oplain_path | apply oplain_ok | apply eplain_entries; intros ? | reflexivity | apply plain_strs ].
Lemma plain_triples l : JsonProof.plain (TomlArr (map eser_triple l)) = true.
Proof. cbn [JsonProof.plain]. apply forallb_forall. intros x I. apply in_map_iff in I as (s & <- & _). reflexivity. Qed.
Lemma plain_eenv e : JsonProof.plain (eser_env e) = true.
Proof. unfold eser_env. destruct (ee_force e), (ee_relative e); reflexivity. Qed.
Lemma plain_resolved c targets : oplain (eser_config c targets).
Proof.
  unfold eser_config, eser_map, eser_targets, eser_build, eser_doc, eser_future, eser_cargo_new, eser_http, eser_net, eser_registry, eser_term, eser_progress, eser_registries, eser_target.
  eplainly; try apply plain_triples; try apply plain_eenv.
Qed.
