(** Lemmas about the loop over all variables, and about [apply_env] as a whole. *)
From Coq Require Import Permutation.
From Verif.Model Require Import Base Str Path BMap Error Value De Context ApplyEnv.
From Verif.Spec Require Import StrSpec ConfigSpec LoadSpec EnvSpec.
From Verif.Proof Require Import StrFacts BMapFacts MergeProof LoadProof EnvProof.

(** ** What a variable is about *)
Inductive var_kind := KAlias (n : str) | KIndex (n : str) | KToken (n : str) | KProtocol | KOther.
Definition name_of (k : var_kind) : option str :=
  match k with
  | KAlias n => Some (B "CARGO_ALIAS_" ++ n)
  | KIndex n => Some (B "CARGO_REGISTRIES_" ++ n ++ B "_INDEX")
  | KToken n => Some (B "CARGO_REGISTRIES_" ++ n ++ B "_TOKEN")
  | KProtocol => Some (B "CARGO_REGISTRIES_CRATES_IO_PROTOCOL")
  | KOther => None
  end.
Definition kind_of (k : str) : var_kind :=
  match strip_prefix (B "CARGO_ALIAS_") k with
  | Some n => KAlias n
  | None =>
      match strip_prefix (B "CARGO_REGISTRIES_") k with
      | None => KOther
      | Some rest =>
          match strip_suffix (B "_INDEX") rest with
          | Some n => KIndex n
          | None =>
              match strip_suffix (B "_TOKEN") rest with
              | Some n => KToken n
              | None => if str_eqb rest (B "CRATES_IO_PROTOCOL") then KProtocol else KOther
              end
          end
      end
  end.

Definition vstate := (bmap string_list * bmap registries_value)%type.
Definition kind_effect (kd : var_kind) (k v : str) (st : vstate) : result vstate :=
  let d := Some (DefEnv k) in
  match kd with
  | KAlias n =>
      match to_str v with
      | None => Err (env_not_unicode k v)
      | Some s => Ok (binsert n (sl_from_string s d) (fst st), snd st)
      end
  | KIndex n =>
      match to_str v with
      | None => Err (env_not_unicode k v)
      | Some s => Ok (fst st, update_registry n
                        (fun r => mkRegistries (Some (mkValue s d)) (r_token r) (r_protocol r)) (snd st))
      end
  | KToken n =>
      match to_str v with
      | None => Err (env_not_unicode_redacted k)
      | Some s => Ok (fst st, update_registry n
                        (fun r => mkRegistries (r_index r) (Some (mkValue s d)) (r_protocol r)) (snd st))
      end
  | KProtocol =>
      match to_str v with
      | None => Err (env_not_unicode k v)
      | Some s =>
          match protocol_from_str s with
          | None => Err (protocol_error s)
          | Some p => Ok (fst st, update_registry (B "crates-io")
                            (fun r => mkRegistries (r_index r) (r_token r) (Some (mkValue p d))) (snd st))
          end
      end
  | KOther => Ok st
  end.
Lemma apply_var_kind k v st : apply_var k v st = kind_effect (kind_of k) k v st.
Proof.
  destruct st as [al rg]. unfold apply_var, kind_of.
  destruct (strip_prefix (B "CARGO_ALIAS_") k); [easy|].
  destruct (strip_prefix (B "CARGO_REGISTRIES_") k) as [rest|]; [|easy].
  destruct (strip_suffix (B "_INDEX") rest); [easy|].
  destruct (strip_suffix (B "_TOKEN") rest); [easy|].
  now destruct (str_eqb rest (B "CRATES_IO_PROTOCOL")).
Qed.

Lemma kind_name k : kind_of k <> KOther -> name_of (kind_of k) = Some k.
Proof.
  unfold kind_of. destruct (strip_prefix (B "CARGO_ALIAS_") k) as [n|] eqn:E.
  { intros _. apply strip_prefix_some in E. now subst. }
  destruct (strip_prefix (B "CARGO_REGISTRIES_") k) as [rest|] eqn:E1; [|easy].
  apply strip_prefix_some in E1.
  destruct (strip_suffix (B "_INDEX") rest) as [n|] eqn:E2.
  { intros _. apply strip_suffix_some in E2. now subst. }
  destruct (strip_suffix (B "_TOKEN") rest) as [n|] eqn:E3.
  { intros _. apply strip_suffix_some in E3. now subst. }
  destruct (str_eqb rest (B "CRATES_IO_PROTOCOL")) eqn:E4; [|easy].
  intros _. apply str_eqb_eq in E4. now subst.
Qed.
Lemma strip_suffix_app p s : strip_suffix p (s ++ p) = Some s.
Proof. now apply strip_suffix_some. Qed.
Lemma index_not_token n m : n ++ B "_INDEX" <> m ++ B "_TOKEN".
Proof.
  intros H. apply (f_equal (@rev ascii)) in H. rewrite !rev_app_distr in H. discriminate H.
Qed.
Lemma kind_of_name kd k : name_of kd = Some k -> kind_of k = kd.
Proof.
  destruct kd as [n|n|n| |]; cbn [name_of]; intros H; [..|discriminate H];
    apply (f_equal (fun o => match o with Some x => x | None => k end)) in H;
    cbn beta iota in H; subst k; unfold kind_of.
  - now rewrite (strip_prefix_app (B "CARGO_ALIAS_") n).
  - change (strip_prefix (B "CARGO_ALIAS_") (B "CARGO_REGISTRIES_" ++ n ++ B "_INDEX")) with (@None str).
    rewrite (strip_prefix_app (B "CARGO_REGISTRIES_")). cbn iota. now rewrite strip_suffix_app.
  - change (strip_prefix (B "CARGO_ALIAS_") (B "CARGO_REGISTRIES_" ++ n ++ B "_TOKEN")) with (@None str).
    rewrite (strip_prefix_app (B "CARGO_REGISTRIES_")). cbn iota.
    destruct (strip_suffix (B "_INDEX") (n ++ B "_TOKEN")) as [m|] eqn:E.
    { apply strip_suffix_some in E. symmetry in E. now apply index_not_token in E. }
    now rewrite strip_suffix_app.
  - reflexivity.
Qed.
Lemma kind_of_iff kd k : kd <> KOther -> (kind_of k = kd <-> name_of kd = Some k).
Proof. intros H. split; [intros <-; now apply kind_name | apply kind_of_name]. Qed.

(** ** One variable *)
Definition var_readable (kd : var_kind) (v : str) : bool :=
  match kd with
  | KOther => true
  | KProtocol => utf8_valid v && is_some (protocol_from_str v)
  | _ => utf8_valid v
  end.
Lemma kind_effect_ok kd k v st : is_ok (kind_effect kd k v st) = var_readable kd v.
Proof.
  destruct kd; cbn [kind_effect var_readable]; unfold to_str; destruct (utf8_valid v); try easy.
  cbn [andb]. now destruct (protocol_from_str v).
Qed.
Lemma kind_effect_panic kd k v st : is_panic (kind_effect kd k v st) = false.
Proof.
  destruct kd; cbn [kind_effect]; unfold to_str; destruct (utf8_valid v); try easy.
  now destruct (protocol_from_str v).
Qed.

(** The parts of the state. *)
Definition alias_at (n : str) (st : vstate) : option string_list := bget n (fst st).
Definition reg_at (n : str) (st : vstate) : option registries_value := bget n (snd st).
Definition reg_field {A} (f : registries_value -> option A) (n : str) (st : vstate) : option A :=
  under (snd st) n f.

Lemma reg_field_update {A} (f : registries_value -> option A) m g n al rg :
  f registries_default = None ->
  (exists o, (forall r, f (g r) = o r) /\ (forall r, o r = f r)) ->
  reg_field f n (al, update_registry m g rg) = reg_field f n (al, rg).
Proof.
  intros Hd (o & Ho & Ho'). unfold reg_field, under, update_registry. cbn [snd].
  destruct (bget m rg) as [r|] eqn:E; rewrite bget_binsert; destruct (str_eqb n m) eqn:En; try easy.
  - apply str_eqb_eq in En. subst. rewrite E. congruence.
  - apply str_eqb_eq in En. subst. rewrite E. congruence.
Qed.
Lemma reg_field_set {A} (f : registries_value -> option A) m g n al rg a :
  (forall r, f (g r) = Some a) ->
  reg_field f n (al, update_registry m g rg) = if str_eqb n m then Some a else reg_field f n (al, rg).
Proof.
  intros Ha. unfold reg_field, under, update_registry. cbn [snd].
  destruct (bget m rg) as [r|] eqn:E; rewrite bget_binsert; destruct (str_eqb n m) eqn:En; auto.
Qed.
Lemma reg_entry_update m g n al rg :
  is_some (reg_at n (al, update_registry m g rg)) = (str_eqb n m || is_some (reg_at n (al, rg)))%bool.
Proof.
  unfold reg_at, update_registry. cbn [snd].
  destruct (bget m rg) as [r|] eqn:E; rewrite bget_binsert; destruct (str_eqb n m) eqn:En; auto.
Qed.
Lemma update_sorted m g rg : sorted rg -> sorted (update_registry m g rg).
Proof. intros S. unfold update_registry. destruct (bget m rg); now apply binsert_sorted. Qed.

(** [k] is the variable [nm]: its effect on the part [P]. *)
Definition effect_on {X} (P : vstate -> X) (kd : var_kind) (new : str -> str -> X -> X) : Prop :=
  forall k v st st', kind_effect (kind_of k) k v st = Ok st' ->
    (kind_of k = kd -> P st' = new k v (P st)) /\ (kind_of k <> kd -> P st' = P st).

Lemma effect_alias n :
  effect_on (alias_at n) (KAlias n) (fun k v _ => Some (sl_from_string v (Some (DefEnv k)))).
Proof.
  intros k v [al rg] st'. unfold alias_at. cbn [fst].
  destruct (kind_of k) as [m|m|m| |]; cbn [kind_effect]; unfold to_str;
    try (destruct (utf8_valid v); [|discriminate]); try (destruct (protocol_from_str v); [|discriminate]);
    intros [= <-]; cbn [fst]; (split; [try discriminate | auto; try congruence]).
  - intros [= ->]. now rewrite bget_binsert, str_eqb_refl.
  - intros H. rewrite bget_binsert. destruct (str_eqb n m) eqn:E; [|easy].
    apply str_eqb_eq in E. congruence.
Qed.
Ltac other_field :=
  first [reflexivity
        | rewrite reg_field_update; [reflexivity | reflexivity
          | eexists; split; intros []; reflexivity]].
Lemma effect_index n :
  effect_on (reg_field r_index n) (KIndex n) (fun k v _ => Some (of_variable k v)).
Proof.
  intros k v [al rg] st'.
  destruct (kind_of k) as [m|m|m| |]; cbn [kind_effect]; unfold to_str;
    try (destruct (utf8_valid v); [|discriminate]); try (destruct (protocol_from_str v); [|discriminate]);
    intros [= <-]; cbn [fst snd]; (split; [try discriminate | intros Hn; try other_field]).
  - intros [= ->]. erewrite reg_field_set by reflexivity. now rewrite str_eqb_refl.
  - erewrite reg_field_set by reflexivity. destruct (str_eqb n m) eqn:E; [|easy].
    apply str_eqb_eq in E. congruence.
Qed.
Lemma effect_token n :
  effect_on (reg_field r_token n) (KToken n) (fun k v _ => Some (of_variable k v)).
Proof.
  intros k v [al rg] st'.
  destruct (kind_of k) as [m|m|m| |]; cbn [kind_effect]; unfold to_str;
    try (destruct (utf8_valid v); [|discriminate]); try (destruct (protocol_from_str v); [|discriminate]);
    intros [= <-]; cbn [fst snd]; (split; [try discriminate | intros Hn; try other_field]).
  - intros [= ->]. erewrite reg_field_set by reflexivity. now rewrite str_eqb_refl.
  - erewrite reg_field_set by reflexivity. destruct (str_eqb n m) eqn:E; [|easy].
    apply str_eqb_eq in E. congruence.
Qed.
Lemma effect_protocol :
  effect_on (reg_field r_protocol (B "crates-io")) KProtocol
    (fun k v old => match protocol_from_str v with Some p => Some (of_variable k p) | None => old end).
Proof.
  intros k v [al rg] st'.
  destruct (kind_of k) as [m|m|m| |]; cbn [kind_effect]; unfold to_str;
    try (destruct (utf8_valid v); [|discriminate]);
    try (destruct (protocol_from_str v) as [p|] eqn:Ep; [|try discriminate]);
    intros [= <-]; cbn [fst snd]; (split; [try discriminate | intros Hn; try other_field; try congruence]).
  intros _. erewrite reg_field_set by reflexivity. now rewrite str_eqb_refl.
Qed.
Lemma effect_protocol_other n : str_eqb n (B "crates-io") = false ->
  forall k v st st', kind_effect (kind_of k) k v st = Ok st' ->
    reg_field r_protocol n st' = reg_field r_protocol n st.
Proof.
  intros Hn k v [al rg] st'.
  destruct (kind_of k) as [m|m|m| |]; cbn [kind_effect]; unfold to_str;
    try (destruct (utf8_valid v); [|discriminate]);
    try (destruct (protocol_from_str v) as [p|] eqn:Ep; [|try discriminate]);
    intros [= <-]; cbn [fst snd]; try other_field.
  erewrite reg_field_set by reflexivity.
  match goal with |- (if ?b then _ else _) = _ => replace b with false by (symmetry; exact Hn) end.
  reflexivity.
Qed.

(** ** All variables *)
Lemma apply_vars_field {X} (P : vstate -> X) kd nm new env :
  name_of kd = Some nm -> effect_on P kd new -> one_value_each env ->
  forall st st', apply_vars env st = Ok st' ->
  P st' = match env_get nm env with Some v => new nm v (P st) | None => P st end.
Proof.
  intros Hn He. induction env as [|[k v] env IH]; intros N st st' H; cbn in H; [now injection H as <-|].
  apply bind_ok in H. destruct H as (s1 & H1 & H2). rewrite apply_var_kind in H1.
  inversion N as [|? ? N1 N2]; subst. destruct (He k v st s1 H1) as [Hy Hx].
  specialize (IH N2 s1 st' H2). cbn [env_get]. destruct (str_eqb nm k) eqn:E.
  - apply str_eqb_eq in E. subst k. apply env_get_none in N1. rewrite N1 in IH. rewrite IH.
    apply Hy. now apply kind_of_name.
  - rewrite IH. apply str_eqb_neq in E. rewrite Hx; [easy|]. intros K. apply E.
    assert (kind_of k <> KOther) by (destruct kd; cbn in Hn; congruence).
    pose proof (kind_name k H). congruence.
Qed.
Lemma apply_vars_keep {X} (P : vstate -> X) env :
  (forall k v st st', kind_effect (kind_of k) k v st = Ok st' -> P st' = P st) ->
  forall st st', apply_vars env st = Ok st' -> P st' = P st.
Proof.
  intros He. induction env as [|[k v] env IH]; intros st st' H; cbn in H; [now injection H as <-|].
  apply bind_ok in H. destruct H as (s1 & H1 & H2). rewrite apply_var_kind in H1.
  rewrite (IH _ _ H2). eapply He; eassumption.
Qed.
Lemma apply_vars_ok env st :
  is_ok (apply_vars env st) = forallb (fun kv => var_readable (kind_of (fst kv)) (snd kv)) env.
Proof.
  revert st; induction env as [|[k v] env IH]; intros st; [easy|]. cbn [apply_vars forallb fst snd].
  rewrite <- (kind_effect_ok (kind_of k) k v st). rewrite <- apply_var_kind.
  destruct (apply_var k v st); cbn [bind is_ok]; auto.
Qed.
Lemma apply_vars_panic env st : is_panic (apply_vars env st) = false.
Proof.
  revert st; induction env as [|[k v] env IH]; intros st; [easy|]. cbn [apply_vars].
  rewrite apply_var_kind. apply bind_panic; [apply kind_effect_panic | intros; apply IH].
Qed.
Lemma apply_vars_sorted env st st' :
  sorted (fst st) -> sorted (snd st) -> apply_vars env st = Ok st' -> sorted (fst st') /\ sorted (snd st').
Proof.
  revert st; induction env as [|[k v] env IH]; intros st S1 S2 H; cbn in H; [now injection H as <-|].
  apply bind_ok in H. destruct H as (s1 & H1 & H2). rewrite apply_var_kind in H1.
  assert (K : sorted (fst s1) /\ sorted (snd s1)).
  { destruct (kind_of k) as [m|m|m| |]; cbn [kind_effect] in H1; unfold to_str in H1;
      try (destruct (utf8_valid v); [|discriminate H1]);
      try (destruct (protocol_from_str v) as [p|] eqn:Ep; [|try discriminate H1]);
      injection H1 as <-; cbn [fst snd]; split; auto using binsert_sorted, update_sorted. }
  destruct K. eapply IH; [| |exact H2]; assumption.
Qed.

(** Entries. *)
Definition sets_entry (n : str) (k : var_kind) : bool :=
  match k with
  | KIndex m | KToken m => str_eqb n m
  | KProtocol => str_eqb n (B "crates-io")
  | _ => false
  end.
Lemma apply_vars_entry n env st st' :
  apply_vars env st = Ok st' ->
  is_some (reg_at n st') = (is_some (reg_at n st) || existsb (fun kv => sets_entry n (kind_of (fst kv))) env)%bool.
Proof.
  revert st; induction env as [|[k v] env IH]; intros st H; cbn in H.
  { injection H as <-. now rewrite orb_false_r. }
  apply bind_ok in H. destruct H as (s1 & H1 & H2). rewrite apply_var_kind in H1.
  rewrite (IH _ H2). cbn [existsb fst]. rewrite orb_assoc. f_equal. clear - H1. destruct st as [al rg].
  destruct (kind_of k) as [m|m|m| |]; cbn [kind_effect] in H1; unfold to_str in H1;
    try (destruct (utf8_valid v); [|discriminate H1]);
    try (destruct (protocol_from_str v) as [p|] eqn:Ep; [|try discriminate H1]);
    injection H1 as <-; cbn [fst snd sets_entry]; rewrite ?reg_entry_update, ?orb_false_r;
    auto using orb_comm.
Qed.
Lemma existsb_kind n env :
  existsb (fun kv => sets_entry n (kind_of (fst kv))) env
  = (set env (B "CARGO_REGISTRIES_" ++ n ++ B "_INDEX")
     || set env (B "CARGO_REGISTRIES_" ++ n ++ B "_TOKEN")
     || (str_eqb n (B "crates-io") && set env (B "CARGO_REGISTRIES_CRATES_IO_PROTOCOL")))%bool.
Proof.
  assert (S : forall nm, set env nm = true <-> In nm (map fst env)).
  { intros nm. unfold set. destruct (env_get nm env) as [v|] eqn:E; cbn [is_some].
    - apply env_get_in in E. split; [|easy]. intros _. apply in_map_iff. now exists (nm, v).
    - apply env_get_none in E. easy. }
  apply Bool.eq_iff_eq_true. rewrite existsb_exists, !orb_true_iff, andb_true_iff, !S, str_eqb_eq. split.
  - intros ([k v] & Hin & H). cbn [fst] in H.
    assert (In k (map fst env)) by (apply in_map_iff; now exists (k, v)).
    assert (N : kind_of k <> KOther) by (intros E; rewrite E in H; discriminate H).
    apply kind_name in N. destruct (kind_of k) as [m|m|m| |]; cbn [sets_entry] in H; try discriminate H;
      apply str_eqb_eq in H; subst; cbn in N; injection N as <-; auto.
  - intros [[H|H]|[-> H]]; apply in_map_iff in H; destruct H as ([k v] & Hk & Hin); cbn [fst] in Hk; subst k;
      (eexists; split; [exact Hin|]); cbn [fst].
    + erewrite (kind_of_name (KIndex n)) by reflexivity. apply str_eqb_refl.
    + erewrite (kind_of_name (KToken n)) by reflexivity. apply str_eqb_refl.
    + reflexivity.
Qed.

(** ** The whole configuration *)
Lemma vars_readable env st : one_value_each env ->
  (is_ok (apply_vars env st) = true <->
   (forall n, readable (list_variables (Alias n)) env) /\ (forall n, readable (variables (RegistriesIndex n)) env)
   /\ (forall n, readable (variables (RegistriesToken n)) env)
   /\ (forall n, readable (variables (RegistriesProtocol n)) env)).
Proof.
  intros N. rewrite apply_vars_ok, forallb_forall. split.
  - intros H.
    assert (K : forall kd nm v, name_of kd = Some nm -> env_get nm env = Some v -> var_readable kd v = true).
    { intros kd nm v Hn Hv. apply env_get_in in Hv. specialize (H _ Hv). cbn [fst snd] in H.
      now rewrite (kind_of_name kd nm Hn) in H. }
    repeat split; intros n nm; unfold consulted; cbn [map first_defined fst snd list_variables variables text].
    + destruct (env_get _ env) as [v|] eqn:E; [|easy]. apply (K (KAlias n)) in E; [|reflexivity].
      cbn [var_readable] in E. rewrite E. easy.
    + destruct (env_get _ env) as [v|] eqn:E; [|easy]. apply (K (KIndex n)) in E; [|reflexivity].
      cbn [var_readable] in E. rewrite E. easy.
    + destruct (env_get _ env) as [v|] eqn:E; [|easy]. apply (K (KToken n)) in E; [|reflexivity].
      cbn [var_readable] in E. rewrite E. easy.
    + destruct (str_eqb n (B "crates-io")); [|easy]. cbn [map first_defined fst snd].
      destruct (env_get _ env) as [v|] eqn:E; [|easy]. apply (K KProtocol) in E; [|reflexivity].
      cbn [var_readable] in E. apply andb_true_iff in E. destruct E as [E1 E2]. rewrite E1.
      destruct (protocol_from_str v); easy.
  - intros (H1 & H2 & H3 & H4) [k v] Hin. cbn [fst snd].
    destruct (kind_of k) as [n|n|n| |] eqn:E; [..|reflexivity]; cbn [var_readable];
      pose proof (kind_name k) as Hk; rewrite E in Hk; cbn [name_of] in Hk; specialize (Hk ltac:(easy));
      apply (f_equal (fun o => match o with Some x => x | None => k end)) in Hk; cbn beta iota in Hk; subst k;
      apply (in_env_get _ _ _ N) in Hin.
    + specialize (H1 n). unfold readable, consulted in H1.
      cbn [map first_defined fst snd list_variables] in H1. rewrite Hin in H1.
      destruct (utf8_valid v); [easy|]. exfalso. now eapply H1.
    + specialize (H2 n). unfold readable, consulted in H2.
      cbn [map first_defined fst snd variables text] in H2. rewrite Hin in H2.
      destruct (utf8_valid v); [easy|]. exfalso. now eapply H2.
    + specialize (H3 n). unfold readable, consulted in H3.
      cbn [map first_defined fst snd variables text] in H3. rewrite Hin in H3.
      destruct (utf8_valid v); [easy|]. exfalso. now eapply H3.
    + specialize (H4 (B "crates-io")). unfold readable, consulted in H4.
      cbn [variables] in H4. rewrite str_eqb_refl in H4. cbn [map first_defined fst snd] in H4.
      rewrite Hin in H4. destruct (utf8_valid v); [|exfalso; now eapply H4].
      destruct (protocol_from_str v); [easy|]. exfalso. now eapply H4.
Qed.

Lemma readable_nil {A} env : readable (@nil (reader A)) env.
Proof. intros n. easy. Qed.

Lemma apply_env_ok env c : one_value_each env ->
  (is_ok (apply_env env c) = true <-> all_readable env c).
Proof.
  intros N. pose proof (vars_readable env (c_alias c, c_registries c) N) as Hv.
  pose proof (apply_build_ok env (c_build c)) as Hb. pose proof (apply_doc_ok env (c_doc c)) as Hd.
  pose proof (apply_future_ok env (c_future_incompat_report c)) as Hf.
  pose proof (apply_http_ok env (c_http c)) as Hh. pose proof (apply_net_ok env (c_net c)) as Hn.
  pose proof (apply_registry_ok env (c_registry c)) as Hr. pose proof (apply_term_ok env (c_term c)) as Ht.
  assert (K : is_ok (apply_env env c) = true <->
    is_ok (apply_vars env (c_alias c, c_registries c)) = true /\ is_ok (apply_build env (c_build c)) = true
    /\ is_ok (apply_doc env (c_doc c)) = true /\ is_ok (apply_future env (c_future_incompat_report c)) = true
    /\ is_ok (apply_http env (c_http c)) = true /\ is_ok (apply_net env (c_net c)) = true
    /\ is_ok (apply_registry env (c_registry c)) = true /\ is_ok (apply_term env (c_term c)) = true).
  { clear. unfold apply_env.
    repeat match goal with
    | |- is_ok (bind ?e _) = true <-> _ => destruct e; cbn [bind is_ok]; [|intuition easy..]
    end. cbn [is_ok]. intuition easy. }
  rewrite K, Hv, Hb, Hd, Hf, Hh, Hn, Hr, Ht. clear. unfold all_readable, rustflags_vars, rustdocflags_vars.
  split.
  - intros H. split; [|split].
    + intros A k. destruct k; try apply readable_nil; apply H.
    + intros k. destruct k; try apply readable_nil; apply H.
    + exact (proj1 (proj2 (proj2 H))).
  - intros (H1 & H2 & H3). repeat match goal with |- _ /\ _ => split end;
      try exact H3; intros; first [exact (H1 _ _) | exact (H2 _)].
Qed.

Ltac reads_panic R :=
  repeat match goal with
  | |- is_panic (bind ?e _) = false =>
      apply bind_panic; [first [let S := reads_of e in exact (R _ _ _ S) | apply env_flags_reads]|intros ? _]
  end; try reflexivity.
Lemma apply_env_panic env c : is_panic (apply_env env c) = false.
Proof.
  unfold apply_env.
  assert (R : forall A (e : result (option (value A))) vars, reads_as e vars env -> is_panic e = false).
  { intros A e vars. unfold reads_as. destruct (consulted vars env) as [[? [?|]]|]; [intros ->|intros [? ->]|intros ->]; easy. }
  apply bind_panic; [apply apply_vars_panic|intros ? _].
  apply bind_panic; [unfold apply_build; reads_panic R|intros ? _].
  apply bind_panic; [|intros ? _].
  { unfold apply_doc. destruct (d_browser (c_doc c)); [easy|].
    apply bind_panic; [exact (R _ _ _ (env_var_reads env _))|]. intros [v|] _; [|easy].
    unfold pa_of_var. destruct (pa_from_string (val v) (def v)); easy. }
  apply bind_panic; [unfold apply_future; reads_panic R|intros ? _].
  apply bind_panic; [unfold apply_http; reads_panic R|intros ? _].
  apply bind_panic; [unfold apply_net; reads_panic R|intros ? _].
  apply bind_panic; [unfold apply_registry; reads_panic R|intros ? _].
  apply bind_panic; [|easy]. unfold apply_term. reads_panic R.
  apply bind_panic; [unfold apply_progress; reads_panic R|easy].
Qed.

Record applied (env : env_map) (c c' : config) : Prop := mkApplied {
  ap_vars : apply_vars env (c_alias c, c_registries c) = Ok (c_alias c', c_registries c');
  ap_build : apply_build env (c_build c) = Ok (c_build c');
  ap_doc : apply_doc env (c_doc c) = Ok (c_doc c');
  ap_future : apply_future env (c_future_incompat_report c) = Ok (c_future_incompat_report c');
  ap_http : apply_http env (c_http c) = Ok (c_http c');
  ap_net : apply_net env (c_net c) = Ok (c_net c');
  ap_registry : apply_registry env (c_registry c) = Ok (c_registry c');
  ap_term : apply_term env (c_term c) = Ok (c_term c');
  ap_env : c_env c' = c_env c;
  ap_new : c_cargo_new c' = c_cargo_new c;
  ap_target : c_target c' = c_target c
}.
Lemma apply_env_applied env c c' : apply_env env c = Ok c' -> applied env c c'.
Proof.
  unfold apply_env. intros H. open_binds H. injection H as <-.
  match goal with st : (_ * _)%type |- _ => destruct st end. constructor; cbn; auto.
Qed.

Lemma keep_or_after {A} (k : scalar_key A) env cur :
  (forall a, switches_off k a = false) -> keep_or (variables k) env cur = scalar_after k env cur.
Proof.
  intros H. unfold keep_or, scalar_after. destruct (consulted (variables k) env) as [[n [a|]]|]; try easy.
  now rewrite H.
Qed.

Lemma apply_env_scalar env c c' : one_value_each env -> apply_env env c = Ok c' ->
  forall A (k : scalar_key A), look k c' = scalar_after k env (look k c).
Proof.
  intros N H A k. apply apply_env_applied in H. destruct H as [Hv Hb Hd Hf Hh Hn Hr Ht E1 E2 E3].
  apply apply_build_keys in Hb. apply apply_future_keys in Hf. apply apply_http_keys in Hh.
  apply apply_net_keys in Hn. apply apply_registry_keys in Hr. apply apply_term_keys in Ht.
  destruct k; cbn [look];
    try (match goal with |- context [c_env c'] => rewrite E1 | |- context [c_cargo_new c'] => rewrite E2
           | |- context [c_target c'] => rewrite E3 end; reflexivity);
    try (rewrite <- keep_or_after by reflexivity; solve [apply Hb | apply Hf | apply Hh | apply Hn | apply Hr | apply Ht]);
    try apply Hb.
  - pose proof (apply_vars_field (reg_field r_index name) (KIndex name) _ _ env eq_refl (effect_index name) N _ _ Hv) as K.
    unfold reg_field in K. cbn [fst snd] in K. rewrite K. unfold scalar_after, consulted.
    cbn [map first_defined fst snd variables text switches_off].
    pose proof (vars_readable env (c_alias c, c_registries c) N) as [R _]. rewrite Hv in R. cbn [is_ok] in R.
    destruct (R eq_refl) as (_ & R2 & _ & _). specialize (R2 name). unfold readable, consulted in R2.
    cbn [map first_defined fst snd variables text] in R2.
    destruct (env_get (B "CARGO_REGISTRIES_" ++ name ++ B "_INDEX") env) as [v|]; [|reflexivity].
    destruct (utf8_valid v); [reflexivity|]. exfalso. now eapply R2.
  - pose proof (apply_vars_field (reg_field r_token name) (KToken name) _ _ env eq_refl (effect_token name) N _ _ Hv) as K.
    unfold reg_field in K. cbn [fst snd] in K. rewrite K. unfold scalar_after, consulted.
    cbn [map first_defined fst snd variables text switches_off].
    pose proof (vars_readable env (c_alias c, c_registries c) N) as [R _]. rewrite Hv in R. cbn [is_ok] in R.
    destruct (R eq_refl) as (_ & _ & R2 & _). specialize (R2 name). unfold readable, consulted in R2.
    cbn [map first_defined fst snd variables text] in R2.
    destruct (env_get (B "CARGO_REGISTRIES_" ++ name ++ B "_TOKEN") env) as [v|]; [|reflexivity].
    destruct (utf8_valid v); [reflexivity|]. exfalso. now eapply R2.
  - unfold scalar_after. cbn [variables switches_off]. destruct (str_eqb name (B "crates-io")) eqn:En.
    + apply str_eqb_eq in En. subst name.
      pose proof (apply_vars_field (reg_field r_protocol (B "crates-io")) KProtocol _ _ env eq_refl effect_protocol N _ _ Hv) as K.
      unfold reg_field in K. cbn [fst snd] in K. rewrite K. unfold consulted.
      cbn [map first_defined fst snd].
      pose proof (vars_readable env (c_alias c, c_registries c) N) as [R _]. rewrite Hv in R. cbn [is_ok] in R.
      destruct (R eq_refl) as (_ & _ & _ & R2). specialize (R2 (B "crates-io")). unfold readable, consulted in R2.
      cbn [variables] in R2. rewrite str_eqb_refl in R2. cbn [map first_defined fst snd] in R2.
      destruct (env_get (B "CARGO_REGISTRIES_CRATES_IO_PROTOCOL") env) as [v|]; [|reflexivity].
      destruct (utf8_valid v); [|exfalso; now eapply R2]. now destruct (protocol_from_str v).
    + exact (apply_vars_keep (reg_field r_protocol name) env (effect_protocol_other name En) _ _ Hv).
Qed.

Lemma apply_env_list env c c' : one_value_each env -> apply_env env c = Ok c' ->
  forall k, look_list k c' = words_after (list_variables k) env (look_list k c).
Proof.
  intros N H k. apply apply_env_applied in H. destruct H as [Hv Hb Hd Hf Hh Hn Hr Ht E1 E2 E3].
  apply apply_build_keys in Hb.
  destruct k as [n| | | |t|t]; cbn [look_list]; try apply Hb; try (rewrite E3; reflexivity).
  pose proof (apply_vars_field (alias_at n) (KAlias n) _ _ env eq_refl (effect_alias n) N _ _ Hv) as K.
  unfold alias_at in K. cbn [fst snd] in K. unfold under. rewrite K. unfold words_after, consulted.
  cbn [map first_defined fst snd list_variables].
  pose proof (vars_readable env (c_alias c, c_registries c) N) as [R _]. rewrite Hv in R. cbn [is_ok] in R.
  destruct (R eq_refl) as (R2 & _). specialize (R2 n). unfold readable, consulted in R2.
  cbn [map first_defined fst snd list_variables] in R2.
  destruct (env_get (B "CARGO_ALIAS_" ++ n) env) as [v|]; [|reflexivity].
  destruct (utf8_valid v); [reflexivity|]. exfalso. now eapply R2.
Qed.
Lemma apply_env_program env c c' : apply_env env c = Ok c' ->
  forall k, look_program k c' = program_after k env (look_program k c).
Proof.
  intros H k. apply apply_env_applied in H. destruct H as [Hv Hb Hd Hf Hh Hn Hr Ht E1 E2 E3].
  apply apply_doc_keys in Hd. destruct k as [|t]; cbn [look_program program_after].
  - unfold prog_view in Hd. rewrite Hd. now destruct (option_map program_words (d_browser (c_doc c))).
  - now rewrite E3.
Qed.
Lemma apply_env_entry env c c' : one_value_each env -> apply_env env c = Ok c' ->
  forall k, has_entry k c' = entry_after k env (has_entry k c).
Proof.
  intros N H k. apply apply_env_applied in H. destruct H as [Hv Hb Hd Hf Hh Hn Hr Ht E1 E2 E3].
  destruct k as [n|n|n|n]; cbn [has_entry entry_after]; rewrite ?E1, ?E3; try reflexivity.
  - pose proof (apply_vars_field (alias_at n) (KAlias n) _ _ env eq_refl (effect_alias n) N _ _ Hv) as K.
    unfold alias_at in K. cbn [fst snd] in K. rewrite K. unfold set.
    destruct (env_get (B "CARGO_ALIAS_" ++ n) env); cbn [is_some]; now rewrite ?orb_true_r, ?orb_false_r.
  - pose proof (apply_vars_entry n env _ _ Hv) as K. unfold reg_at in K. cbn [fst snd] in K.
    rewrite K, existsb_kind. now rewrite <- !orb_assoc.
Qed.
Lemma apply_env_sorted env c c' : cfg_sorted c -> apply_env env c = Ok c' -> cfg_sorted c'.
Proof.
  intros (S1 & S2 & S3 & S4) H. apply apply_env_applied in H. destruct H as [Hv Hb Hd Hf Hh Hn Hr Ht E1 E2 E3].
  apply apply_vars_sorted in Hv; [|easy..]. unfold cfg_sorted. rewrite E1, E3. cbn [fst snd] in Hv. tauto.
Qed.
Lemma apply_env_overrides env c c' : apply_env env c = Ok c' ->
  overrides c' = ((set env (B "CARGO_ENCODED_RUSTFLAGS") || set env (B "RUSTFLAGS"))%bool,
                  (set env (B "CARGO_ENCODED_RUSTDOCFLAGS") || set env (B "RUSTDOCFLAGS"))%bool).
Proof.
  intros H. apply apply_env_applied in H. pose proof (apply_build_keys _ _ _ (ap_build _ _ _ H)) as Hb.
  unfold overrides. f_equal; apply Hb.
Qed.
Lemma apply_env_env env c c' : apply_env env c = Ok c' ->
  c_env c' = c_env c /\ c_cargo_new c' = c_cargo_new c /\ c_target c' = c_target c.
Proof. intros H. apply apply_env_applied in H. destruct H. auto. Qed.

(** ** The order of the variables does not matter *)
Lemma consulted_ext {A} (vars : list (reader A)) env env' :
  (forall n, env_get n env = env_get n env') -> consulted vars env = consulted vars env'.
Proof. intros H. unfold consulted. f_equal. apply map_ext. intros r. now rewrite H. Qed.
Lemma all_readable_ext env env' c :
  (forall n, env_get n env = env_get n env') -> all_readable env c -> all_readable env' c.
Proof.
  intros H (H1 & H2 & H3). unfold all_readable, readable in *. split; [|split].
  - intros A k n. rewrite <- (consulted_ext _ _ _ H). apply H1.
  - intros k n. rewrite <- (consulted_ext _ _ _ H). apply H2.
  - intros K n. rewrite <- (consulted_ext _ _ _ H). now apply H3.
Qed.
Lemma same_env_same env env' c :
  one_value_each env -> one_value_each env' -> (forall n, env_get n env = env_get n env') ->
  cfg_sorted c -> same_outcome (apply_env env c) (apply_env env' c).
Proof.
  intros N N' H S. apply same_outcome_intro; try apply apply_env_panic.
  - rewrite !apply_env_ok by easy. split; apply all_readable_ext; intros n; now rewrite H.
  - intros a b Ha Hb. apply same_keys_eq.
    + eapply apply_env_sorted; eassumption.
    + eapply apply_env_sorted; eassumption.
    + rewrite (apply_env_overrides _ _ _ Ha), (apply_env_overrides _ _ _ Hb). unfold set. now rewrite !H.
    + assert (L : forall k, look_list k a = look_list k b).
      { intros k. rewrite (apply_env_list env c a N Ha), (apply_env_list env' c b N' Hb). unfold words_after.
        now rewrite (consulted_ext _ _ _ H). }
      assert (P : forall k, look_program k a = look_program k b).
      { intros k. rewrite (apply_env_program env c a Ha), (apply_env_program env' c b Hb).
        unfold program_after, words_after. now rewrite (consulted_ext _ _ _ H). }
      split; [|split; [exact L|split; [exact P|split]]].
      * intros A k. rewrite (apply_env_scalar env c a N Ha), (apply_env_scalar env' c b N' Hb).
        unfold scalar_after. now rewrite (consulted_ext _ _ _ H).
      * intros k. rewrite (apply_env_entry env c a N Ha), (apply_env_entry env' c b N' Hb).
        unfold entry_after, set. destruct k; rewrite ?H; reflexivity.
      * intros k. destruct k as [k|k|n]; cbn [shape_at].
        -- now rewrite L.
        -- now rewrite P.
        -- now rewrite (proj1 (apply_env_env _ _ _ Ha)), (proj1 (apply_env_env _ _ _ Hb)).
Qed.
Lemma apply_env_perm env env' c :
  one_value_each env -> Permutation env env' -> cfg_sorted c ->
  same_outcome (apply_env env c) (apply_env env' c).
Proof.
  intros N P S. apply same_env_same; [easy| |intros n; now apply env_get_perm|easy].
  unfold one_value_each in *. eapply Permutation_NoDup; [|exact N]. now apply Permutation_map.
Qed.
