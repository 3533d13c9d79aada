(** Lemmas about the errors of variables. *)
From Verif.Model Require Import Base Str Path BMap Error Value De EasyTypes Triple Context ApplyEnv Load Process
  Resolve Easy ErrorText.
From Verif.Spec Require Import StrSpec ConfigSpec LoadSpec EnvSpec ErrorSpec FinalSpec BlameSpec.
From Verif.Proof Require Import StrFacts BMapFacts MergeProof LoadProof EnvProof EnvVarsProof EnvTextProof ErrorProof
  FinalProof.

(** ** Variables with a fixed name *)

(** The outcome [r] is told by the variables [l] that cannot be read. *)
Definition told {A} (env : env_map) (r : result A) (l : list (option str)) : Prop :=
  match r with
  | Ok _ => first_defined l = None
  | Err e => exists name v, first_defined l = Some name /\ env_get name env = Some v /\ complaint name v e
  | Panic _ => False
  end.

Lemma told_ok {A} env (a : A) : told env (Ok a) [].
Proof. reflexivity. Qed.
Lemma told_map {A A'} env (r : result A) (k : A -> result A') l :
  told env r l -> (forall a, told env (k a) []) -> told env (bind r k) l.
Proof.
  intros R K. destruct r as [a|e|p]; cbn [bind told] in *; [|exact R|contradiction].
  specialize (K a). destruct (k a) as [b|e|p]; cbn [told first_defined] in *; [exact R| |contradiction].
  destruct K as (n & v & [=] & _).
Qed.
Lemma told_ext {A} env (r : result A) l l' :
  first_defined l = first_defined l' -> told env r l' -> told env r l.
Proof.
  intros E. destruct r as [a|e|p]; cbn [told]; [congruence| |easy].
  intros (n & v & R & R'). exists n, v. split; [congruence|exact R'].
Qed.
Lemma told_app {A A'} env (r : result A) (k : A -> result A') l l' :
  told env r l -> (forall a, told env (k a) l') -> told env (bind r k) (l ++ l').
Proof.
  intros R K. assert (E : forall x : option str, first_defined (l ++ l') =
    match first_defined l with Some n => Some n | None => first_defined l' end).
  { intros _. clear R. induction l as [|[n|] l IH]; [reflexivity|reflexivity|exact IH]. }
  destruct r as [a|e|p]; cbn [bind told] in *; [|destruct R as (n & v & R & R2)|contradiction].
  - apply (told_ext env (k a) _ l'); [|apply K]. now rewrite (E None), R.
  - exists n, v. now rewrite (E None), R.
Qed.

Lemma told_bind {A A'} env (r : result A) (k : A -> result A') x l :
  told env r [x] -> (forall a, told env (k a) l) -> told env (bind r k) (x :: l).
Proof. exact (told_app env r k [x] l). Qed.

(** A name that is not secret, told by its beginning. *)
Definition plainly (n : str) : bool :=
  negb (str_eqb n (B "CARGO_REGISTRY_TOKEN")) && negb (starts_with (B "CARGO_REGISTRIES_") n).
Lemma plainly_open n : plainly n = true -> ~ secret_variable n.
Proof.
  unfold plainly. intros H [->|[m ->]]; discriminate H.
Qed.

Lemma told_var env n : plainly n = true -> told env (cx_env_var env n) [unreadable [text n] env].
Proof.
  intros P. unfold told, unreadable, consulted, cx_env_var, to_str. cbn [map first_defined fst snd text].
  destruct (env_get n env) as [v|] eqn:E; [|reflexivity]. destruct (utf8_valid v) eqn:U; cbn; [reflexivity|].
  exists n, v. split; [reflexivity|]. split; [assumption|]. apply not_unicode; [assumption|now apply plainly_open].
Qed.
Lemma told_words env n (f : str -> form * list str) : plainly n = true ->
  told env (cx_env_var env n) [unreadable [(n, fun s => Some (f s))] env].
Proof.
  intros P. unfold told, unreadable, consulted, cx_env_var, to_str. cbn [map first_defined fst snd text].
  destruct (env_get n env) as [v|] eqn:E; [|reflexivity]. destruct (utf8_valid v) eqn:U; cbn; [reflexivity|].
  exists n, v. split; [reflexivity|]. split; [assumption|]. apply not_unicode; [assumption|now apply plainly_open].
Qed.
Lemma told_redacted env n : secret_variable n -> told env (cx_env_redacted env n) [unreadable [text n] env].
Proof.
  intros P. unfold told, unreadable, consulted, cx_env_redacted, to_str. cbn [map first_defined fst snd text].
  destruct (env_get n env) as [v|] eqn:E; [|reflexivity]. destruct (utf8_valid v) eqn:U; cbn; [reflexivity|].
  exists n, v. split; [reflexivity|]. split; [assumption|]. now apply secret_not_unicode.
Qed.
Lemma told_parse {A} env (p : str -> option A) pe n : plainly n = true ->
  (forall v, utf8_valid v = true -> complaint n v (not_parsed n (pe v))) ->
  told env (cx_env_parse env p pe n) [unreadable [(n, p)] env].
Proof.
  intros P C. unfold told, unreadable, consulted, cx_env_parse, cx_env_var, to_str. cbn [map first_defined fst snd text].
  destruct (env_get n env) as [v|] eqn:E; [|reflexivity]. destruct (utf8_valid v) eqn:U; cbn [bind].
  - unfold value_parse. cbn [val def]. destruct (p v); [reflexivity|].
    exists n, v. split; [reflexivity|]. split; [assumption|]. now apply C.
  - exists n, v. split; [reflexivity|]. split; [assumption|]. apply not_unicode; [assumption|now apply plainly_open].
Qed.
Lemma told_first env a b : plainly a = true -> plainly b = true ->
  told env (env_first env a b) [unreadable [text a; text b] env].
Proof.
  intros Pa Pb. unfold told, unreadable, consulted, env_first, cx_env_var, to_str. cbn [map first_defined fst snd text].
  destruct (env_get a env) as [v|] eqn:E.
  - destruct (utf8_valid v) eqn:U; cbn [bind]; [reflexivity|]. exists a, v. split; [reflexivity|].
    split; [assumption|]. apply not_unicode; [assumption|now apply plainly_open].
  - cbn [bind]. destruct (env_get b env) as [v|] eqn:E'; [|reflexivity].
    destruct (utf8_valid v) eqn:U; [reflexivity|]. exists b, v. split; [reflexivity|].
    split; [assumption|]. apply not_unicode; [assumption|now apply plainly_open].
Qed.
Lemma told_incremental env : told env (env_incremental env) [unreadable (variables BuildIncremental) env].
Proof.
  unfold told, unreadable, consulted, env_incremental, cx_env_parse, cx_env_var, to_str.
  cbn [map first_defined fst snd variables].
  destruct (env_get (B "CARGO_INCREMENTAL") env) as [v|] eqn:E.
  - destruct (utf8_valid v) eqn:U; cbn [bind]; [reflexivity|]. exists (B "CARGO_INCREMENTAL"), v. split; [reflexivity|].
    split; [assumption|]. apply not_unicode; [assumption|now apply plainly_open].
  - cbn [bind]. destruct (env_get (B "CARGO_BUILD_INCREMENTAL") env) as [v|] eqn:E'; [|reflexivity].
    destruct (utf8_valid v) eqn:U; cbn [bind].
    + unfold value_parse. cbn [val def]. destruct (parse_bool v); [reflexivity|].
      exists (B "CARGO_BUILD_INCREMENTAL"), v. split; [reflexivity|]. split; [assumption|].
      apply no_number; [assumption|]. right. now left.
    + exists (B "CARGO_BUILD_INCREMENTAL"), v. split; [reflexivity|].
      split; [assumption|]. apply not_unicode; [assumption|now apply plainly_open].
Qed.
Lemma told_flags env e p b cur : plainly e = true -> plainly p = true -> plainly b = true ->
  told env (env_flags env e p b cur) [unreadable [encoded_reader e; words_reader p; words_reader b] env].
Proof.
  intros Pe Pp Pb. unfold told, unreadable, consulted, env_flags, cx_env_var, to_str.
  cbn [map first_defined fst snd encoded_reader words_reader].
  destruct (env_get e env) as [v|] eqn:E.
  { destruct (utf8_valid v) eqn:U; cbn [bind]; [reflexivity|]. exists e, v. split; [reflexivity|].
    split; [assumption|]. apply not_unicode; [assumption|now apply plainly_open]. }
  cbn [bind]. destruct (env_get p env) as [v|] eqn:E1.
  { destruct (utf8_valid v) eqn:U; cbn [bind]; [reflexivity|]. exists p, v. split; [reflexivity|].
    split; [assumption|]. apply not_unicode; [assumption|now apply plainly_open]. }
  cbn [bind]. destruct (env_get b env) as [v|] eqn:E2.
  { destruct (utf8_valid v) eqn:U; cbn [bind]; [reflexivity|]. exists b, v. split; [reflexivity|].
    split; [assumption|]. apply not_unicode; [assumption|now apply plainly_open]. }
  reflexivity.
Qed.
Lemma told_doc env d :
  told env (apply_doc env d)
    [if is_some (prog_view (d_browser d)) then None else unreadable [browser] env].
Proof.
  unfold apply_doc. destruct (d_browser d) as [b|]; cbn [prog_view option_map is_some]; [reflexivity|].
  unfold told, unreadable, consulted, cx_env_var, to_str. cbn [map first_defined fst snd browser].
  destruct (env_get (B "BROWSER") env) as [v|] eqn:E; [|reflexivity]. destruct (utf8_valid v) eqn:U; cbn [bind].
  - unfold pa_of_var, pa_from_string. cbn [val def]. destruct (split_space_separated v); cbn [context_opt bind]; [|reflexivity].
    exists (B "BROWSER"), v. split; [reflexivity|]. split; [assumption|]. now apply no_program.
  - exists (B "BROWSER"), v. split; [reflexivity|]. split; [assumption|].
    apply not_unicode; [assumption|now apply plainly_open].
Qed.

Ltac number := intros v V; apply no_number; [exact V|cbn [In numbers_and_switches]; tauto].
Ltac choice := intros v V; eapply no_choice; [exact V|cbn [In choices]; tauto].
Ltac tell :=
  repeat match goal with
  | |- told _ (bind (cx_env_parse _ _ _ _) _) (_ :: _) =>
      apply told_bind; [apply told_parse; [reflexivity|first [number|choice]]|intros ?]
  | |- told _ (bind (cx_env_var _ _) _) (_ :: _) =>
      apply told_bind; [first [now apply told_var|now apply (told_words _ _ (fun s => (AsString, [s])))]|intros ?]
  | |- told _ (bind (env_first _ _ _) _) (_ :: _) => apply told_bind; [now apply told_first|intros ?]
  | |- told _ (bind (env_flags _ _ _ _ _) _) (_ :: _) => apply told_bind; [now apply told_flags|intros ?]
  | |- told _ (bind (env_incremental _) _) (_ :: _) => apply told_bind; [apply told_incremental|intros ?]
  | |- told _ (bind (apply_doc _ _) _) (_ :: _) => apply told_bind; [apply told_doc|intros ?]
  end.

Definition build_turn env := firstn 11 (in_turn env true).
Definition http_turn env := firstn 8 (skipn 13 (in_turn env true)).
Definition net_turn env := firstn 3 (skipn 21 (in_turn env true)).
Definition registry_turn env := firstn 2 (skipn 24 (in_turn env true)).
Definition term_turn env := skipn 26 (in_turn env true).

Lemma told_build env b : told env (apply_build env b) (build_turn env).
Proof. unfold apply_build, build_turn. cbn [firstn in_turn]. tell. apply told_ok. Qed.
Lemma told_http env h : told env (apply_http env h) (http_turn env).
Proof. unfold apply_http, http_turn. cbn [firstn skipn in_turn]. tell. apply told_ok. Qed.
Lemma told_net env h : told env (apply_net env h) (net_turn env).
Proof. unfold apply_net, net_turn. cbn [firstn skipn in_turn]. tell. apply told_ok. Qed.
Lemma told_future env h : told env (apply_future env h) [unreadable (variables FutureFrequency) env].
Proof. unfold apply_future. tell. apply told_ok. Qed.
Lemma told_registry env h : told env (apply_registry env h) (registry_turn env).
Proof.
  unfold apply_registry, registry_turn. cbn [firstn skipn in_turn]. tell.
  apply told_bind; [|intros; apply told_ok]. apply told_redacted. now left.
Qed.
Lemma told_term env h : told env (apply_term env h) (term_turn env).
Proof.
  unfold apply_term, term_turn. cbn [firstn skipn in_turn]. tell.
  apply told_map; [|intros; apply told_ok]. unfold apply_progress. tell. apply told_ok.
Qed.

(** ** Entries *)
Lemma protocol_not_listed v : protocol_from_str v = None <-> ~ In v (map fst protocols).
Proof.
  destruct (protocol_from_str v) as [p|] eqn:E; split; try easy.
  - intros H. exfalso. apply H. apply protocol_words in E. exact (in_map fst _ _ E).
  - intros _ H. apply in_map_iff in H. destruct H as ((v' & p) & <- & H). apply protocol_words in H.
    cbn [fst] in E. congruence.
Qed.
Definition an_entry (k : str) : Prop :=
  (exists n, k = B "CARGO_ALIAS_" ++ n) \/ (exists n, k = B "CARGO_REGISTRIES_" ++ n ++ B "_INDEX")
   \/ (exists n, k = B "CARGO_REGISTRIES_" ++ n ++ B "_TOKEN") \/ k = protocol_variable.
Lemma entry_kind k : an_entry k <-> kind_of k <> KOther.
Proof.
  split.
  - intros [[n ->]|[[n ->]|[[n ->]| ->]]].
    + now rewrite (kind_of_name (KAlias n) _ eq_refl).
    + now rewrite (kind_of_name (KIndex n) _ eq_refl).
    + now rewrite (kind_of_name (KToken n) _ eq_refl).
    + rewrite (kind_of_name KProtocol protocol_variable eq_refl). discriminate.
  - intros H. apply kind_name in H. destruct (kind_of k) as [n|n|n| |]; cbn [name_of] in H; unfold an_entry;
      [left; exists n|right; left; exists n|right; right; left; exists n|right; right; right|discriminate H];
      apply (f_equal (fun o => match o with Some x => x | None => k end)) in H; symmetry; exact H.
Qed.
Lemma protocol_kind k : k = protocol_variable <-> kind_of k = KProtocol.
Proof.
  split.
  - intros ->. reflexivity.
  - intros H. assert (K : name_of (kind_of k) = Some k) by (apply kind_name; now rewrite H).
    rewrite H in K. cbn [name_of] in K. unfold protocol_variable.
    apply (f_equal (fun o => match o with Some x => x | None => k end)) in K. symmetry; exact K.
Qed.
Lemma entry_unreadable_iff k v : entry_unreadable k v <-> var_readable (kind_of k) v = false.
Proof.
  unfold entry_unreadable. change (_ \/ _ \/ _ \/ _) with (an_entry k). rewrite entry_kind, protocol_kind.
  rewrite <- protocol_not_listed.
  destruct (kind_of k); cbn [var_readable]; split; try (intuition congruence).
  - intros (_ & [H|(_ & H)]); rewrite H; [reflexivity|apply andb_false_r].
  - intros H. split; [discriminate|]. apply andb_false_iff in H. destruct H as [H|H]; [now left|right].
    split; [reflexivity|]. now destruct (protocol_from_str v).
Qed.

Lemma token_secret k n : kind_of k = KToken n -> secret_variable k.
Proof.
  intros H. right. exists n. assert (K : name_of (kind_of k) = Some k) by (apply kind_name; now rewrite H).
  rewrite H in K. cbn [name_of] in K.
  apply (f_equal (fun o => match o with Some x => x | None => k end)) in K. symmetry; exact K.
Qed.
Lemma other_open k : (forall n, kind_of k <> KToken n) -> kind_of k <> KOther -> ~ secret_variable k.
Proof.
  intros H O [->|[n ->]]; [now apply O|]. apply (H n). exact (kind_of_name (KToken n) _ eq_refl).
Qed.

Lemma var_told_kind k v st :
  match apply_var k v st with
  | Ok _ => var_readable (kind_of k) v = true
  | Err e => var_readable (kind_of k) v = false /\ complaint k v e
  | Panic _ => False
  end.
Proof.
  rewrite apply_var_kind.
  destruct (kind_of k) as [n|n|n| |] eqn:K; cbn [kind_effect var_readable]; unfold to_str;
    try (destruct (utf8_valid v) eqn:U; [reflexivity|split; [reflexivity|]]).
  - apply not_unicode; [assumption|]. apply other_open; rewrite K; [intros m|]; discriminate.
  - apply not_unicode; [assumption|]. apply other_open; rewrite K; [intros m|]; discriminate.
  - apply secret_not_unicode; [assumption|]. now apply token_secret in K.
  - destruct (utf8_valid v) eqn:U; cbn [andb].
    + destruct (protocol_from_str v); cbn [is_some]; [reflexivity|]. split; [reflexivity|].
      apply protocol_kind in K. subst k. now apply no_protocol.
    + split; [reflexivity|]. apply not_unicode; [assumption|]. apply other_open; rewrite K; [intros m|]; discriminate.
  - reflexivity.
Qed.
Lemma var_told k v st :
  match apply_var k v st with
  | Ok _ => ~ entry_unreadable k v
  | Err e => entry_unreadable k v /\ complaint k v e
  | Panic _ => False
  end.
Proof.
  assert (T := var_told_kind k v st). assert (E := entry_unreadable_iff k v).
  destruct (apply_var k v st); [|tauto|exact T]. rewrite E, T. discriminate.
Qed.
Lemma vars_told env st :
  match apply_vars env st with
  | Ok _ => forall k v, In (k, v) env -> ~ entry_unreadable k v
  | Err e => exists l k v r, env = l ++ (k, v) :: r /\ entry_unreadable k v /\ complaint k v e
             /\ forall k' v', In (k', v') l -> ~ entry_unreadable k' v'
  | Panic _ => False
  end.
Proof.
  revert st. induction env as [|[k v] env IH]; intros st; cbn [apply_vars]; [easy|].
  assert (V := var_told k v st). destruct (apply_var k v st) as [st'|e|p]; cbn [bind]; [|now exists [], k, v, env|easy].
  specialize (IH st'). destruct (apply_vars env st') as [?|e|p]; [| |easy].
  - intros k' v' [[= <- <-]|H]; [assumption|now apply IH].
  - destruct IH as (l & k' & v' & r & -> & U & C & N). exists ((k, v) :: l), k', v', r.
    split; [reflexivity|]. split; [assumption|]. split; [assumption|]. intros k1 v1 [[= <- <-]|H]; [assumption|now apply N].
Qed.

(** ** The whole environment *)
Lemma env_told env c :
  match apply_env env c with
  | Ok _ => (forall k v, In (k, v) env -> ~ entry_unreadable k v)
            /\ first_defined (in_turn env (is_some (look_program DocBrowser c))) = None
  | Err e => exists name v, first_unreadable env (is_some (look_program DocBrowser c)) name v /\ complaint name v e
  | Panic _ => False
  end.
Proof.
  unfold apply_env. assert (V := vars_told env (c_alias c, c_registries c)).
  destruct (apply_vars env (c_alias c, c_registries c)) as [st|e|p]; cbn [bind]; [| |easy].
  2:{ destruct V as (l & k & v & r & E & U & C & N). exists k, v. split; [|assumption]. left. now exists l, r. }
  change (look_program DocBrowser c) with (prog_view (d_browser (c_doc c))).
  set (g := is_some (prog_view (d_browser (c_doc c)))).
  assert (T : told env
    (build <- apply_build env (c_build c) ;; doc <- apply_doc env (c_doc c) ;;
     future <- apply_future env (c_future_incompat_report c) ;; http <- apply_http env (c_http c) ;;
     net <- apply_net env (c_net c) ;; registry <- apply_registry env (c_registry c) ;;
     term <- apply_term env (c_term c) ;;
     Ok (mkConfig (fst st) build doc (c_env c) future (c_cargo_new c) http net (snd st) registry (c_target c) term))
    (in_turn env g)).
  { change (in_turn env g) with
      (build_turn env ++ [if g then None else unreadable [browser] env]
       ++ [unreadable (variables FutureFrequency) env]
       ++ http_turn env ++ net_turn env ++ registry_turn env ++ term_turn env).
    apply told_app; [apply told_build|intros ?]. apply told_app; [apply told_doc|intros ?].
    apply told_app; [apply told_future|intros ?]. apply told_app; [apply told_http|intros ?].
    apply told_app; [apply told_net|intros ?]. apply told_app; [apply told_registry|intros ?].
    apply told_map; [apply told_term|intros ?]. apply told_ok. }
  destruct (build <- apply_build env (c_build c) ;; _) as [c'|e|p]; cbn [told] in T; [now split| |easy].
  destruct T as (n & v & F & G & C). exists n, v. split; [|assumption]. right. now split.
Qed.

(** ** There is one answer *)
Lemma number_not_other n : In n numbers_and_switches ->
  n <> B "BROWSER" /\ n <> protocol_variable /\ forall cs, ~ In (n, cs) choices.
Proof.
  intros H. cbn [In numbers_and_switches] in H.
  repeat match goal with H : _ \/ _ |- _ => destruct H as [<-|H] end; [..|easy];
    (split; [discriminate|split; [discriminate|intros cs H; cbn [In choices] in H; intuition discriminate]]).
Qed.
Lemma choice_not_other n cs : In (n, cs) choices ->
  n <> B "BROWSER" /\ n <> protocol_variable /\ forall cs', In (n, cs') choices -> cs = cs'.
Proof.
  intros H. cbn [In choices] in H.
  repeat match goal with H : _ \/ _ |- _ => destruct H as [[= <- <-]|H] end; [..|easy];
    (split; [discriminate|split; [discriminate|intros cs' H; cbn [In choices] in H;
      repeat (destruct H as [H|H]; [first [discriminate (f_equal fst H)|exact (f_equal snd H)]|]); destruct H]]).
Qed.
Lemma complaint_unique n v e e' : complaint n v e -> complaint n v e' -> e = e'.
Proof.
  assert (PB : protocol_variable <> B "BROWSER") by discriminate.
  intros C C'. destruct C as [n v U S|n v U S|n v U I|n v cs U I|v U|v U];
  inversion C' as [n' v' U' S'|n' v' U' S'|n' v' U' I'|n' v' cs' U' I'|v' U'|v' U']; subst; try congruence;
  try contradiction;
  try (apply number_not_other in I; destruct I as (I1 & I2 & I3));
  try (apply number_not_other in I'; destruct I' as (I1' & I2' & I3'));
  try congruence;
  try (destruct (choice_not_other _ _ I) as (J1 & J2 & J3));
  try (destruct (choice_not_other _ _ I') as (J1' & J2' & J3')); try congruence;
  try (exfalso; eapply I3; eassumption); try (exfalso; eapply I3'; eassumption).
  now rewrite (J3 _ I').
Qed.
Lemma first_unreadable_unique env g n v n' v' :
  first_unreadable env g n v -> first_unreadable env g n' v' -> n = n' /\ v = v'.
Proof.
  intros [(l & r & E & U & N)|(N & F & G)] [(l' & r' & E' & U' & N')|(N' & F' & G')].
  - subst env. revert l' E' N'. induction l as [|[k x] l IH]; intros l' E' N'.
    + destruct l' as [|[k' x'] l']; cbn in E'; injection E'; [intros _ -> ->; easy|].
      intros _ -> ->. exfalso. apply (N' k' x'); [now left|assumption].
    + destruct l' as [|[k' x'] l']; cbn in E'; injection E'; intros E1 -> ->.
      * exfalso. apply (N n' v'); [now left|assumption].
      * apply (IH (fun a b H => N a b (or_intror H)) l'); [assumption|]. intros a b H. apply N'. now right.
  - exfalso. apply (N' n v); [|assumption]. subst env. apply in_elt.
  - exfalso. apply (N n' v'); [|assumption]. subst env. apply in_elt.
  - assert (n = n') by congruence. subst n'. split; congruence.
Qed.
Lemma env_blame env c e :
  apply_env env c = Err e <->
  exists name v, first_unreadable env (is_some (look_program DocBrowser c)) name v /\ complaint name v e.
Proof.
  assert (T := env_told env c). split.
  - intros H. rewrite H in T. exact T.
  - intros (n & v & F & C). destruct (apply_env env c) as [c'|e'|p]; [| |easy].
    + destruct T as (N & D). destruct F as [(l & r & -> & U & _)|(_ & F & _)]; [|congruence].
      exfalso. apply (N n v); [apply in_elt|assumption].
    + destruct T as (n' & v' & F' & C'). destruct (first_unreadable_unique _ _ _ _ _ _ F F') as [<- <-].
      f_equal. exact (complaint_unique _ _ _ _ C' C).
Qed.

(** ** A whole load *)
Definition never (e : error) : bool := false.
Lemma n_parent p : errs never (parent_parent p).
Proof. unfold parent_parent. walk. Qed.
#[local] Hint Resolve n_parent : errs.
Lemma n_root d cwd : errs never (def_root d cwd).
Proof. unfold def_root. walk. Qed.
Lemma n_root_opt d cwd : errs never (def_root_opt d cwd).
Proof. unfold def_root_opt. walk. Qed.
#[local] Hint Resolve n_root n_root_opt : errs.
Lemma n_program v cwd : errs never (resolve_as_program_path v cwd).
Proof. unfold resolve_as_program_path. walk. Qed.
Lemma n_path v cwd : errs never (resolve_as_path v cwd).
Proof. unfold resolve_as_path. walk. Qed.
Lemma n_triple s d cwd : errs never (triple_new s d cwd).
Proof. unfold triple_new, resolve_spec_path. walk. Qed.
#[local] Hint Resolve n_program n_path n_triple : errs.
Lemma n_epa cwd p : errs never (epa_of cwd p).
Proof. unfold epa_of, resolve_program. walk. Qed.
#[local] Hint Resolve n_epa : errs.
Lemma unresolved_err c cx e : from_unresolved c cx = Err e <-> apply_env (cx_env cx) c = Err e.
Proof.
  unfold from_unresolved. destruct (apply_env (cx_env cx) c) as [de|e'|p]; cbn [bind]; [|split; intros [= ->]; reflexivity|split; discriminate].
  split; [|discriminate]. intros H. exfalso. revert H.
  match goal with |- ?r = _ -> _ => assert (N : errs never r) end.
  { unfold ebuild_of, edoc_of, eenv_of, env_resolve, targets_of. walk. }
  intros H. discriminate (N e H).
Qed.

Lemma unreadable_ext {A} (vars : list (reader A)) env env' :
  (forall n, env_get n env = env_get n env') -> unreadable vars env = unreadable vars env'.
Proof. intros H. unfold unreadable. now rewrite (consulted_ext vars env env' H). Qed.
Lemma in_turn_ext env env' g :
  (forall n, env_get n env = env_get n env') -> in_turn env g = in_turn env' g.
Proof.
  intros H. unfold in_turn.
  repeat (apply f_equal2; [first [now apply unreadable_ext|destruct g; [reflexivity|now apply unreadable_ext]]|]).
  reflexivity.
Qed.

Lemma browser_in_iff l : browser_in l = is_some (join_programs (defined (map (program_in DocBrowser) l))).
Proof.
  assert (N := no_browser l). unfold browser_in. destruct (join_programs _); cbn [is_some].
  - destruct (existsb _ l) eqn:E; [reflexivity|]. exfalso.
    assert (K : Forall (fun x => look_program DocBrowser (snd x) = None) l).
    { apply Forall_forall. intros x I. destruct (look_program DocBrowser (snd x)) eqn:L; [|reflexivity].
      exfalso. assert (T : existsb (fun x => is_some (look_program DocBrowser (snd x))) l = true).
      { apply existsb_exists. exists x. now rewrite L. } congruence. }
    apply N in K. discriminate K.
  - destruct (existsb _ l) eqn:E; [|reflexivity]. exfalso. apply existsb_exists in E. destruct E as (x & I & K).
    rewrite Forall_forall in N. now rewrite (proj1 N eq_refl x I) in K.
Qed.

Lemma load_blame f p cwd o env home ps e :
  environment p o env -> home_of p o cwd home -> visited f cwd home ps ->
  easy_load_with_options f p cwd o = Err e ->
  (exists pre file post l, ps = pre ++ file :: post /\ reads f pre l /\ same_shapes (map snd l) /\ stops_at f pre file e)
  \/ (exists l name v, reads f ps l /\ same_shapes (map snd l)
      /\ a_first_unreadable env (browser_in l) name v /\ complaint name v e).
Proof.
  intros E Hh V H. destruct (environment_cx p o cwd env E) as [N G]. apply home_cx in Hh. subst home.
  unfold easy_load_with_options in H. cbn zeta in H.
  change (cx_current_dir (into_context p o cwd)) with cwd in H. rewrite (visited_load f cwd _ ps V) in H.
  destruct (load_files f ps) as [c|e'|?] eqn:L; cbn [bind] in H; [|injection H as ->|discriminate].
  - right. apply unresolved_err, env_blame in H. destruct H as (n & v & F & C).
    assert (O : exists l, reads f ps l /\ same_shapes (map snd l)) by (apply load_files_ok; now rewrite L).
    destruct O as (l & R & Sh). exists l, n, v. split; [assumption|]. split; [assumption|]. split; [|assumption].
    rewrite browser_in_iff, <- (load_program f ps c l L R). destruct F as [(a & b & Ee & U & _)|(U & F & Fv)].
    + split; [|now left]. rewrite G. apply in_env_get; [assumption|]. rewrite Ee. apply in_elt.
    + split; [now rewrite G|]. right. split; [|now rewrite (in_turn_ext env _ _ G)].
      intros n' v' K. rewrite G in K. apply U. now apply env_get_in.
  - left. apply load_files_err in L. destruct L as (pre & file & post & -> & O & S). apply load_files_ok in O.
    destruct O as (l & R & Sh). now exists pre, file, post, l.
Qed.
Lemma load_blame_fixed f p cwd o env home ps l name v e :
  environment p o env -> home_of p o cwd home -> visited f cwd home ps -> reads f ps l -> same_shapes (map snd l) ->
  (forall n' v', env_get n' env = Some v' -> ~ entry_unreadable n' v') ->
  first_defined (in_turn env (browser_in l)) = Some name -> env_get name env = Some v -> complaint name v e ->
  easy_load_with_options f p cwd o = Err e.
Proof.
  intros E Hh V R Sh U F Gv C. destruct (environment_cx p o cwd env E) as [N G]. apply home_cx in Hh. subst home.
  unfold easy_load_with_options. cbn zeta.
  change (cx_current_dir (into_context p o cwd)) with cwd. rewrite (visited_load f cwd _ ps V).
  assert (O : is_ok (load_files f ps) = true) by (apply load_files_ok; now exists l).
  destruct (load_files f ps) as [c|e'|?] eqn:L; [|discriminate O|discriminate O]. cbn [bind].
  apply unresolved_err, env_blame. exists name, v. split; [|assumption]. right.
  rewrite (load_program f ps c l L R), <- browser_in_iff, <- (in_turn_ext env _ _ G), <- G.
  split; [|now split]. intros n' v' I. apply U. rewrite G. now apply in_env_get.
Qed.

(** ** What is shown *)
Lemma mentions_end a part : mentions part (a ++ part).
Proof. exists a, []. now rewrite app_nil_r. Qed.
Lemma complaint_names io dbg n v e :
  complaint n v e -> utf8_valid v = false \/ (n <> protocol_variable /\ n <> B "BROWSER") ->
  mentions (quoted_name n) (error_text io dbg e).
Proof.
  intros C K. destruct C; try apply mentions_end.
  - exfalso. destruct K as [K|[K _]]; [congruence|now apply K].
  - exfalso. destruct K as [K|[_ K]]; [congruence|now apply K].
Qed.
Lemma stops_names io dbg f pre p e : stops_at f pre p e -> mentions (quoted p) (error_text io dbg e).
Proof.
  intros [k H|H|closest more c e' -> _ _]; cbn [error_text msg_text].
  - apply mentions_end.
  - eexists. eexists. reflexivity.
  - eexists. eexists. reflexivity.
Qed.
