(** Lemmas about paths relative to their definition. *)
From Verif.Model Require Import Base Str Path BMap Error Value De Triple EasyTypes Walk Load Context
  ApplyEnv Resolve Easy.
From Verif.Spec Require Import StrSpec PathSpec WalkSpec ConfigSpec LoadSpec EnvSpec TripleSpec RootSpec.
From Verif.Proof Require Import StrFacts PathFacts WalkProof BMapFacts TripleProof LoadProof EnvProof EnvVarsProof.

Lemma absolute_iff s : is_absolute s = true <-> absolute s.
Proof. apply is_absolute_iff. Qed.
Lemma absolute_not s : is_absolute s = false <-> ~ absolute s.
Proof. rewrite <- absolute_iff. destruct (is_absolute s); split; congruence. Qed.
Lemma separator_iff s : (contains slash s || contains backslash s)%bool = true <-> has_separator s.
Proof. rewrite orb_true_iff, !contains_In. reflexivity. Qed.
Lemma separator_not s : (contains slash s || contains backslash s)%bool = false <-> ~ has_separator s.
Proof. rewrite <- separator_iff. destruct (contains slash s || contains backslash s)%bool; split; congruence. Qed.

Definition rooted (d : definition) : Prop :=
  match d with
  | DefPath p | DefCli (Some p) => exists q r, parent_dir p q /\ parent_dir q r
  | _ => True
  end.

Lemma parent_parent_ok {E} p r :
  @parent_parent E p = Ok r <-> exists q, parent_dir p q /\ parent_dir q r.
Proof.
  unfold parent_parent. split.
  - destruct (parent p) as [q|] eqn:Ep; [|discriminate]. destruct (parent q) as [r'|] eqn:Eq; [|discriminate].
    intros [= <-]. exists q. now rewrite <- !parent_iff.
  - intros (q & H & H'). apply parent_iff in H, H'. now rewrite H, H'.
Qed.
Lemma parent_parent_cases {E} p :
  (exists r, @parent_parent E p = Ok r) \/
  (@parent_parent E p = Panic PUnwrapNone /\ ~ exists q r, parent_dir p q /\ parent_dir q r).
Proof.
  unfold parent_parent. destruct (parent p) as [q|] eqn:Ep.
  - destruct (parent q) as [r'|] eqn:Eq; [eauto|]. right. split; [reflexivity|].
    intros (q' & r & H & H'). apply parent_iff in H, H'. congruence.
  - right. split; [reflexivity|]. intros (q' & r & H & H'). apply parent_iff in H. congruence.
Qed.

Lemma def_root_ok {E} d cwd r : @def_root E d cwd = Ok r <-> root_of cwd d r.
Proof.
  destruct d as [p|n|[p|]]; cbn [def_root].
  - rewrite parent_parent_ok. split; [intros (q & H & H'); econstructor; eauto|].
    intros H; inversion H; subst; eauto.
  - split; [intros [= <-]; constructor|]. intros H; inversion H; reflexivity.
  - rewrite parent_parent_ok. split; [intros (q & H & H'); econstructor; eauto|].
    intros H; inversion H; subst; eauto.
  - split; [intros [= <-]; constructor|]. intros H; inversion H; reflexivity.
Qed.
Lemma def_root_cases {E} d cwd :
  (exists r, @def_root E d cwd = Ok r) \/ (@def_root E d cwd = Panic PUnwrapNone /\ ~ rooted d).
Proof.
  destruct d as [p|n|[p|]]; cbn [def_root rooted]; eauto using parent_parent_cases.
Qed.
Lemma def_root_opt_root {E} d cwd :
  @def_root_opt E d (Some cwd) = (r <- @def_root E d cwd ;; Ok (Some r)).
Proof. destruct d as [p|n|[p|]]; reflexivity. Qed.

Lemma path_ok {E} v cwd p : @resolve_as_path E v cwd = Ok p <-> path_at cwd v p.
Proof.
  unfold resolve_as_path. destruct (def v) as [d|] eqn:D.
  - destruct (is_absolute (val v)) eqn:A; cbn [negb].
    + apply absolute_iff in A. split; [intros [= <-]; constructor; now right|].
      intros H; inversion H; subst; [reflexivity|contradiction].
    + destruct (def_root_cases (E := E) d cwd) as [(r & H)|[H N]]; rewrite H; cbn [bind].
      * apply def_root_ok in H. rewrite join_child by assumption. apply absolute_not in A. split.
        -- intros [= <-]. now apply path_below with d.
        -- intros K; inversion K as [[K1|K1]|d' r' K1 _ K2]; subst; [congruence|contradiction|].
           rewrite D in K1. injection K1 as <-. apply (def_root_ok (E := E)) in H, K2. congruence.
      * apply absolute_not in A. split; [discriminate|].
        intros K; inversion K as [[K1|K1]|d' r' K1 _ K2]; subst; [congruence|contradiction|].
        rewrite D in K1. injection K1 as <-. apply (def_root_ok (E := E)) in K2. congruence.
  - split; [intros [= <-]; constructor; now left|]. intros H; inversion H; subst; [reflexivity|congruence].
Qed.
Lemma path_cases {E} v cwd :
  (exists p, @resolve_as_path E v cwd = Ok p) \/
  (@resolve_as_path E v cwd = Panic PUnwrapNone /\ exists d, def v = Some d /\ ~ rooted d).
Proof.
  unfold resolve_as_path. destruct (def v) as [d|] eqn:D; [|eauto].
  destruct (negb (is_absolute (val v))); [|eauto].
  destruct (def_root_cases (E := E) d cwd) as [(r & H)|[H N]]; rewrite H; cbn [bind]; eauto.
Qed.

Lemma program_ok {E} v cwd p : @resolve_as_program_path E v cwd = Ok p <-> program_at cwd v p.
Proof.
  unfold resolve_as_program_path. destruct (def v) as [d|] eqn:D.
  - destruct (is_absolute (val v)) eqn:A; cbn [negb andb].
    + apply absolute_iff in A. split; [intros [= <-]; constructor; auto|].
      intros H; inversion H; subst; [reflexivity|contradiction].
    + destruct (contains slash (val v) || contains backslash (val v))%bool eqn:C.
      * apply separator_iff in C.
        destruct (def_root_cases (E := E) d cwd) as [(r & H)|[H N]]; rewrite H; cbn [bind].
        -- apply def_root_ok in H. rewrite join_child by assumption. apply absolute_not in A. split.
           ++ intros [= <-]. now apply program_below with d.
           ++ intros K; inversion K as [[K1|[K1|K1]]|d' r' K1 _ _ K2]; subst; try congruence; try contradiction.
              rewrite D in K1. injection K1 as <-. apply (def_root_ok (E := E)) in H, K2. congruence.
        -- apply absolute_not in A. split; [discriminate|].
           intros K; inversion K as [[K1|[K1|K1]]|d' r' K1 _ _ K2]; subst; try congruence; try contradiction.
           rewrite D in K1. injection K1 as <-. apply (def_root_ok (E := E)) in K2. congruence.
      * apply separator_not in C. split; [intros [= <-]; constructor; auto|].
        intros H; inversion H; subst; [reflexivity|contradiction].
  - split; [intros [= <-]; constructor; now left|]. intros H; inversion H; subst; [reflexivity|congruence].
Qed.
Lemma program_cases {E} v cwd :
  (exists p, @resolve_as_program_path E v cwd = Ok p) \/
  (@resolve_as_program_path E v cwd = Panic PUnwrapNone /\ exists d, def v = Some d /\ ~ rooted d).
Proof.
  unfold resolve_as_program_path. destruct (def v) as [d|] eqn:D; [|eauto].
  destruct (_ && _)%bool; [|eauto].
  destruct (def_root_cases (E := E) d cwd) as [(r & H)|[H N]]; rewrite H; cbn [bind]; eauto.
Qed.

(** ** Options, lists *)

Lemma opt_traverse_ok {E A A'} (f : A -> res E A') (R : A -> A' -> Prop) o o' :
  (forall a a', f a = Ok a' -> R a a') -> opt_traverse f o = Ok o' -> both R o o'.
Proof.
  intros H. destruct o as [a|]; cbn; [|now intros [= <-]].
  destruct (f a) eqn:F; try discriminate. intros [= <-]. cbn. auto.
Qed.
Lemma opt_traverse_panic {E A A'} (f : A -> res E A') o p :
  opt_traverse f o = Panic p -> exists a, o = Some a /\ f a = Panic p.
Proof. destruct o as [a|]; cbn; [|discriminate]. destruct (f a) eqn:F; try discriminate. intros [= <-]; eauto. Qed.
Lemma traverse_ok {E A A'} (f : A -> res E A') (R : A -> A' -> Prop) l : forall l',
  (forall a a', f a = Ok a' -> R a a') -> traverse f l = Ok l' -> Forall2 R l l'.
Proof.
  induction l as [|a l IH]; intros l' H; cbn; [intros [= <-]; constructor|].
  destruct (f a) eqn:F; cbn [bind]; try discriminate.
  destruct (traverse f l) eqn:T; cbn [bind]; try discriminate. intros [= <-]. constructor; auto.
Qed.
Lemma traverse_panic {E A A'} (f : A -> res E A') l p :
  traverse f l = Panic p -> exists a, In a l /\ f a = Panic p.
Proof.
  induction l as [|a l IH]; cbn; [discriminate|].
  destruct (f a) eqn:F; cbn [bind]; try discriminate.
  - destruct (traverse f l); cbn [bind]; try discriminate. intros [= <-].
    destruct (IH eq_refl) as (a' & I & H). eauto.
  - intros [= <-]. eauto.
Qed.
Lemma btraverse_get {E V W} (f : V -> res E W) (R : V -> W -> Prop) m : forall m',
  (forall a a', f a = Ok a' -> R a a') -> btraverse f m = Ok m' ->
  forall k, both R (bget k m) (bget k m').
Proof.
  induction m as [|[k v] m IH]; intros m' H; cbn [btraverse]; [intros [= <-] k; exact I|].
  destruct (f v) eqn:F; cbn [bind]; try discriminate.
  destruct (btraverse f m) eqn:T; cbn [bind]; try discriminate. intros [= <-] k'. cbn [bget].
  destruct (str_eqb k' k); [cbn; auto|]. now apply IH.
Qed.
Lemma btraverse_panic {E V W} (f : V -> res E W) m p :
  btraverse f m = Panic p -> exists k v, In (k, v) m /\ f v = Panic p.
Proof.
  induction m as [|[k v] m IH]; cbn [btraverse]; [discriminate|].
  destruct (f v) eqn:F; cbn [bind]; try discriminate.
  - destruct (btraverse f m); cbn [bind]; try discriminate. intros [= <-].
    destruct (IH eq_refl) as (k' & v' & I & H). exists k', v'. split; [now right|assumption].
  - intros [= <-]. exists k, v. split; [now left|assumption].
Qed.

Lemma bind_panic {E A A'} (m : res E A) (f : A -> res E A') p :
  bind m f = Panic p -> m = Panic p \/ exists a, m = Ok a /\ f a = Panic p.
Proof. destruct m; cbn; [eauto|discriminate|]. intros [= <-]. now left. Qed.
Lemma bind_okk {E A A'} (m : res E A) (f : A -> res E A') b :
  bind m f = Ok b -> exists a, m = Ok a /\ f a = Ok b.
Proof. destruct m; cbn; [eauto|discriminate|discriminate]. Qed.

(** ** Targets *)



Lemma target_ok {E} v cwd t :
  @triple_new E (val v) (def v) (Some cwd) = Ok t -> target_at cwd v (cli_target t).
Proof.
  unfold triple_new. destruct (is_spec_path (val v)) eqn:S.
  - apply is_spec_path_iff in S. destruct (file_stem (val v)) as [st|]; [|discriminate].
    destruct (to_str st); [|discriminate]. intros H. apply bind_okk in H as (o & R & H).
    injection H as <-. apply target_spec; [assumption|]. cbn [cli_target tt_spec_path].
    unfold resolve_spec_path in R. destruct (def v) as [d|] eqn:D.
    + rewrite def_root_opt_root in R. apply bind_okk in R as (ro & R & R').
      apply bind_okk in R as (r & R & K). injection K as <-. injection R' as <-.
      destruct (is_absolute (val v)) eqn:A.
      * rewrite join_absolute by assumption. constructor. right. now apply absolute_iff.
      * rewrite join_child by assumption. apply path_below with d; [assumption|now apply absolute_not|].
        now apply (def_root_ok (E := E)).
    + injection R as <-. constructor. now left.
  - intros [= <-]. apply target_plain. intros H. apply is_spec_path_iff in H. congruence.
Qed.
Lemma target_panic {E} v cwd p :
  @triple_new E (val v) (def v) (Some cwd) = Panic p ->
  (spec_like (val v) /\ ~ nameable (val v)) \/ (exists d, def v = Some d /\ ~ rooted d).
Proof.
  unfold triple_new. destruct (is_spec_path (val v)) eqn:S; [|discriminate].
  apply is_spec_path_iff in S. destruct (file_stem (val v)) as [st|] eqn:F.
  - destruct (to_str st) eqn:U.
    + intros H. apply bind_panic in H as [H|(o & _ & H)]; [|discriminate]. right.
      unfold resolve_spec_path in H. destruct (def v) as [d|]; [|discriminate].
      rewrite def_root_opt_root in H.
      destruct (def_root_cases (E := E) d cwd) as [(r & K)|[K N]]; [|eauto].
      rewrite K in H. discriminate H.
    + intros _. left. split; [assumption|]. intros [V _]. unfold to_str in U.
      now rewrite (file_stem_valid _ _ V F) in U.
  - intros _. left. split; [assumption|]. intros [_ (n & N)].
    apply file_name_iff in N. rewrite file_stem_name, N in F. discriminate F.
Qed.

Lemma target_panics {E} v cwd : spec_like (val v) -> (forall n, ~ last_name (val v) n) ->
  @triple_new E (val v) (def v) (Some cwd) = Panic PUnwrapNone.
Proof.
  intros S N. unfold triple_new. apply is_spec_path_iff in S. rewrite S, file_stem_name.
  destruct (file_name (val v)) as [n|] eqn:F; [|reflexivity]. apply file_name_iff in F. now apply N in F.
Qed.

(** ** Files found by the walk have a root *)

Lemma rootish_no_parent p : rootish p <-> forall q, ~ parent_dir p q.
Proof.
  split; [apply no_parent|]. intros H. pose proof (parent_spec p) as K.
  destruct (parent p) as [q|]; [|exact K]. exfalso. now apply (H q).
Qed.

Lemma reads_as_child d a l n : d <> [] -> PathSpec.reads_as d a l -> PathSpec.name_ok n ->
  PathSpec.reads_as (child d n) a (l ++ [n]).
Proof.
  intros Nd (ps & Ne & F & Ed & -> & ->) (N1 & N2 & N3).
  assert (Cn : counts n = true).
  { destruct n as [|c [|c' n]]; cbn; [congruence| |reflexivity]. apply negb_true_iff, Ascii.eqb_neq.
    intros ->. now apply N2. }
  unfold child. destruct (rev d) as [|c r] eqn:Er.
  { apply (f_equal (@rev ascii)) in Er. rewrite rev_involutive in Er. contradiction. }
  destruct (Ascii.eqb c separator) eqn:Ec.
  - apply Ascii.eqb_eq in Ec. subst c. apply (f_equal (@rev ascii)) in Er. rewrite rev_involutive in Er.
    cbn [rev] in Er.
    assert (Q : exists init, init <> [] /\ ps = init ++ [[]]).
    { assert (S : ps = split_on separator (rev r ++ [separator])).
      { rewrite <- Er, <- Ed. symmetry. now apply split_intercalate. }
      exists (split_on separator (rev r)). split; [apply split_on_not_nil|].
      rewrite S. rewrite <- (intercalate_split separator (rev r)) at 1.
      assert (K := intercalate_snoc (split_on separator (rev r)) [] (split_on_not_nil _ _)).
      change slash with separator in K. rewrite <- K.
      apply split_intercalate; [now destruct (split_on separator (rev r))|].
      apply Forall_app. split; [|auto]. apply Forall_forall. intros w. apply split_on_free. }
    destruct Q as (init & Ni & ->). exists (init ++ [n]). split; [now destruct init|].
    apply Forall_app in F as [F _]. split; [apply Forall_app; auto|].
    split; [|split].
    + rewrite <- Ed. rewrite !intercalate_snoc by assumption. now rewrite <- app_assoc.
    + rewrite !filter_app. cbn. rewrite Cn. now rewrite app_nil_r.
    + destruct init as [|x [|y init]]; [contradiction| |]; reflexivity.
  - exists (ps ++ [n]). split; [now destruct ps|]. split; [apply Forall_app; auto|]. split; [|split].
    + assert (K := intercalate_snoc ps n Ne). rewrite <- Ed. exact K.
    + rewrite filter_app. cbn. now rewrite Cn.
    + destruct ps as [|x [|y ps]]; [contradiction| |reflexivity].
      cbn in Ed. subst x. destruct d as [|? ?]; [contradiction|reflexivity].
Qed.
Lemma reads_as_nil : PathSpec.reads_as [] Plain [].
Proof. exists [[]]. repeat split; auto; discriminate. Qed.
Lemma reads_as_name n : PathSpec.name_ok n -> PathSpec.reads_as n Plain [n].
Proof.
  intros (N1 & N2 & N3). exists [n]. split; [easy|]. split; [auto|]. split; [reflexivity|].
  destruct n as [|x [|y n]]; [contradiction| |].
  - assert (x <> "."%char) by (intros ->; now apply N2). cbn.
    apply Ascii.eqb_neq in H. rewrite H. cbn. split; [reflexivity|].
    destruct x as [[] [] [] [] [] [] [] []]; try reflexivity. discriminate H.
  - split; [reflexivity|]. destruct x as [[] [] [] [] [] [] [] []]; reflexivity.
Qed.
Lemma reads_as_child_any d a l n : PathSpec.reads_as d a l -> PathSpec.name_ok n ->
  exists a', PathSpec.reads_as (child d n) a' (l ++ [n]).
Proof.
  intros R N. destruct d as [|c d].
  - exists Plain. assert (R0 : PathSpec.reads_as [] Plain []) by (exists [[]]; repeat split; auto; discriminate).
    destruct (reads_as_unique _ _ _ _ _ R R0) as [_ ->]. now apply reads_as_name.
  - exists a. now apply reads_as_child.
Qed.
Lemma parent_of_names p a l n : PathSpec.reads_as p a (l ++ [n]) ->
  exists q, parent_dir p q /\ PathSpec.reads_as q a l.
Proof.
  intros R. pose proof (parent_spec p) as K. destruct (parent p) as [q|].
  - exists q. split; [assumption|]. destruct K as (_ & _ & [(a' & l' & n' & R1 & R2)|[R1 _]]).
    + destruct (reads_as_unique _ _ _ _ _ R R1) as [-> E]. apply app_inj_tail in E as [-> _]. assumption.
    + destruct (reads_as_unique _ _ _ _ _ R R1) as [_ E]. now destruct l.
  - exfalso. destruct K as [K|K]; destruct (reads_as_unique _ _ _ _ _ R K) as [_ E]; now destruct l.
Qed.

Ltac name_ok := repeat split; try discriminate; cbn; intuition discriminate.
Lemma ok_dot_cargo : PathSpec.name_ok (B ".cargo"). Proof. name_ok. Qed.
Lemma ok_config : PathSpec.name_ok (B "config"). Proof. name_ok. Qed.
Lemma ok_config_toml : PathSpec.name_ok (B "config.toml"). Proof. name_ok. Qed.

(** The file [n] in [.cargo] in [d] belongs to [d]. *)
Lemma dot_cargo_root cwd d n : PathSpec.name_ok n ->
  exists r, root_of cwd (DefPath (child (dot_cargo d) n)) r /\ (d <> [] -> same_place r d).
Proof.
  intros N. unfold dot_cargo.
  assert (C : child d (B ".cargo") <> []).
  { unfold child. destruct (rev d); [easy|]. destruct (Ascii.eqb a separator); now destruct d. }
  destruct d as [|c d].
  - destruct (reads_as_child_any [] Plain [] (B ".cargo")) as (a' & R);
      [exists [[]]; repeat split; auto; discriminate|apply ok_dot_cargo|].
    assert (R2 := reads_as_child _ _ _ _ C R N).
    destruct (parent_of_names _ _ _ _ R2) as (q & P1 & Rq).
    destruct (parent_of_names _ _ _ _ Rq) as (r & P2 & Rr).
    exists r. split; [now apply root_file with q|congruence].
  - assert (D := reads_as_decompose (c :: d)).
    assert (R := fun a l K => reads_as_child (c :: d) a l _ (ltac:(discriminate)) K ok_dot_cargo).
    specialize (R _ _ D). assert (R2 := reads_as_child _ _ _ _ C R N).
    destruct (parent_of_names _ _ _ _ R2) as (q & P1 & Rq).
    destruct (parent_of_names _ _ _ _ Rq) as (r & P2 & Rr).
    exists r. split; [now apply root_file with q|]. intros _. eexists _, _. split; [exact Rr|exact D].
Qed.
(** The file [n] in [h] belongs to the directory above [h]. *)
Lemma home_root cwd h n : PathSpec.name_ok n -> h <> [] ->
  forall r, parent_dir h r -> exists r', root_of cwd (DefPath (child h n)) r' /\ same_place r' r.
Proof.
  intros N Nh r P. assert (D := reads_as_decompose h).
  assert (R2 := reads_as_child _ _ _ _ Nh D N).
  destruct (parent_of_names _ _ _ _ R2) as (q & P1 & Rq).
  destruct P as (_ & _ & [(a & l & m & R & Rr)|[R ->]]).
  - destruct (reads_as_unique _ _ _ _ _ D R) as [Ea El]. rewrite Ea, El in Rq.
    destruct (parent_of_names _ _ _ _ Rq) as (r' & P2 & Rr').
    exists r'. split; [now apply root_file with q|]. eexists _, _. split; eassumption.
  - destruct (reads_as_unique _ _ _ _ _ D R) as [Ea El]. rewrite Ea, El in Rq.
    pose proof (parent_spec q) as K. destruct (parent q) as [r'|].
    + exists r'. split; [now apply root_file with q|]. destruct K as (_ & _ & [(a & l & m & R1 & _)|[_ ->]]).
      * destruct (reads_as_unique _ _ _ _ _ Rq R1) as [_ E]. now destruct l.
      * exists Plain, []. assert (PathSpec.reads_as [] Plain []) by (exists [[]]; repeat split; auto; discriminate).
        auto.
    + destruct K as [K|K]; destruct (reads_as_unique _ _ _ _ _ Rq K) as [E _]; discriminate E.
Qed.
Lemma home_rootish cwd h n r : PathSpec.name_ok n -> rootish h -> ~ root_of cwd (DefPath (child h n)) r.
Proof.
  intros N Rh H. inversion H as [p q r' P1 P2| | |]; subst. clear H.
  destruct h as [|c h].
  - assert (R0 : PathSpec.reads_as [] Plain []) by (exists [[]]; repeat split; auto; discriminate).
    change (child [] n) with n in P1.
    assert (Rn := reads_as_name n N).
    destruct (parent_of_names n Plain [] n Rn) as (q' & P' & Rq).
    rewrite (parent_dir_unique _ _ _ P1 P') in P2.
    apply (no_parent q' (or_intror Rq) r P2).
  - assert (K : forall a, PathSpec.reads_as (c :: h) a [] -> a = AtRoot \/ a = Plain -> False).
    { intros a Ra Ha. assert (R2 : PathSpec.reads_as (child (c :: h) n) a ([] ++ [n])) by (apply reads_as_child; easy).
      destruct (parent_of_names _ _ _ _ R2) as (q' & P' & Rq).
      rewrite (parent_dir_unique _ _ _ P1 P') in P2. apply (no_parent q') in P2; [assumption|].
      destruct Ha as [-> | ->]; [now left|now right]. }
    destruct Rh as [Rh|Rh]; eauto.
Qed.

Lemma visited_shape f cwd home ps p : visited f cwd home ps -> In p ps ->
  exists d n, p = child d n /\ PathSpec.name_ok n /\
  ((exists above a, upwards cwd above /\ In a above /\ d = dot_cargo a) \/ home = Some d).
Proof.
  intros (dirs & (above & U & H) & F) I.
  assert (K : exists d, In d dirs /\ exists n, p = child d n /\ PathSpec.name_ok n).
  { clear U H. induction F as [|d ds g gs Hg F IH]; [destruct I|]. apply in_app_iff in I as [I|I].
    - exists d. split; [now left|]. destruct Hg; [destruct I as [<-|[]]|destruct I as [<-|[]]|destruct I];
        eexists; (split; [reflexivity|]); [apply ok_config|apply ok_config_toml].
    - destruct (IH I) as (d' & I' & K). exists d'. split; [now right|assumption]. }
  destruct K as (d & Id & n & -> & N). exists d, n. split; [reflexivity|]. split; [assumption|].
  assert (M : In d (map dot_cargo above) -> exists a, In a above /\ d = dot_cargo a).
  { intros J. apply in_map_iff in J as (a & <- & J). eauto. }
  inversion H; subst.
  - destruct (M Id) as (a & ? & ?). left. eauto.
  - destruct (M Id) as (a & ? & ?). left. eauto.
  - apply in_app_iff in Id as [Id|[<-|[]]]; [|now right].
    destruct (M Id) as (a & ? & ?). left. eauto.
Qed.
Lemma visited_rooted f cwd home ps p : visited f cwd home ps -> In p ps ->
  rooted (DefPath p) \/ exists h, home = Some h /\ rootish h.
Proof.
  intros V I. destruct (visited_shape f cwd home ps p V I) as (d & n & -> & N & [(above & a & _ & _ & ->)|Eh]).
  - left. destruct (dot_cargo_root [] a n N) as (r & R & _). inversion R; subst. cbn. eauto.
  - destruct (parent d) as [r|] eqn:P.
    + left. apply parent_iff in P.
      assert (Nd : d <> []).
      { intros ->. apply (no_parent [] (or_intror reads_as_nil) r P). }
      destruct (home_root [] d n N Nd r P) as (r' & R & _). inversion R; subst. cbn. eauto.
    + right. exists d. split; [assumption|]. apply rootish_no_parent. intros q Q. apply parent_iff in Q. congruence.
Qed.

(** ** Whole configurations *)

Definition program_of (p : epath_and_args) : str * list str := (epa_path p, epa_args p).

Lemma epa_of_ok cwd p e : epa_of (E := error) cwd p = Ok e ->
  command_at cwd (program_words p) (program_of e).
Proof.
  unfold epa_of, resolve_program. intros H. apply bind_okk in H as (x & H & K). injection K as <-.
  apply program_ok in H. unfold command_at, program_words, program_of. cbn. eauto.
Qed.

Record build_resolved (cwd : str) (b : build_config) (e : ebuild) : Prop := {
  br_jobs : eb_jobs e = option_map val (b_jobs b);
  br_rustc : both (program_at cwd) (b_rustc b) (eb_rustc e);
  br_wrapper : both (program_at cwd) (b_rustc_wrapper b) (eb_rustc_wrapper e);
  br_workspace : both (program_at cwd) (b_rustc_workspace_wrapper b) (eb_rustc_workspace_wrapper e);
  br_rustdoc : both (program_at cwd) (b_rustdoc b) (eb_rustdoc e);
  br_target : both (fun s => Forall2 (fun v t => triple_new (E := error) (val v) (def v) (Some cwd) = Ok t)
                               (as_array_no_split s)) (b_target b) (eb_target e);
  br_target_dir : both (path_at cwd) (b_target_dir b) (eb_target_dir e);
  br_basedir : both (path_at cwd) (b_dep_info_basedir b) (eb_dep_info_basedir e);
  br_rustflags : eb_rustflags e = option_map eflags_of (b_rustflags b);
  br_rustdocflags : eb_rustdocflags e = option_map eflags_of (b_rustdocflags b);
  br_incremental : eb_incremental e = option_map val (b_incremental b);
  br_override : eb_override_target_rustflags e = b_override_target_rustflags b;
  br_override_doc : eb_override_target_rustdocflags e = b_override_target_rustdocflags b;
  br_de_rustflags : eb_de_rustflags e = b_rustflags b;
  br_de_rustdocflags : eb_de_rustdocflags e = b_rustdocflags b
}.

Lemma opt_program_ok cwd o o' :
  opt_traverse (fun v => resolve_as_program_path (E := error) v cwd) o = Ok o' -> both (program_at cwd) o o'.
Proof. apply opt_traverse_ok. intros a a' H. now apply program_ok in H. Qed.
Lemma opt_path_ok cwd o o' :
  opt_traverse (fun v => resolve_as_path (E := error) v cwd) o = Ok o' -> both (path_at cwd) o o'.
Proof. apply opt_traverse_ok. intros a a' H. now apply path_ok in H. Qed.

Lemma ebuild_of_ok cwd b e : ebuild_of cwd b = Ok e -> build_resolved cwd b e.
Proof.
  unfold ebuild_of. intros H.
  apply bind_okk in H as (x1 & H1 & H). apply bind_okk in H as (x2 & H2 & H).
  apply bind_okk in H as (x3 & H3 & H). apply bind_okk in H as (x4 & H4 & H).
  apply bind_okk in H as (x5 & H5 & H). apply bind_okk in H as (x6 & H6 & H).
  apply bind_okk in H as (x7 & H7 & H). injection H as <-.
  constructor; try reflexivity; cbn; auto using opt_program_ok, opt_path_ok.
  revert H5. apply opt_traverse_ok. intros a l. unfold targets_of. apply traverse_ok. auto.
Qed.

Lemma eenv_of_ok cwd e x : eenv_of cwd e = Ok x ->
  ee_relative x = false /\
  match e with
  | EnvValue v => ee_value x = val v /\ ee_force x = false
  | EnvTable v f r =>
      ee_force x = is_true f /\
      (if is_true r then path_at cwd v (ee_value x) else ee_value x = val v)
  end.
Proof.
  unfold eenv_of. destruct e as [v|v f r]; [intros [= <-]; auto|].
  destruct (is_true r) eqn:T; [|intros [= <-]; auto].
  intros H. apply bind_okk in H as (s & H & K). injection K as <-. cbn. split; [reflexivity|].
  split; [reflexivity|]. unfold env_resolve in H. destruct r as [r|]; [|discriminate T]. cbn in T. rewrite T in H.
  destruct (def v) as [d|] eqn:D; [|injection H as <-; constructor; now left].
  apply bind_okk in H as (root & R & K). injection K as <-. apply def_root_ok in R.
  destruct (is_absolute (val v)) eqn:A.
  - rewrite join_absolute by assumption. constructor. right. now apply absolute_iff.
  - rewrite join_child by assumption. apply path_below with d; auto. now apply absolute_not.
Qed.

Lemma from_unresolved_ok c cx ec : from_unresolved c cx = Ok ec ->
  exists de, apply_env (cx_env cx) c = Ok de
  /\ build_resolved (cx_current_dir cx) (c_build de) (ec_build ec)
  /\ both (fun p e => command_at (cx_current_dir cx) (program_words p) (program_of e))
       (d_browser (c_doc de)) (ed_browser (ec_doc ec))
  /\ (forall n, both (fun e x => eenv_of (cx_current_dir cx) e = Ok x) (bget n (c_env de)) (bget n (ec_env ec)))
  /\ ec_de_target ec = c_target de /\ ec_cx ec = cx.
Proof.
  unfold from_unresolved. intros H. apply bind_okk in H as (de & Ha & H). exists de. split; [assumption|].
  apply bind_okk in H as (b & Hb & H). apply bind_okk in H as (d & Hd & H).
  apply bind_okk in H as (en & He & H). injection H as <-. cbn.
  split; [now apply ebuild_of_ok|]. split.
  { unfold edoc_of in Hd. apply bind_okk in Hd as (br & Hd & K). injection K as <-. cbn.
    revert Hd. apply opt_traverse_ok. intros a a'. apply epa_of_ok. }
  split; [|auto]. revert He. apply btraverse_get. auto.
Qed.

(** A value of [de] whose file is not in a directory with a parent. *)
Definition rootless {A} (v : value A) : Prop := exists d, def v = Some d /\ ~ rooted d.
Inductive bad_value (de : config) : Prop :=
| bad_scalar (k : scalar_key str) v : look k de = Some v -> rootless v -> bad_value de
| bad_browser fm v ws : look_program DocBrowser de = Some (fm, v :: ws) -> rootless v -> bad_value de
| bad_target fm ws w : look_list BuildTarget de = Some (fm, ws) -> In w ws -> rootless w -> bad_value de
| bad_name fm ws w : look_list BuildTarget de = Some (fm, ws) -> In w ws ->
    spec_like (val w) -> ~ nameable (val w) -> bad_value de.

Lemma opt_program_panic cwd o p :
  opt_traverse (fun v => resolve_as_program_path (E := error) v cwd) o = Panic p ->
  exists v, o = Some v /\ rootless v.
Proof.
  intros H. apply opt_traverse_panic in H as (a & -> & H).
  destruct (program_cases (E := error) a cwd) as [(x & K)|[_ K]]; [congruence|]. eauto.
Qed.
Lemma opt_path_panic cwd o p :
  opt_traverse (fun v => resolve_as_path (E := error) v cwd) o = Panic p ->
  exists v, o = Some v /\ rootless v.
Proof.
  intros H. apply opt_traverse_panic in H as (a & -> & H).
  destruct (path_cases (E := error) a cwd) as [(x & K)|[_ K]]; [congruence|]. eauto.
Qed.

Lemma build_target_words de t :
  b_target (c_build de) = Some t -> exists fm, look_list BuildTarget de = Some (fm, as_array_no_split t).
Proof. intros H. cbn. rewrite H. destruct t; cbn; eauto. Qed.

Lemma from_unresolved_panic c cx p : sorted (c_env c) -> from_unresolved c cx = Panic p ->
  exists de, apply_env (cx_env cx) c = Ok de /\ bad_value de.
Proof.
  intros Srt. unfold from_unresolved. intros H. apply bind_panic in H as [H|(de & Ha & H)].
  { assert (N := apply_env_panic (cx_env cx) c). rewrite H in N. discriminate N. }
  exists de. split; [assumption|].
  apply bind_panic in H as [H|(b & _ & H)].
  - unfold ebuild_of in H.
    apply bind_panic in H as [H|(x1 & _ & H)].
    { apply opt_program_panic in H as (v & E & R). exact (bad_scalar de BuildRustc v E R). }
    apply bind_panic in H as [H|(x2 & _ & H)].
    { apply opt_program_panic in H as (v & E & R). exact (bad_scalar de BuildRustcWrapper v E R). }
    apply bind_panic in H as [H|(x3 & _ & H)].
    { apply opt_program_panic in H as (v & E & R). exact (bad_scalar de BuildRustcWorkspaceWrapper v E R). }
    apply bind_panic in H as [H|(x4 & _ & H)].
    { apply opt_program_panic in H as (v & E & R). exact (bad_scalar de BuildRustdoc v E R). }
    apply bind_panic in H as [H|(x5 & _ & H)].
    { apply opt_traverse_panic in H as (t & E & H). unfold targets_of in H.
      apply traverse_panic in H as (w & I & H). destruct (build_target_words de t E) as (fm & L).
      apply target_panic in H as [[S N]|R]; [eapply bad_name; eauto|eapply bad_target; eauto]. }
    apply bind_panic in H as [H|(x6 & _ & H)].
    { apply opt_path_panic in H as (v & E & R). exact (bad_scalar de BuildTargetDir v E R). }
    apply bind_panic in H as [H|(x7 & _ & H)]; [|discriminate].
    apply opt_path_panic in H as (v & E & R). exact (bad_scalar de BuildDepInfoBasedir v E R).
  - apply bind_panic in H as [H|(d & _ & H)].
    + unfold edoc_of in H. apply bind_panic in H as [H|(? & _ & H)]; [|discriminate].
      apply opt_traverse_panic in H as (a & E & H). unfold epa_of, resolve_program in H.
      apply bind_panic in H as [H|(? & _ & H)]; [|discriminate].
      destruct (program_cases (E := error) (pa_path a) (cx_current_dir cx)) as [(x & K)|[_ K]]; [congruence|].
      apply (bad_browser de (form_of (pa_repr a)) (pa_path a) (pa_args a)); [|assumption].
      cbn. now rewrite E.
    + apply bind_panic in H as [H|(en & _ & H)]; [|discriminate].
      apply btraverse_panic in H as (k & e & I & H).
      assert (Eq : c_env de = c_env c) by apply (apply_env_env _ _ _ Ha). rewrite Eq in I.
      apply sorted_in_bget in I; [|assumption]. rewrite <- Eq in I.
      unfold eenv_of in H. destruct e as [v|v f r]; [discriminate|].
      destruct (is_true r); [|discriminate]. apply bind_panic in H as [H|(? & _ & H)]; [|discriminate].
      unfold env_resolve in H. destruct r as [r|]; [|discriminate]. destruct (val r); [|discriminate].
      destruct (def v) as [d0|] eqn:D; [|discriminate].
      apply bind_panic in H as [H|(? & _ & H)]; [|discriminate].
      destruct (def_root_cases (E := error) d0 (cx_current_dir cx)) as [(x & K)|[_ K]]; [congruence|].
      apply (bad_scalar de (EnvVarValue k) v); [|exists d0; auto]. cbn. unfold under. now rewrite I.
Qed.

Lemma variable_rooted {A} name (a : A) : ~ rootless (of_variable name a).
Proof. intros (d & [= <-] & N). now apply N. Qed.

Lemma load_panic f p cwd o x : let cx := into_context p o cwd in
  one_value_each (cx_env cx) -> easy_load_with_options f p cwd o = Panic x ->
  (exists h, cx_cargo_home p cx cwd = Some h /\ rootish h) \/
  (exists c de fm ws w, load_with_options f cwd (cx_cargo_home p cx cwd) = Ok c
     /\ apply_env (cx_env cx) c = Ok de /\ look_list BuildTarget de = Some (fm, ws) /\ In w ws
     /\ spec_like (val w) /\ ~ nameable (val w)).
Proof.
  intros cx Nd H. unfold easy_load_with_options in H. fold cx in H. change (cx_current_dir cx) with cwd in H.
  set (home := cx_cargo_home p cx cwd) in *.
  apply bind_panic in H as [H|(c & Hc & H)].
  { assert (N := load_files_panic f (walk_all (fs_exists f) (walk_init cwd home))). unfold load_with_options in H. rewrite H in N. discriminate N. }
  assert (Srt : sorted (c_env c)) by apply (load_files_sorted f _ c Hc).
  destruct (from_unresolved_panic c cx x Srt H) as (de & Ha & Bv).
  destruct (visited_ex f cwd home) as (ps & V).
  assert (L : load_files f ps = Ok c) by (rewrite <- (visited_load f cwd home ps V); assumption).
  assert (K : forall q, In q ps -> ~ rooted (DefPath q) ->
              exists h, home = Some h /\ rootish h).
  { intros q I N. destruct (visited_rooted f cwd home ps q V I); tauto. }
  destruct Bv as [k v Lk R|fm v ws Lk R|fm ws w Lk I R|fm ws w Lk I Sp N].
  - left. rewrite (apply_env_scalar _ _ _ Nd Ha) in Lk. unfold scalar_after in Lk.
    destruct (consulted (variables k) (cx_env cx)) as [[name [a|]]|].
    + destruct (switches_off k a); [discriminate|]. injection Lk as <-. now apply variable_rooted in R.
    + destruct (origin_scalar f ps c _ k v L Lk) as (q & c0 & v0 & I & _ & _ & D & _).
      destruct R as (d & D' & N). rewrite D in D'. injection D' as <-. eauto.
    + destruct (origin_scalar f ps c _ k v L Lk) as (q & c0 & v0 & I & _ & _ & D & _).
      destruct R as (d & D' & N). rewrite D in D'. injection D' as <-. eauto.
  - left. rewrite (apply_env_program _ _ _ Ha) in Lk. unfold program_after in Lk.
    destruct (look_program DocBrowser c) as [b|] eqn:Lc.
    + injection Lk as ->. destruct (origin_program f ps c _ _ _ v L Lc (or_introl eq_refl)) as
        (q & c0 & fm0 & ws0 & w0 & I & _ & _ & _ & D & _).
      destruct R as (d & D' & N). rewrite D in D'. injection D' as <-. eauto.
    + unfold words_after in Lk. destruct (consulted [browser] (cx_env cx)) as [[name [[fm' ws']|]]|]; try discriminate.
      injection Lk as _ Lk. destruct ws'; [discriminate|]. injection Lk as <- _. now apply variable_rooted in R.
  - left. rewrite (apply_env_list _ _ _ Nd Ha) in Lk. unfold words_after in Lk.
    assert (Org : look_list BuildTarget c = Some (fm, ws) -> exists h, home = Some h /\ rootish h).
    { intros Lc. destruct (origin_list f ps c _ _ _ w L Lc I) as
        (q & c0 & fm0 & ws0 & w0 & Iq & _ & _ & _ & D & _).
      destruct R as (d & D' & N). rewrite D in D'. injection D' as <-. eauto. }
    destruct (consulted (list_variables BuildTarget) (cx_env cx)) as [[name [[fm' ws']|]]|]; auto.
    injection Lk as _ <-. apply in_map_iff in I as (a & <- & _). now apply variable_rooted in R.
  - right. exists c, de, fm, ws, w. auto 10.
Qed.

(** ** Absolute results *)
Lemma absolute_reads p : absolute p <-> exists l, PathSpec.reads_as p AtRoot l.
Proof.
  split.
  - intros (r & ->). exists (filter counts (split_on separator r)). exists ([] :: split_on separator r).
    split; [easy|]. split; [constructor; [easy|]; apply Forall_forall; intros w; apply split_on_free|].
    split; [|split; [reflexivity|]].
    + rewrite intercalate_cons by apply split_on_not_nil. now rewrite intercalate_split.
    + assert (N := split_on_not_nil separator r). now destruct (split_on separator r).
  - intros (l & ps & _ & _ & <- & _ & E).
    destruct ps as [|x [|y ps]]; [discriminate| |].
    + destruct x as [|c [|c' x]]; try discriminate; destruct c as [[] [] [] [] [] [] [] []]; discriminate.
    + destruct x as [|c [|c' x]]; [|destruct c as [[] [] [] [] [] [] [] []]; discriminate
                                   |destruct c as [[] [] [] [] [] [] [] []]; discriminate].
      rewrite intercalate_cons by easy. now exists (intercalate separator (y :: ps)).
Qed.
Lemma parent_absolute p q : absolute p -> parent_dir p q -> absolute q.
Proof.
  rewrite !absolute_reads. intros (l & R) (_ & _ & [(a & l' & n & R1 & R2)|[R1 _]]).
  - destruct (reads_as_unique _ _ _ _ _ R R1) as [<- _]. eauto.
  - destruct (reads_as_unique _ _ _ _ _ R R1) as [E _]. discriminate E.
Qed.
Lemma root_absolute cwd p r : absolute p -> root_of cwd (DefPath p) r -> absolute r.
Proof. intros A H. inversion H; subst. eauto using parent_absolute. Qed.
Lemma child_absolute d n : absolute d -> absolute (child d n).
Proof.
  intros (r & ->). unfold child. destruct (rev (separator :: r)) as [|c r']eqn:E.
  - apply (f_equal (@rev ascii)) in E. rewrite rev_involutive in E. discriminate E.
  - destruct (Ascii.eqb c separator); [now exists (r ++ n)|now exists (r ++ separator :: n)].
Qed.
Lemma path_absolute cwd v p :
  path_at cwd v p -> def v <> None -> (forall d r, def v = Some d -> root_of cwd d r -> absolute r) -> absolute p.
Proof.
  intros [[H|H]|d r D N R] Nn K; [contradiction|assumption|]. eauto using child_absolute.
Qed.

Lemma abs_ends l x : exists pre, abs (l ++ [x]) = pre ++ x.
Proof.
  unfold abs. destruct (l ++ [x]) eqn:E; [now destruct l|]. rewrite <- E. clear E.
  destruct l as [|y l]; [now exists [separator]|].
  assert (K := intercalate_snoc (y :: l) x ltac:(discriminate)). change slash with separator in K.
  exists (separator :: intercalate separator (y :: l) ++ [separator]). cbn [app]. f_equal.
  rewrite <- app_assoc. exact K.
Qed.
Lemma abs_child l m : Forall PathSpec.name_ok l -> child (abs l) m = abs (l ++ [m]).
Proof.
  intros F. destruct l as [|x l] using rev_ind; [reflexivity|]. clear IHl.
  assert (Nx : PathSpec.name_ok x) by (apply Forall_app in F as [_ F]; now inversion F).
  destruct (abs_ends l x) as (pre & E). unfold child.
  assert (R : exists c r, rev (abs (l ++ [x])) = c :: r /\ c <> separator).
  { rewrite E, rev_app_distr. destruct (rev x) as [|c r] eqn:Er.
    - apply (f_equal (@rev ascii)) in Er. rewrite rev_involutive in Er. now destruct Nx.
    - exists c, (r ++ rev pre). split; [reflexivity|]. intros ->. destruct Nx as (_ & _ & Nx). apply Nx.
      apply in_rev. rewrite Er. now left. }
  destruct R as (c & r & -> & Nc). rewrite (proj2 (Ascii.eqb_neq c separator) Nc).
  assert (K := intercalate_snoc (l ++ [x]) m ltac:(now destruct l)). change slash with separator in K.
  unfold abs. destruct (l ++ [x]) eqn:E1; [now destruct l|]. rewrite <- E1 in *.
  destruct ((l ++ [x]) ++ [m]) eqn:E2; [now destruct l|]. cbn [app]. f_equal. symmetry. exact K.
Qed.
Lemma root_abs cwd names n : Forall PathSpec.name_ok names -> PathSpec.name_ok n ->
  root_of cwd (DefPath (child (dot_cargo (abs names)) n)) (abs names).
Proof.
  intros F N. unfold dot_cargo. rewrite abs_child by assumption.
  assert (F1 : Forall PathSpec.name_ok (names ++ [B ".cargo"])) by (apply Forall_app; auto using ok_dot_cargo).
  rewrite abs_child by assumption.
  apply root_file with (abs (names ++ [B ".cargo"])); apply parent_iff, abs_parent; [|assumption].
  apply Forall_app; auto.
Qed.

(** ** What the resolved configuration says, from the files and the environment *)
Lemma from_unresolved_scalar c cx ec : one_value_each (cx_env cx) -> from_unresolved c cx = Ok ec ->
  let env := cx_env cx in let cwd := cx_current_dir cx in let b := ec_build ec in
  let after (k : scalar_key str) := scalar_after k env (look k c) in
  both (program_at cwd) (after BuildRustc) (eb_rustc b)
  /\ both (program_at cwd) (after BuildRustcWrapper) (eb_rustc_wrapper b)
  /\ both (program_at cwd) (after BuildRustcWorkspaceWrapper) (eb_rustc_workspace_wrapper b)
  /\ both (program_at cwd) (after BuildRustdoc) (eb_rustdoc b)
  /\ both (path_at cwd) (after BuildTargetDir) (eb_target_dir b)
  /\ both (path_at cwd) (after BuildDepInfoBasedir) (eb_dep_info_basedir b).
Proof.
  intros Nd H env cwd b after. destruct (from_unresolved_ok c cx ec H) as (de & Ha & Rb & _).
  assert (K : forall k, after k = look k de) by (intros k; symmetry; now apply apply_env_scalar).
  rewrite !K. destruct Rb. auto 10.
Qed.
Lemma from_unresolved_browser c cx ec : from_unresolved c cx = Ok ec ->
  both (command_at (cx_current_dir cx)) (program_after DocBrowser (cx_env cx) (look_program DocBrowser c))
    (option_map program_of (ed_browser (ec_doc ec))).
Proof.
  intros H. destruct (from_unresolved_ok c cx ec H) as (de & Ha & _ & Rd & _).
  rewrite <- (apply_env_program _ _ _ Ha DocBrowser). cbn.
  destruct (d_browser (c_doc de)), (ed_browser (ec_doc ec)); cbn in *; auto.
Qed.
Lemma from_unresolved_targets c cx ec : one_value_each (cx_env cx) -> from_unresolved c cx = Ok ec ->
  both (fun ws ts => Forall2 (target_at (cx_current_dir cx)) (snd ws) (map cli_target ts))
    (words_after (list_variables BuildTarget) (cx_env cx) (look_list BuildTarget c))
    (eb_target (ec_build ec)).
Proof.
  intros Nd H. destruct (from_unresolved_ok c cx ec H) as (de & Ha & Rb & _).
  rewrite <- (apply_env_list _ _ _ Nd Ha BuildTarget). assert (R := br_target _ _ _ Rb). cbn.
  assert (G : forall l ts, Forall2 (fun v t => triple_new (E := error) (val v) (def v) (Some (cx_current_dir cx)) = Ok t) l ts ->
              Forall2 (target_at (cx_current_dir cx)) l (map cli_target ts)).
  { induction 1; cbn; constructor; auto. now apply target_ok in H0. }
  destruct (b_target (c_build de)) as [[v|l]|], (eb_target (ec_build ec)) as [ts|]; cbn in *; auto.
Qed.
Lemma from_unresolved_env c cx ec n : from_unresolved c cx = Ok ec ->
  both (fun v x =>
          ee_relative x = false
          /\ ee_force x = match look (EnvVarForce n) c with Some f => val f | None => false end
          /\ (if match look (EnvVarRelative n) c with Some r => val r | None => false end
              then path_at (cx_current_dir cx) v (ee_value x) else ee_value x = val v))
    (look (EnvVarValue n) c) (bget n (ec_env ec)).
Proof.
  intros H. destruct (from_unresolved_ok c cx ec H) as (de & Ha & _ & _ & Re & _).
  specialize (Re n). rewrite (proj1 (apply_env_env _ _ _ Ha)) in Re. cbn. unfold under.
  destruct (bget n (c_env c)) as [e|], (bget n (ec_env ec)) as [x|]; cbn in *; auto.
  apply eenv_of_ok in Re as [R1 R2]. split; [assumption|].
  destruct e as [v|v f r]; [tauto|]. unfold is_true in R2. tauto.
Qed.

Lemma program_at_unique cwd v p p' : program_at cwd v p -> program_at cwd v p' -> p = p'.
Proof. intros H H'. apply (program_ok (E := error)) in H, H'. congruence. Qed.
Lemma path_at_unique cwd v p p' : path_at cwd v p -> path_at cwd v p' -> p = p'.
Proof. intros H H'. apply (path_ok (E := error)) in H, H'. congruence. Qed.
Lemma target_programs cwd t e : etarget_of cwd t = Ok e ->
  both (program_at cwd) (t_linker t) (et_linker e)
  /\ both (command_at cwd) (option_map program_words (t_runner t)) (option_map program_of (et_runner e))
  /\ et_rustflags e = option_map eflags_of (t_rustflags t)
  /\ et_rustdocflags e = option_map eflags_of (t_rustdocflags t).
Proof.
  unfold etarget_of. intros H. apply bind_okk in H as (l & H1 & H). apply bind_okk in H as (r & H2 & H).
  injection H as <-. cbn. split; [now apply opt_program_ok|]. split; [|auto].
  assert (K : both (fun p e => command_at cwd (program_words p) (program_of e)) (t_runner t) r).
  { revert H2. apply opt_traverse_ok. intros a a'. apply epa_of_ok. }
  destruct (t_runner t), r; cbn in *; auto.
Qed.
