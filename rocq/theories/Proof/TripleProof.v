(** Lemmas about target triples and spec paths. *)
From Verif.Model Require Import Base Str Path Error Value Triple.
From Verif.Spec Require Import StrSpec PathSpec TripleSpec.
From Verif.Proof Require Import StrFacts PathFacts Utf8Proof.

(** ** Last names *)

Lemma names_last ws :
  match drop_junk (rev ws) with
  | [] => names_of ws = []
  | w :: _ => exists l, names_of ws = l ++ [w]
  end.
Proof.
  assert (H := last_piece ws). destruct (drop_junk (rev ws)) as [|w r]; [assumption|].
  destruct H as (j1 & j2 & E & H1 & H2 & Hw & _). rewrite E. exists (names_of (rev (drop_junk r))).
  rewrite !names_of_app, (names_junk j1 H1), (names_junk j2 H2). cbn [names_of filter app].
  rewrite counts_junk, Hw. cbn. reflexivity.
Qed.

Lemma file_name_iff p n : file_name p = Some n <-> last_name p n.
Proof.
  unfold file_name, last_name. assert (H := names_last (snd (decompose p))).
  assert (D := reads_as_decompose p). split.
  - destruct (drop_junk _) as [|w r]; [discriminate|]. destruct H as (l & E).
    destruct (str_eqb w (B "..")) eqn:Ew; [discriminate|]. intros [= <-].
    split; [|now apply str_eqb_neq]. rewrite E in D. eauto.
  - intros ((a & l & R) & N). destruct (reads_as_unique _ _ _ _ _ D R) as [_ E].
    destruct (drop_junk _) as [|w r].
    + rewrite H in E. now destruct l.
    + destruct H as (l' & E'). rewrite E' in E. apply app_inj_tail in E as [_ ->].
      now rewrite (proj2 (str_eqb_neq n (B "..")) N).
Qed.

Lemma rsplit_dot_some w a e : rsplit_dot w = Some (a, e) <-> w = a ++ dot :: e /\ ~ In dot e.
Proof.
  unfold rsplit_dot. destruct (split_once "." (rev w)) as [[x y]|] eqn:E.
  - apply split_once_some in E as [E N]. apply (f_equal (@rev ascii)) in E.
    rewrite rev_involutive, rev_app_distr in E. cbn [rev] in E. rewrite <- app_assoc in E. cbn in E. split.
    + intros [= <- <-]. split; [assumption|]. intros I. apply in_rev in I. now apply N.
    + intros [E2 N2].
      assert (K : split_once "." (rev w) = Some (rev e, rev a)).
      { rewrite E2, rev_app_distr. cbn [rev]. rewrite <- app_assoc. cbn.
        apply split_once_app. intros I. apply in_rev in I. now apply N2. }
      rewrite E in K. rewrite rev_app_distr in K. cbn [rev] in K. rewrite <- app_assoc in K. cbn in K.
      rewrite !rev_involutive in K. rewrite split_once_app in K by assumption. now injection K as -> ->; rewrite !rev_involutive.
  - apply split_once_none in E. split; [discriminate|]. intros [-> _]. exfalso. apply E.
    rewrite rev_app_distr. cbn [rev]. rewrite in_app_iff. left. apply in_app_iff. right. now left.
Qed.
Lemma rsplit_dot_none w : rsplit_dot w = None <-> ~ In dot w.
Proof.
  unfold rsplit_dot. destruct (split_once "." (rev w)) as [[x y]|] eqn:E.
  - split; [discriminate|]. intros N. exfalso. apply N. apply split_once_some in E as [E _].
    apply in_rev. rewrite E. apply in_app_iff. right. now left.
  - apply split_once_none in E. split; [|reflexivity]. intros _ I. apply E. now apply -> in_rev.
Qed.

Definition stem (w : str) : str :=
  match rsplit_dot w with
  | None => w
  | Some (before, _) => if is_empty before then w else before
  end.
Lemma file_stem_name p : file_stem p = option_map stem (file_name p).
Proof.
  unfold file_stem, stem. destruct (file_name p) as [w|]; [|reflexivity]. cbn.
  destruct (rsplit_dot w) as [[a e]|]; [|reflexivity]. now destruct (is_empty a).
Qed.
Lemma stem_iff n st : stem n = st <-> stem_of n st.
Proof.
  unfold stem, stem_of. destruct (rsplit_dot n) as [[a e]|] eqn:E.
  - assert (E' := E). apply rsplit_dot_some in E' as [E1 N].
    assert (U : forall a' e', n = a' ++ dot :: e' -> ~ In dot e' -> a' = a).
    { intros a' e' E2 N2. assert (K := proj2 (rsplit_dot_some n a' e') (conj E2 N2)). congruence. }
    destruct (is_empty a) eqn:Ea.
    + apply is_empty_true in Ea. subst a. split.
      * intros <-. right. split; [reflexivity|]. intros a' e' E2 N2. now apply (U a' e').
      * intros [(e' & E2 & N2 & Ne)|[-> _]]; [|reflexivity]. now apply (U st e') in E2.
    + apply is_empty_false in Ea. split.
      * intros <-. left. eauto.
      * intros [(e' & E2 & N2 & Ne)|[-> H]]; [symmetry; now apply (U st e')|].
        now rewrite (H a e E1 N) in Ea.
  - apply rsplit_dot_none in E. split.
    + intros <-. right. split; [reflexivity|]. intros a e -> _. exfalso. apply E. apply in_app_iff. right. now left.
    + intros [(e & -> & _)|[-> _]]; [|reflexivity]. exfalso. apply E. apply in_app_iff. right. now left.
Qed.
Lemma file_stem_iff p st : file_stem p = Some st <-> exists n, last_name p n /\ stem_of n st.
Proof.
  rewrite file_stem_name. split.
  - destruct (file_name p) as [n|] eqn:E; [|discriminate]. cbn. intros [= <-]. exists n.
    split; [now apply file_name_iff|now apply stem_iff].
  - intros (n & H & S). apply file_name_iff in H as ->. apply stem_iff in S. cbn. now rewrite S.
Qed.

Lemma json_no_dot : ~ In dot (B "json").
Proof. cbn. intros H. repeat (destruct H as [H|H]; [discriminate H|]). exact H. Qed.
Lemma is_spec_path_iff s : is_spec_path s = true <-> spec_like s.
Proof.
  unfold is_spec_path, spec_like. rewrite !orb_true_iff, !contains_In, or_assoc.
  apply or_iff_compat_r. unfold extension. split.
  - destruct (file_name s) as [n|] eqn:E; [|discriminate]. apply file_name_iff in E.
    destruct (rsplit_dot n) as [[a e]|] eqn:R; [|discriminate].
    destruct (is_empty a) eqn:Ea; [discriminate|]. intros H. apply str_eqb_eq in H as ->.
    apply rsplit_dot_some in R as [-> _]. exists a. split; [assumption|now apply is_empty_false].
  - intros (st & H & N). apply file_name_iff in H as ->.
    assert (R : rsplit_dot (st ++ B ".json") = Some (st, B "json")).
    { apply rsplit_dot_some. split; [reflexivity|apply json_no_dot]. }
    rewrite R. rewrite (proj2 (is_empty_false st) N). reflexivity.
Qed.

(** ** Joining *)

Lemma reads_as_under base s a l a' l' :
  PathSpec.reads_as base a l -> PathSpec.reads_as s a' l' ->
  exists a'', PathSpec.reads_as (base ++ separator :: s) a'' (l ++ l').
Proof.
  intros (ps & N & F & <- & -> & _) (qs & N' & F' & <- & -> & _).
  eexists. exists (ps ++ qs). split; [now destruct ps|]. split; [apply Forall_app; auto|].
  split; [|split; [now rewrite filter_app|reflexivity]].
  clear F F' a a'. induction ps as [|p ps IH]; [easy|]. destruct ps as [|p' ps].
  - cbn [app]. rewrite intercalate_cons by assumption. reflexivity.
  - cbn [app] in *. rewrite (intercalate_cons _ p) by easy. rewrite IH by easy.
    rewrite (intercalate_cons _ p (p' :: ps)) by easy. rewrite <- app_assoc. reflexivity.
Qed.

Lemma last_name_join r s n : last_name s n -> last_name (join r s) n.
Proof.
  intros ((a & l & R) & N). split; [|assumption]. unfold join.
  destruct (is_absolute s); [eauto|]. destruct (is_empty r) eqn:Er; [eauto|].
  assert (K : forall base, exists a l, PathSpec.reads_as (base ++ separator :: s) a (l ++ [n])).
  { intros base. destruct (reads_as_under _ _ _ _ _ _ (reads_as_decompose base) R) as (a' & R').
    rewrite app_assoc in R'. eauto. }
  destruct (ends_with_slash r) eqn:Es; [|apply K].
  unfold ends_with_slash in Es. destruct (rev r) as [|c r'] eqn:E; [discriminate|].
  apply Ascii.eqb_eq in Es. subst c. apply (f_equal (@rev ascii)) in E. rewrite rev_involutive in E.
  cbn [rev] in E. rewrite E, <- app_assoc. apply K.
Qed.
Lemma file_name_join r s n : file_name s = Some n -> file_name (join r s) = Some n.
Proof. rewrite !file_name_iff. apply last_name_join. Qed.
Lemma file_stem_join r s st : file_stem s = Some st -> file_stem (join r s) = Some st.
Proof.
  rewrite !file_stem_name. destruct (file_name s) as [n|] eqn:E; [|discriminate].
  rewrite (file_name_join r s n E). auto.
Qed.
Lemma in_join c r s : In c s -> In c (join r s).
Proof.
  intros I. unfold join. destruct (is_absolute s); [assumption|]. destruct (is_empty r); [assumption|].
  destruct (ends_with_slash r); apply in_app_iff; right; [assumption|now right].
Qed.
Lemma spec_like_join r s : spec_like s -> spec_like (join r s).
Proof.
  intros [(st & H & N)|[H|H]].
  - left. exists st. split; [now apply last_name_join|assumption].
  - right. left. now apply in_join.
  - right. right. now apply in_join.
Qed.

(** ** Targets *)

Lemma triple_new_cases E s d cwd t : @triple_new E s d cwd = Ok t ->
  (~ spec_like s /\ t = mkTriple s None) \/
  (spec_like s /\ file_stem s = Some (tt_triple t) /\ utf8_valid (tt_triple t) = true /\
   exists p, tt_spec_path t = Some p /\
   (p = s \/ exists r, p = join r s)).
Proof.
  unfold triple_new. destruct (is_spec_path s) eqn:Es.
  - apply is_spec_path_iff in Es. intros H. right. split; [assumption|].
    destruct (file_stem s) as [st|]; [|discriminate]. unfold to_str in H.
    destruct (utf8_valid st) eqn:V; [|discriminate].
    destruct (resolve_spec_path s d cwd) as [sp|e|p] eqn:R; cbn [bind] in H; try discriminate.
    injection H as <-. cbn [tt_triple tt_spec_path]. split; [reflexivity|]. split; [assumption|].
    eexists. split; [reflexivity|]. destruct sp as [p|]; [|now left]. right.
    unfold resolve_spec_path in R. destruct d as [d|]; [|discriminate].
    destruct (def_root_opt d cwd) as [[r|]|e|q]; cbn [bind] in R; try discriminate.
    injection R as <-. eauto.
  - intros [= <-]. left. split; [|reflexivity]. intros H. apply is_spec_path_iff in H. congruence.
Qed.

Lemma made_cases t : made t ->
  (~ spec_like (cli_target t) /\ t = mkTriple (cli_target t) None) \/
  (spec_like (cli_target t) /\ file_stem (cli_target t) = Some (tt_triple t) /\
   t = mkTriple (tt_triple t) (Some (cli_target t))).
Proof.
  intros (s & d & cwd & H). apply triple_new_cases in H as [[N ->]|(S & F & _ & p & E & H)].
  - left. auto.
  - right. unfold cli_target. rewrite E. destruct t as [tr sp]. cbn in *. subst sp.
    destruct H as [->|(r & ->)]; [auto|]. auto using spec_like_join, file_stem_join.
Qed.

Lemma made_unique t t' : made t -> made t' -> cli_target t = cli_target t' -> t = t'.
Proof.
  intros H H' E. apply made_cases in H, H'. rewrite <- E in H'.
  destruct H as [[N ->]|(S & F & ->)], H' as [[N' ->]|(S' & F' & ->)]; try contradiction.
  - now rewrite E.
  - rewrite E. f_equal. congruence.
Qed.

(** Cutting a valid string at dots and slashes leaves valid strings. *)
Lemma valid_piece a c b : (nb c < 128)%N -> utf8_valid (a ++ c :: b) = true ->
  utf8_valid a = true /\ utf8_valid b = true.
Proof. exact (valid_app_ascii a c b). Qed.
Lemma valid_pieces c s w : (nb c < 128)%N -> utf8_valid s = true -> In w (split_on c s) -> utf8_valid w = true.
Proof.
  intros L V. rewrite <- (intercalate_split c s) in V. revert V.
  generalize (split_on c s) as l. induction l as [|x l IH]; [easy|]. intros V I.
  destruct l as [|y l]; [destruct I as [<-|[]]; assumption|].
  rewrite intercalate_cons in V by easy. apply valid_piece in V as [V1 V2]; [|assumption].
  destruct I as [<-|I]; auto.
Qed.
Lemma file_stem_valid s st : utf8_valid s = true -> file_stem s = Some st -> utf8_valid st = true.
Proof.
  intros V H. apply file_stem_iff in H as (n & ((a & l & (ps & Np & F & E & El & _)) & _) & S).
  assert (I : In n ps).
  { assert (In n (filter counts ps)) by (rewrite <- El; apply in_app_iff; right; now left).
    now apply filter_In in H. }
  assert (Vn : utf8_valid n = true).
  { apply (valid_pieces separator s); [cbn; lia|assumption|].
    rewrite <- E, split_intercalate; auto. }
  destruct S as [(e & -> & _)|[-> _]]; [|assumption].
  now apply (valid_piece st dot e) in Vn as [? _].
Qed.

Lemma triple_new_shape {E} s d cwd t : @triple_new E s d cwd = Ok t ->
  (~ spec_like s /\ tt_triple t = s /\ cli_target t = s /\ tt_spec_path t = None) \/
  (spec_like s /\ (exists n, last_name s n /\ stem_of n (tt_triple t)) /\ tt_spec_path t = Some (cli_target t)).
Proof.
  intros H. apply triple_new_cases in H as [[N ->]|(S & F & _ & p & Ep & _)].
  - left. auto.
  - right. split; [assumption|]. split; [now apply file_stem_iff|]. unfold cli_target. now rewrite Ep.
Qed.
Lemma triple_from_kept {E} s t : @triple_from E s = Ok t -> cli_target t = s.
Proof.
  unfold triple_from, triple_new. destruct (is_spec_path s); [|now intros [= <-]].
  destruct (file_stem s) as [st|]; [|discriminate]. destruct (to_str st); [|discriminate]. cbn. now intros [= <-].
Qed.
