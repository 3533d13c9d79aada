(** Lemmas for C69. *)
From Verif.Model Require Import Base Str Path BMap Error Value De Serde Walk Load Get GetArgs.
From Verif.Spec Require Import StrSpec Utf8Spec GetArgsSpec.
From Verif.Proof Require Import StrFacts Utf8Proof LossyProof.

(** ** Characters *)
Lemma not_valid_short c : char_shape c -> forall k, 0 < k < length c -> utf8_valid (firstn k c) = false.
Proof.
  intros [a L|a b A Bb|a b d A Bb D|a b d e A Bb D E'] k K; cbn [length] in K; apply in_range_iff in A || lia.
  - assert (k = 1) as -> by lia. cbn [firstn utf8_valid].
    replace (nb a <? 128)%N with false by (symmetry; apply N.ltb_ge; lia).
    now replace (in_range 194 223 (nb a)) with true by (symmetry; apply in_range_iff; lia).
  - assert (k = 1 \/ k = 2) as [->| ->] by lia; cbn [firstn utf8_valid];
    replace (nb a <? 128)%N with false by (symmetry; apply N.ltb_ge; lia);
    replace (in_range 194 223 (nb a)) with false by (symmetry; apply range_false; lia);
    now replace (in_range 224 239 (nb a)) with true by (symmetry; apply in_range_iff; lia).
  - assert (k = 1 \/ k = 2 \/ k = 3) as [->|[->| ->]] by lia; cbn [firstn utf8_valid];
    replace (nb a <? 128)%N with false by (symmetry; apply N.ltb_ge; lia);
    replace (in_range 194 223 (nb a)) with false by (symmetry; apply range_false; lia);
    replace (in_range 224 239 (nb a)) with false by (symmetry; apply range_false; lia);
    now replace (in_range 240 244 (nb a)) with true by (symmetry; apply in_range_iff; lia).
Qed.
Lemma shape_length c : char_shape c -> 1 <= length c <= 4.
Proof. intros []; cbn; lia. Qed.

Definition cut_at (s : str) (n : nat) : bool := utf8_valid (firstn n s) && (n <=? length s).
Lemma cut_char c r : char_shape c -> cut_at (c ++ r) (length c) = true.
Proof.
  intros Sh. unfold cut_at. rewrite firstn_app, firstn_all, Nat.sub_diag, firstn_O, app_nil_r.
  apply andb_true_iff. split; [|apply Nat.leb_le; rewrite app_length; lia].
  rewrite <- (app_nil_r c). now rewrite valid_char.
Qed.
Lemma starts_dec s : starts_with_char s \/ ~ starts_with_char s.
Proof.
  destruct (find (cut_at s) [1; 2; 3; 4]) as [n|] eqn:F.
  - left. apply find_some in F as [I T]. apply andb_true_iff in T as [V Ln]. apply Nat.leb_le in Ln.
    destruct (valid_inv _ V) as [E|(c & x & Sh & E & _)].
    { destruct n; [cbn in I; lia|]. destruct s; [cbn in Ln; lia|discriminate E]. }
    apply encodes_shape in Sh as [m Sh]. exists m, c, (x ++ skipn n s). split; [exact Sh|].
    rewrite app_assoc, <- E. symmetry. apply firstn_skipn.
  - right. intros (n & c & r & E & ->). assert (Sh : char_shape c) by (apply encodes_shape; eauto).
    assert (L := shape_length c Sh). assert (I : In (length c) [1; 2; 3; 4]) by (cbn; lia).
    assert (K := find_none _ _ F _ I). now rewrite cut_char in K.
Qed.
Lemma first_char n c r : encodes n c -> first_codepoint (c ++ r) = (c, r).
Proof.
  intros H. assert (Sh : char_shape c) by (apply encodes_shape; eauto).
  assert (L := shape_length c Sh).
  assert (Y := cut_char c r Sh).
  assert (N : forall k, 0 < k < length c -> cut_at (c ++ r) k = false).
  { intros k K. unfold cut_at. rewrite firstn_app. replace (k - length c) with 0 by lia.
    rewrite firstn_O, app_nil_r, not_valid_short by assumption. reflexivity. }
  unfold first_codepoint. change (fun n => utf8_valid (firstn n (c ++ r)) && (n <=? length (c ++ r))) with (cut_at (c ++ r)).
  assert (F : find (cut_at (c ++ r)) [1; 2; 3; 4] = Some (length c)).
  { cbn [find]. assert (length c = 1 \/ length c = 2 \/ length c = 3 \/ length c = 4) as [E|[E|[E|E]]] by lia;
      rewrite E in *; rewrite ?Y, ?N by lia; rewrite ?Y, ?N by lia; rewrite ?Y; reflexivity. }
  rewrite F, firstn_app, firstn_all, skipn_app, skipn_all, Nat.sub_diag. cbn [firstn skipn app]. now rewrite app_nil_r.
Qed.
Lemma first_byte b r : ~ starts_with_char (b :: r) -> first_codepoint (b :: r) = (replacement_character, r).
Proof.
  intros H. unfold first_codepoint. destruct (find _ _) as [n|] eqn:F; [|reflexivity]. exfalso.
  apply find_some in F as [I T]. apply andb_true_iff in T as [V _].
  assert (n <> 0) by (cbn in I; lia). destruct n as [|n]; [lia|]. cbn [firstn] in V.
  destruct (valid_inv _ V) as [E|(c & x & Sh & E & _)]; [discriminate E|].
  apply encodes_shape in Sh as [m Sh]. apply H. exists m, c, (x ++ skipn n r). split; [exact Sh|].
  rewrite app_assoc, <- E. cbn. f_equal. symmetry. apply firstn_skipn.
Qed.

(** Repairing does not make ASCII. *)
Lemma ascii_repaired s t : repaired s t -> Forall (fun a => nb a < 128)%N t -> s = t.
Proof.
  induction 1 as [|n c s t E _ IH|p s t R _ IH]; intros A; [reflexivity| |].
  - apply Forall_app in A as [_ A]. now rewrite IH.
  - exfalso. cbn in A. inversion A as [|? ? L _]. vm_compute in L. discriminate L.
Qed.
Lemma lossy_is s t : Forall (fun a => nb a < 128)%N t -> lossy s = t <-> s = t.
Proof.
  intros A. split.
  - intros H. apply ascii_repaired; [now apply lossy_iff|exact A].
  - intros ->. apply lossy_valid. rewrite <- (app_nil_r t). now rewrite valid_ascii_app.
Qed.
Lemma lossy_eqb s t : Forall (fun a => nb a < 128)%N t -> str_eqb (lossy s) t = str_eqb s t.
Proof.
  intros A. destruct (str_eqb s t) eqn:E.
  - apply str_eqb_eq in E. apply str_eqb_eq. now apply lossy_is.
  - apply str_eqb_neq in E. apply str_eqb_neq. intros H. apply E. now apply lossy_is.
Qed.
Ltac ascii := repeat (constructor; [reflexivity|]); constructor.

(** ** Words *)
Definition long_next (name : str) (st : lex_state) (rest : list str) :=
  @inl (option (arg * parser)) (arg_error * parser) (Some (Long (lossy name), mkParser st (B "--" ++ lossy name) rest)).
Lemma next_long_alone name l rest : ~ In "="%char name -> name <> [] ->
  next_arg (mkParser LexNone l ((B "--" ++ name) :: rest)) = long_next name LexNone rest.
Proof.
  intros N E. unfold next_arg, next_word. cbn [lex source].
  destruct (str_eqb (B "--" ++ name) (B "--")) eqn:Q.
  { apply str_eqb_eq in Q. destruct name; [easy|discriminate Q]. }
  rewrite strip_prefix_app. apply split_once_none in N. rewrite N. reflexivity.
Qed.
Lemma next_long_value name v l rest : ~ In "="%char name ->
  next_arg (mkParser LexNone l ((B "--" ++ name ++ B "=" ++ v) :: rest)) = long_next name (PendingValue v) rest.
Proof.
  intros N. unfold next_arg, next_word. cbn [lex source].
  destruct (str_eqb (B "--" ++ name ++ B "=" ++ v) (B "--")) eqn:Q.
  { apply str_eqb_eq in Q. destruct name; discriminate Q. }
  rewrite strip_prefix_app. change (name ++ B "=" ++ v) with (name ++ "="%char :: v).
  rewrite split_once_app by exact N. reflexivity.
Qed.
Lemma next_long name w l rest : long_word name w -> exists st, next_arg (mkParser LexNone l (w :: rest)) = long_next name st rest.
Proof.
  intros [N E|v N]; eexists; [now apply next_long_alone|now apply next_long_value].
Qed.
Lemma next_short_word c w l rest : short_word c w -> exists p, next_arg (mkParser LexNone l (w :: rest)) = inl (Some (Short c, p)).
Proof.
  intros S. unfold next_arg, next_word. cbn [lex source last].
  assert (K : exists b r, w = "-"%char :: b :: r /\ b <> "-"%char /\ fst (first_codepoint (b :: r)) = c).
  { destruct S as [n r E D|b r N ->].
    - assert (F := first_char n c r E). assert (Sh : char_shape c) by (apply encodes_shape; eauto).
      destruct c as [|b c]; [now apply shape_not_nil in Sh|]. exists b, (c ++ r). split; [reflexivity|].
      split; [|cbn [app] in F; now rewrite F]. intros ->.
      inversion Sh as [? L|? ? A|? ? ? A|? ? ? ? A]; subst; [now apply D|..];
        apply in_range_iff in A; vm_compute in A; destruct A as [A _]; now apply A.
    - exists b, r. split; [reflexivity|]. rewrite first_byte by exact N. split; [|reflexivity].
      intros ->. apply N. exists 45%N, [ "-"%char ], r. split; [|reflexivity]. now apply (encodes1 45). }
  destruct K as (b & r & -> & D & F).
  destruct (str_eqb ("-"%char :: b :: r) (B "--")) eqn:Q; [apply str_eqb_eq in Q; injection Q as -> ->; easy|].
  cbn [strip_prefix B list_ascii_of_string].
  replace (Ascii.eqb "-" b) with false by (symmetry; apply Ascii.eqb_neq; congruence).
  rewrite !Ascii.eqb_refl. unfold next_short. cbn [is_empty negb]. rewrite andb_false_r.
  destruct (first_codepoint (b :: r)) as [x y]. cbn in F. subst x. eexists. reflexivity.
Qed.
Lemma next_plain w l rest : plain w -> next_arg (mkParser LexNone l (w :: rest)) = inl (Some (Value w, mkParser LexNone l rest)).
Proof.
  intros H. unfold next_arg, next_word. cbn [lex source last]. destruct H as [->|H]; [reflexivity|].
  destruct (str_eqb w (B "--")) eqn:Q; [apply str_eqb_eq in Q; subst w; exfalso; now apply (H (B "-"))|].
  destruct (strip_prefix (B "--") w) as [r|] eqn:E.
  { apply strip_prefix_some in E. exfalso. apply (H (B "-" ++ r)). exact E. }
  destruct (strip_prefix (B "-") w) as [r|] eqn:E'; [|reflexivity].
  apply strip_prefix_some in E'. exfalso. now apply (H r).
Qed.
Lemma word_kinds w : w = B "--" \/ plain w \/ (exists name, long_word name w) \/ (exists c, short_word c w).
Proof.
  destruct w as [|a w]; [right; left; right; discriminate|].
  destruct (Ascii.eqb_spec a "-") as [->|Na].
  2: { right. left. right. intros r E. injection E as -> _. now apply Na. }
  destruct w as [|b w]; [right; left; now left|].
  destruct (Ascii.eqb_spec b "-") as [->|Nb].
  - destruct (split_once "=" w) as [[n v]|] eqn:E.
    + apply split_once_some in E as [-> N]. right. right. left. exists n. now apply (long_value n v).
    + apply split_once_none in E. destruct w as [|x w]; [now left|]. right. right. left. exists (x :: w). now apply long_alone.
  - right. right. right. destruct (starts_dec (b :: w)) as [(n & c & r & E & Q)|N].
    + exists c. rewrite Q. apply (short_char c n r E). intros ->. injection Q as -> _. now apply Nb.
    + exists replacement_character. now apply (short_byte _ b w).
Qed.

(** ** Steps of the parser *)
Lemma format_word_iff v f : format_word v f <-> format_from_str v = Some f.
Proof.
  unfold format_from_str. split; [now intros []|].
  destruct (str_eqb v (B "toml")) eqn:E; [apply str_eqb_eq in E; subst v; intros [= <-]; constructor|].
  destruct (str_eqb v (B "json")) eqn:E'; [apply str_eqb_eq in E'; subst v; intros [= <-]; constructor|discriminate].
Qed.
Lemma merged_word_iff v m : merged_word v m <-> merged_from_str v = Some m.
Proof.
  unfold merged_from_str. split; [now intros []|].
  destruct (str_eqb v (B "yes")) eqn:E; [apply str_eqb_eq in E; subst v; intros [= <-]; constructor|].
  destruct (str_eqb v (B "no")) eqn:E'; [apply str_eqb_eq in E'; subst v; intros [= <-]; constructor|discriminate].
Qed.
Lemma format_utf8 v f : format_word v f -> to_str v = Some v.
Proof. now intros []. Qed.
Lemma merged_utf8 v m : merged_word v m -> to_str v = Some v.
Proof. now intros []. Qed.
Lemma utf8_to_str v : utf8 v -> to_str v = Some v.
Proof. intros H. apply utf8_valid_iff in H. unfold to_str. now rewrite H. Qed.
Lemma not_utf8_to_str v : ~ utf8 v -> to_str v = None.
Proof.
  intros H. unfold to_str. destruct (utf8_valid v) eqn:E; [|reflexivity]. apply utf8_valid_iff in E. easy.
Qed.

(** The option and its value. *)
Lemma next_option name v o l rest : ~ In "="%char name -> name <> [] -> option_words (B "--" ++ name) v o ->
  exists st ws, next_arg (mkParser LexNone l (o ++ rest)) = long_next name st ws
  /\ next_value (mkParser st (B "--" ++ lossy name) ws) = inl (v, mkParser LexNone (B "--" ++ lossy name) rest).
Proof.
  intros N E [|].
  - exists LexNone, (v :: rest). split; [now apply next_long_alone|reflexivity].
  - exists (PendingValue v), rest. split; [|reflexivity]. rewrite <- app_assoc. now apply (next_long_value name v).
Qed.
Definition opt_name (b : bool) : str := if b then B "format" else B "merged".
Lemma opt_name_ok b : ~ In "="%char (opt_name b) /\ opt_name b <> [].
Proof. split; destruct b; cbn; intuition discriminate. Qed.

Ltac unfold_step n :=
  destruct n as [|n]; [cbn [length] in *; lia|]; cbn [parse_args].

Lemma step_format n m v f o l rest : option_words (B "--format") v o -> format_word v f -> 0 < n ->
  exists l', parse_args n None m (mkParser LexNone l (o ++ rest)) = parse_args (pred n) (Some f) m (mkParser LexNone l' rest).
Proof.
  intros O W L. destruct (next_option (B "format") v o l rest ltac:(apply (opt_name_ok true)) ltac:(discriminate) O)
    as (st & ws & E & V).
  exists (B "--" ++ lossy (B "format")). destruct n as [|n]; [lia|]. cbn [parse_args pred]. rewrite E. unfold long_next.
  change (named "format" (Long (lossy (B "format"))) && is_none (@None format)) with true. cbn match.
  unfold parse_value. rewrite V, (format_utf8 v f W). apply format_word_iff in W. now rewrite W.
Qed.
Lemma step_merged n f v m o l rest : option_words (B "--merged") v o -> merged_word v m -> 0 < n ->
  exists l', parse_args n f None (mkParser LexNone l (o ++ rest)) = parse_args (pred n) f (Some m) (mkParser LexNone l' rest).
Proof.
  intros O W L. destruct (next_option (B "merged") v o l rest ltac:(apply (opt_name_ok false)) ltac:(discriminate) O)
    as (st & ws & E & V).
  exists (B "--" ++ lossy (B "merged")). destruct n as [|n]; [lia|]. cbn [parse_args pred]. rewrite E. unfold long_next.
  change (named "format" (Long (lossy (B "merged")))) with false.
  change (named "merged" (Long (lossy (B "merged"))) && is_none (@None bool)) with true. cbn [andb]. cbn match.
  unfold parse_value. rewrite V, (merged_utf8 v m W). apply merged_word_iff in W. now rewrite W.
Qed.
Lemma option_length name v o : option_words name v o -> 1 <= length o.
Proof. intros []; cbn; lia. Qed.

Lemma parse_accepted ws c : accepted ws c -> forall rest n, length (ws ++ rest) < n ->
  exists n' l, length rest < n'
  /\ parse_args n None None (mkParser LexNone [] (ws ++ rest))
     = parse_args n' (chosen_format c) (chosen_merged c) (mkParser LexNone l rest).
Proof.
  induction 1 as [|ws m v f o A IH W O|ws f v m o A IH W O]; intros rest n L.
  - exists n, []. split; [exact L|reflexivity].
  - rewrite <- app_assoc in *. destruct (IH (o ++ rest) n L) as (n' & l & Ln & ->). cbn [chosen_format chosen_merged].
    destruct (step_format n' m v f o l rest O W ltac:(lia)) as (l' & ->). exists (pred n'), l'.
    split; [|reflexivity]. rewrite app_length in Ln. assert (K := option_length _ _ _ O). lia.
  - rewrite <- app_assoc in *. destruct (IH (o ++ rest) n L) as (n' & l & Ln & ->). cbn [chosen_format chosen_merged].
    destruct (step_merged n' f v m o l rest O W ltac:(lia)) as (l' & ->). exists (pred n'), l'.
    split; [|reflexivity]. rewrite app_length in Ln. assert (K := option_length _ _ _ O). lia.
Qed.

(** ** Where it stops *)
Lemma named_long n name : Forall (fun a => nb a < 128)%N (B n) -> named n (Long (lossy name)) = str_eqb name (B n).
Proof. intros A. cbn. now apply lossy_eqb. Qed.
Lemma is_none_open {A} (o : option A) : is_none o = true <-> o = None.
Proof. now destruct o. Qed.

Lemma parse_stops c ws r : stops c ws r -> forall n l, length ws < n ->
  parse_args n (chosen_format c) (chosen_merged c) (mkParser LexNone l ws) = r.
Proof.
  destruct c as [f m]. cbn [chosen_format chosen_merged].
  intros S n l L. destruct n as [|n]; [lia|]. cbn [parse_args].
  destruct S as [| |v ws|w ws P|w ws H|w ws H|name O|name v o ws O W R U|name v o ws O W U|name shown w ws W O Nh Nv R|ch w ws W Nh Nv].
  - reflexivity.
  - reflexivity.
  - reflexivity.
  - rewrite (next_plain w l ws P). reflexivity.
  - destruct H as [H|H].
    + destruct (next_long _ w l ws H) as (st & ->). reflexivity.
    + destruct (next_short_word _ w l ws H) as (p & ->). reflexivity.
  - destruct H as [H|H].
    + destruct (next_long _ w l ws H) as (st & ->). reflexivity.
    + destruct (next_short_word _ w l ws H) as (p & ->). reflexivity.
  - inversion O as [E|E]; cbn in E; subst; reflexivity.
  - assert (K : name = B "format" \/ name = B "merged") by (destruct O; auto).
    assert (N1 : ~ In "="%char name /\ name <> []) by (destruct K as [->| ->]; [apply (opt_name_ok true)|apply (opt_name_ok false)]).
    destruct (next_option name v o l ws (proj1 N1) (proj2 N1) W) as (st & ws' & -> & V). unfold long_next.
    rewrite !named_long by ascii. inversion O as [E Q|E Q]; cbn in E; subst name f || subst name m.
    + change (str_eqb (B "format") (B "format") && is_none (@None format)) with true. cbn match.
      unfold parse_value. rewrite V, (utf8_to_str v U). destruct R as [[_ R]|[R _]]; [|discriminate R].
      destruct (format_from_str v) as [f|] eqn:F; [|reflexivity]. apply format_word_iff in F. now apply R in F.
    + change (str_eqb (B "merged") (B "format")) with false. cbn [andb].
      change (str_eqb (B "merged") (B "merged") && is_none (@None bool)) with true. cbn match.
      unfold parse_value. rewrite V, (utf8_to_str v U). destruct R as [[R _]|[_ R]]; [discriminate R|].
      destruct (merged_from_str v) as [m|] eqn:F; [|reflexivity]. apply merged_word_iff in F. now apply R in F.
  - assert (K : name = B "format" \/ name = B "merged") by (destruct O; auto).
    assert (N1 : ~ In "="%char name /\ name <> []) by (destruct K as [->| ->]; [apply (opt_name_ok true)|apply (opt_name_ok false)]).
    destruct (next_option name v o l ws (proj1 N1) (proj2 N1) W) as (st & ws' & -> & V). unfold long_next.
    rewrite !named_long by ascii. inversion O as [E Q|E Q]; cbn in E; subst name f || subst name m.
    + change (str_eqb (B "format") (B "format") && is_none (@None format)) with true. cbn match.
      unfold parse_value. now rewrite V, (not_utf8_to_str v U).
    + change (str_eqb (B "merged") (B "format")) with false. cbn [andb].
      change (str_eqb (B "merged") (B "merged") && is_none (@None bool)) with true. cbn match.
      unfold parse_value. now rewrite V, (not_utf8_to_str v U).
  - destruct (next_long name w l ws W) as (st & ->). unfold long_next. rewrite !named_long by ascii.
    assert (F : str_eqb name (B "format") && is_none f = false).
    { apply not_true_iff_false. intros H. apply andb_true_iff in H as [H1 H2]. apply str_eqb_eq in H1. apply is_none_open in H2.
      apply O. rewrite H1. constructor. exact H2. }
    assert (G : str_eqb name (B "merged") && is_none m = false).
    { apply not_true_iff_false. intros H. apply andb_true_iff in H as [H1 H2]. apply str_eqb_eq in H1. apply is_none_open in H2.
      apply O. rewrite H1. constructor. exact H2. }
    rewrite F, G. apply str_eqb_neq in Nh, Nv. rewrite Nh, Nv. cbn [short orb unexpected].
    apply lossy_iff in R. now rewrite R.
  - destruct (next_short_word ch w l ws W) as (p & ->). cbn [named andb short]. apply str_eqb_neq in Nh, Nv.
    now rewrite Nh, Nv.
Qed.

(** ** There is always a next step *)
Lemma format_dec v : (exists f, format_word v f) \/ forall f, ~ format_word v f.
Proof.
  destruct (format_from_str v) as [f|] eqn:E; [left; exists f; now apply format_word_iff|].
  right. intros f H. apply format_word_iff in H. congruence.
Qed.
Lemma merged_dec v : (exists m, merged_word v m) \/ forall m, ~ merged_word v m.
Proof.
  destruct (merged_from_str v) as [m|] eqn:E; [left; exists m; now apply merged_word_iff|].
  right. intros m H. apply merged_word_iff in H. congruence.
Qed.
Lemma utf8_dec v : utf8 v \/ ~ utf8 v.
Proof.
  destruct (utf8_valid v) eqn:E; [left; now apply utf8_valid_iff|]. right. intros H. apply utf8_valid_iff in H. congruence.
Qed.
Lemma open_dec c name : open_option c name \/ ~ open_option c name.
Proof.
  destruct c as [[f|] [m|]]; (destruct (str_eq_dec name (B "format")) as [->|N]; [|destruct (str_eq_dec name (B "merged")) as [->|N']]);
    (left; constructor; reflexivity) || (right; intros H; inversion H as [E Q|E Q]; cbn in E; (discriminate E || discriminate Q || congruence)).
Qed.
(** An open option with a value: taken, or the end. *)
Lemma option_next ws c name v o rest : accepted ws c -> open_option c name -> option_words (B "--" ++ name) v o ->
  (exists c', accepted (ws ++ o) c') \/ exists r, stops c (o ++ rest) r.
Proof.
  intros A O W. destruct (utf8_dec v) as [U|U]; [|right; eexists; now apply (stops_not_text c name v o rest)].
  destruct c as [f m]. inversion O as [E Q|E Q]; cbn in E; subst name.
  - subst f. destruct (format_dec v) as [[f F]|F].
    + left. eexists. now apply (accepted_format ws m v f o).
    + right. eexists. apply (stops_refused _ (B "format") v o rest); auto. now left.
  - subst m. destruct (merged_dec v) as [[m F]|F].
    + left. eexists. now apply (accepted_merged ws f v m o).
    + right. eexists. apply (stops_refused _ (B "merged") v o rest); auto. now right.
Qed.
Lemma full_stops c rest : (forall name, ~ open_option c name) -> exists r, stops c rest r.
Proof.
  intros O. destruct rest as [|w rest]; [eexists; apply stops_end|].
  destruct (word_kinds w) as [->|[P|[[name L]|[ch S]]]].
  - destruct rest as [|v rest]; eexists; [apply stops_dashes|apply stops_after_dashes].
  - eexists. now apply stops_plain.
  - destruct (str_eq_dec name (B "help")) as [->|Nh]; [eexists; apply stops_help; now left|].
    destruct (str_eq_dec name (B "version")) as [->|Nv]; [eexists; apply stops_version; now left|].
    eexists. apply (stops_long c name (lossy name) w rest); auto. apply lossy_repaired.
  - destruct (str_eq_dec ch (B "h")) as [->|Nh]; [eexists; apply stops_help; now right|].
    destruct (str_eq_dec ch (B "V")) as [->|Nv]; [eexists; apply stops_version; now right|].
    eexists. now apply (stops_short c ch w rest).
Qed.
Lemma goes_on ws c rest : accepted ws c ->
  (exists r, stops c rest r) \/ exists o rest' c', rest = o ++ rest' /\ 1 <= length o /\ accepted (ws ++ o) c'.
Proof.
  intros A. destruct rest as [|w rest]; [left; eexists; apply stops_end|].
  destruct (word_kinds w) as [->|[P|[[name L]|[ch S]]]].
  - left. destruct rest as [|v rest]; eexists; [apply stops_dashes|apply stops_after_dashes].
  - left. eexists. now apply stops_plain.
  - destruct (open_dec c name) as [O|O].
    + destruct L as [N E|v N].
      * destruct rest as [|v rest]; [left; eexists; now apply stops_missing|].
        destruct (option_next ws c name v [B "--" ++ name; v] rest A O (in_two _ _)) as [[c' A']|[r R]].
        -- right. exists [B "--" ++ name; v], rest, c'. repeat split; [cbn; lia|exact A'].
        -- left. exists r. exact R.
      * destruct (option_next ws c name v [(B "--" ++ name) ++ B "=" ++ v] rest A O (in_one _ _)) as [[c' A']|[r R]].
        -- right. exists [(B "--" ++ name) ++ B "=" ++ v], rest, c'. repeat split; [cbn; lia|exact A'].
        -- left. exists r. rewrite <- app_assoc in R. exact R.
    + left. destruct (str_eq_dec name (B "help")) as [->|Nh]; [eexists; apply stops_help; now left|].
      destruct (str_eq_dec name (B "version")) as [->|Nv]; [eexists; apply stops_version; now left|].
      eexists. apply (stops_long c name (lossy name) w rest); auto. apply lossy_repaired.
  - left. destruct (str_eq_dec ch (B "h")) as [->|Nh]; [eexists; apply stops_help; now right|].
    destruct (str_eq_dec ch (B "V")) as [->|Nv]; [eexists; apply stops_version; now right|].
    eexists. now apply (stops_short c ch w rest).
Qed.
Lemma reaches_end k : forall ws c rest, length rest <= k -> accepted ws c ->
  exists ws' c' rest' r, ws ++ rest = ws' ++ rest' /\ accepted ws' c' /\ stops c' rest' r.
Proof.
  induction k as [|k IH]; intros ws c rest L A; destruct (goes_on ws c rest A) as [[r R]|(o & rest' & c' & -> & Lo & A')].
  - now exists ws, c, rest, r.
  - rewrite app_length in L. lia.
  - now exists ws, c, rest, r.
  - rewrite app_assoc. apply (IH (ws ++ o) c' rest'); [rewrite app_length in L; lia|exact A'].
Qed.
Lemma parse_iff words r :
  parse words = r <-> exists ws c rest, words = ws ++ rest /\ accepted ws c /\ stops c rest r.
Proof.
  assert (K : forall ws c rest r, accepted ws c -> stops c rest r -> parse (ws ++ rest) = r).
  { intros ws c rest x A S. unfold parse.
    destruct (parse_accepted ws c A rest (Datatypes.S (length (ws ++ rest))) ltac:(lia)) as (n & l & Ln & ->).
    now apply parse_stops. }
  split.
  - intros <-. destruct (reaches_end (length words) [] _ words ltac:(lia) accepted_none) as (ws & c & rest & r & E & A & S).
    cbn in E. subst words. rewrite (K ws c rest r A S). now exists ws, c, rest.
  - intros (ws & c & rest & -> & A & S). now apply (K ws c).
Qed.
