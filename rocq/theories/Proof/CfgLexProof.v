(** The lexer of [cfg(...)] expressions. *)
From Verif.Model Require Import Base Str Error CfgExpr.
From Verif.Spec Require Import StrSpec CfgSpec.
From Verif.Proof Require Import StrFacts Utf8Proof.

Lemma ident_start_iff c : is_ident_start c = true <-> letter c.
Proof.
  unfold is_ident_start, is_lower, is_upper, letter.
  rewrite !orb_true_iff, !in_range_iff, Ascii.eqb_eq.
  assert (c = "_"%char <-> nb c = 95%N).
  { split; [now intros ->|]. intros E. apply nb_inj. now rewrite E. }
  intuition lia.
Qed.
Lemma ident_rest_iff c : is_ident_rest c = true <-> letter c \/ digit c.
Proof.
  unfold is_ident_rest, is_digit, digit. now rewrite orb_true_iff, ident_start_iff, in_range_iff.
Qed.
Lemma ident_rest_false c : is_ident_rest c = false <-> ~ (letter c \/ digit c).
Proof. rewrite <- ident_rest_iff. destruct (is_ident_rest c); intuition congruence. Qed.

Lemma letter_ascii c : letter c -> (nb c < 128)%N.
Proof. unfold letter. lia. Qed.
Lemma ident_ascii c : letter c \/ digit c -> (nb c < 128)%N.
Proof. unfold letter, digit. lia. Qed.

Lemma find_byte_some f s n :
  find_byte f s = Some n <->
  exists a c b, s = a ++ c :: b /\ n = length a /\ f c = true /\ Forall (fun x => f x = false) a.
Proof.
  revert n. induction s as [|x s IH]; intros n; cbn [find_byte].
  - split; [easy|]. intros (a & c & b & E & _). now destruct a.
  - destruct (f x) eqn:F.
    + split.
      * intros [= <-]. exists [], x, s. repeat split; auto.
      * intros (a & c & b & E & -> & Fc & Fa). destruct a as [|y a]; [reflexivity|].
        injection E as <- _. inversion Fa; congruence.
    + destruct (find_byte f s) as [m|] eqn:E; cbn [option_map].
      * split.
        -- intros [= <-]. destruct (proj1 (IH m) eq_refl) as (a & c & b & -> & -> & Fc & Fa).
           exists (x :: a), c, b. repeat split; auto.
        -- intros (a & c & b & Es & -> & Fc & Fa). destruct a as [|y a]; injection Es as <- Es.
           ++ congruence.
           ++ inversion Fa; subst. assert (Some m = Some (length a)) as [= ->]; [|reflexivity].
              apply IH. exists a, c, b. auto.
      * split; [easy|]. intros (a & c & b & Es & -> & Fc & Fa).
        destruct a as [|y a]; injection Es as <- Es; [congruence|]. inversion Fa; subst.
        exfalso. assert (None = Some (length a)) as [=]. apply IH. exists a, c, b. auto.
Qed.
Lemma find_byte_none f s : find_byte f s = None <-> Forall (fun x => f x = false) s.
Proof.
  induction s as [|x s IH]; cbn [find_byte].
  - split; auto.
  - destruct (f x) eqn:F.
    + split; [easy|]. inversion 1; congruence.
    + destruct (find_byte f s); cbn.
      * split; [easy|]. inversion 1; subst. apply IH in H3. easy.
      * split; auto. intros _. constructor; auto. now apply IH.
Qed.

Lemma find_byte_app f a c b :
  f c = true -> Forall (fun x => f x = false) a -> find_byte f (a ++ c :: b) = Some (length a).
Proof. intros. apply find_byte_some. exists a, c, b. auto. Qed.

(** ** One token *)

Lemma spelled_len t w : spelled t w -> token_len t = length w.
Proof.
  intros [w' I _ _ _|v _| | | | | | |]; cbn [token_len]; try reflexivity.
  cbn [length]. rewrite app_length. cbn. lia.
Qed.

Definition starts_token (c : ascii) : Prop :=
  letter c \/ c = "="%char \/ c = "("%char \/ c = ")"%char \/ c = ","%char \/ c = quote.

Lemma spelled_head t w : spelled t w -> exists c r, w = c :: r /\ starts_token c.
Proof.
  unfold starts_token.
  intros [w' (c & r & -> & L & _) _ _ _|v _| | | | | | |]; eauto 12;
    eexists _, _; (split; [reflexivity|]); auto 8; left; unfold letter; cbn; lia.
Qed.

Lemma starts_ascii c : starts_token c -> (nb c < 128)%N.
Proof.
  intros [L|[->|[->|[->|[->| ->]]]]]; try reflexivity. now apply letter_ascii.
Qed.

Lemma starts_no_ws c r : starts_token c -> no_leading_ws (c :: r).
Proof.
  intros St x s W E. destruct x as [|y x].
  { apply white_space_shape in W. destruct W as [(?&?&?)|[(?&?&?&?)|(?&?&?&?&?)]]; easy. }
  injection E as <- _. apply (ws_first_head _ c x) in W; [|reflexivity].
  destruct St as [L|[->|[->|[->|[->| ->]]]]]; try discriminate.
  unfold ws_first, white_space in W. cbn [map bytes existsb] in W.
  rewrite !orb_true_iff, !Ascii.eqb_eq in W. unfold letter in L.
  repeat destruct W as [W|W]; try discriminate W; rewrite W in L; cbn in L; lia.
Qed.

Lemma spelled_valid t w rest :
  spelled t w -> utf8_valid (w ++ rest) = true -> utf8_valid rest = true.
Proof.
  intros Sp V. assert (K : forall w, Forall (fun a => nb a < 128)%N w ->
                       utf8_valid (w ++ rest) = true -> utf8_valid rest = true).
  { intros w0 F. now rewrite valid_ascii_app. }
  destruct Sp as [w' (c & r & -> & L & F) _ _ _|v _| | | | | | |];
    try (now apply (K _) in V; [|repeat constructor]).
  - apply (K _) in V; [assumption|]. constructor; [now apply letter_ascii|].
    eapply Forall_impl; [|exact F]. apply ident_ascii.
  - cbn [app] in V. rewrite valid_ascii in V by reflexivity. rewrite <- app_assoc in V. cbn [app] in V.
    exact (proj2 (valid_app_ascii v quote rest eq_refl V)).
Qed.

Lemma slice_from_1 c s : (nb c < 128)%N -> utf8_valid (c :: s) = true -> slice_from (c :: s) 1 = Some s.
Proof.
  intros L V. rewrite valid_ascii in V by assumption. unfold slice_from.
  rewrite <- (app_nil_r s) at 1. apply (slice_app [c] s []); cbn; auto. now rewrite app_nil_r.
Qed.

Lemma not_starts c : ~ starts_token c ->
  Ascii.eqb c "=" = false /\ Ascii.eqb c "(" = false /\ Ascii.eqb c ")" = false /\
  Ascii.eqb c "," = false /\ Ascii.eqb c dquote = false /\ is_ident_start c = false.
Proof.
  unfold starts_token. intros N.
  repeat split; try (apply Ascii.eqb_neq; intros ->; apply N; unfold quote; tauto).
  destruct (is_ident_start c) eqn:E; [|reflexivity]. apply ident_start_iff in E. tauto.
Qed.

Lemma letter_not c : letter c ->
  Ascii.eqb c "=" = false /\ Ascii.eqb c "(" = false /\ Ascii.eqb c ")" = false /\
  Ascii.eqb c "," = false /\ Ascii.eqb c dquote = false.
Proof.
  unfold letter. intros L. repeat split; apply Ascii.eqb_neq; intros ->; cbn in L; lia.
Qed.

Definition word_token (w : str) : token :=
  if str_eqb w (B "all") then TAll
  else if str_eqb w (B "any") then TAny
  else if str_eqb w (B "not") then TNot
  else TKey w.

Lemma word_token_spelled w : identifier w -> spelled (word_token w) w /\ is_word (word_token w).
Proof.
  intros I. unfold word_token.
  destruct (str_eqb w (B "all")) eqn:E1; [apply str_eqb_eq in E1; subst; split; [constructor|easy]|].
  destruct (str_eqb w (B "any")) eqn:E2; [apply str_eqb_eq in E2; subst; split; [constructor|easy]|].
  destruct (str_eqb w (B "not")) eqn:E3; [apply str_eqb_eq in E3; subst; split; [constructor|easy]|].
  apply str_eqb_neq in E1, E2, E3. split; [now constructor|easy].
Qed.

Lemma word_token_of t w : spelled t w -> is_word t -> identifier w /\ word_token w = t.
Proof.
  assert (Id : forall a b c, letter a -> letter b -> letter c -> identifier [a; b; c]).
  { intros a b c La Lb Lc. exists a, [b; c]. repeat split; auto. }
  intros [w' I N1 N2 N3|v _| | | | | | |] W; try destruct W.
  - split; [assumption|]. unfold word_token. apply str_eqb_neq in N1, N2, N3.
    now rewrite N1, N2, N3.
  - split; [apply Id; unfold letter; cbn; lia|reflexivity].
  - split; [apply Id; unfold letter; cbn; lia|reflexivity].
  - split; [apply Id; unfold letter; cbn; lia|reflexivity].
Qed.

Lemma identifier_ascii w : identifier w -> Forall (fun a => nb a < 128)%N w.
Proof.
  intros (c & r & -> & L & F). constructor; [now apply letter_ascii|].
  eapply Forall_impl; [|exact F]. apply ident_ascii.
Qed.

Lemma lex_word original c r rest o :
  letter c -> Forall (fun c => letter c \/ digit c) r -> ~ word_goes_on rest ->
  utf8_valid ((c :: r) ++ rest) = true ->
  lex_token original ((c :: r) ++ rest) o c = Ok (word_token (c :: r)).
Proof.
  intros L F M V. unfold lex_token. destruct (letter_not c L) as (E1 & E2 & E3 & E4 & E5).
  rewrite E1, E2, E3, E4, E5. rewrite (proj2 (ident_start_iff c) L).
  cbn [app] in *. rewrite slice_from_1 by (try assumption; now apply letter_ascii). cbn [or_slice bind].
  assert (Fr : Forall (fun x => negb (is_ident_rest x) = false) r).
  { eapply Forall_impl; [|exact F]. intros x H. apply ident_rest_iff in H. now rewrite H. }
  destruct rest as [|d rest].
  - rewrite app_nil_r, (proj2 (find_byte_none _ r) Fr). cbn [bind]. reflexivity.
  - rewrite find_byte_app; [|apply negb_true_iff, ident_rest_false; intros H; apply M; exists d, rest; auto|assumption].
    rewrite (slice_app [] (c :: r) (d :: rest)); cbn [length or_slice bind]; try lia.
    + reflexivity.
    + assumption.
    + rewrite <- V. symmetry. apply (valid_ascii_app (c :: r) (d :: rest)).
      apply identifier_ascii. exists c, r. auto.
Qed.

Lemma lex_value original v rest o :
  ~ In quote v -> utf8_valid ((quote :: v ++ [quote]) ++ rest) = true ->
  lex_token original ((quote :: v ++ [quote]) ++ rest) o quote = Ok (TValue v).
Proof.
  intros N V. unfold lex_token. cbn [app] in *. rewrite <- app_assoc in *. cbn [app] in *.
  change (Ascii.eqb quote "=") with false. change (Ascii.eqb quote "(") with false.
  change (Ascii.eqb quote ")") with false. change (Ascii.eqb quote ",") with false.
  change (Ascii.eqb quote dquote) with true. cbn iota.
  rewrite slice_from_1 by (try assumption; reflexivity). cbn [or_slice bind].
  rewrite find_byte_app; [|reflexivity|].
  - assert (V2 := V). rewrite valid_ascii in V2 by reflexivity.
    rewrite (slice_app [quote] v (quote :: rest)); cbn [length or_slice bind]; try lia; auto.
    apply valid_app_ascii in V2 as [_ V2]; [|reflexivity]. now rewrite valid_ascii.
  - apply Forall_forall. intros x I. apply Ascii.eqb_neq. intros <-. now apply N.
Qed.

Lemma lex_token_spelled original t w rest o c r :
  spelled t w -> (is_word t -> ~ word_goes_on rest) -> utf8_valid (w ++ rest) = true ->
  w = c :: r -> lex_token original (w ++ rest) o c = Ok t.
Proof.
  intros Sp M V E.
  assert (K : is_word t -> lex_token original (w ++ rest) o c = Ok t).
  { intros W. destruct (word_token_of t w Sp W) as [(c' & r' & E' & L & F) <-].
    rewrite E in E'. injection E' as <- <-. subst w.
    apply lex_word; auto. }
  destruct Sp as [w' Hi N1 N2 N3|v Nv| | | | | | |]; try (apply K; exact I).
  - injection E as <- <-. now apply lex_value.
  - injection E as <- <-. reflexivity.
  - injection E as <- <-. reflexivity.
  - injection E as <- <-. reflexivity.
  - injection E as <- <-. reflexivity.
Qed.

(** What the lexer answers at a place where no token begins. *)
Definition stuck (original : str) (offset : nat) (e : parse_error) : Prop :=
  pe_original e = original /\
  (pe_span e = (offset, length original) \/ pe_span e = (offset, offset + 1)).

Lemma split_word s :
  exists r rest, s = r ++ rest /\ Forall (fun c => letter c \/ digit c) r /\ ~ word_goes_on rest.
Proof.
  induction s as [|c s IH].
  - exists [], []. repeat split; auto. now intros (c & r & E & _).
  - destruct (is_ident_rest c) eqn:E.
    + destruct IH as (r & rest & -> & F & N). apply ident_rest_iff in E.
      exists (c :: r), rest. repeat split; auto.
    + exists [], (c :: s). repeat split; auto. apply ident_rest_false in E.
      intros (x & y & [= -> ->] & H). auto.
Qed.

Lemma lex_token_cases original c s o :
  utf8_valid (c :: s) = true ->
  (exists t w rest, c :: s = w ++ rest /\ spelled t w /\ (is_word t -> ~ word_goes_on rest)) \/
  (exists e, lex_token original (c :: s) o c = Err e /\ stuck original o e).
Proof.
  intros V.
  destruct (Ascii.eqb c "=") eqn:E1.
  { apply Ascii.eqb_eq in E1 as ->. left. exists TEquals, (B "="), s. repeat split; [constructor|easy]. }
  destruct (Ascii.eqb c "(") eqn:E2.
  { apply Ascii.eqb_eq in E2 as ->. left. exists TOpen, (B "("), s. repeat split; [constructor|easy]. }
  destruct (Ascii.eqb c ")") eqn:E3.
  { apply Ascii.eqb_eq in E3 as ->. left. exists TClose, (B ")"), s. repeat split; [constructor|easy]. }
  destruct (Ascii.eqb c ",") eqn:E4.
  { apply Ascii.eqb_eq in E4 as ->. left. exists TComma, (B ","), s. repeat split; [constructor|easy]. }
  destruct (Ascii.eqb c dquote) eqn:E5.
  { apply Ascii.eqb_eq in E5 as ->. destruct (find_byte (Ascii.eqb dquote) s) as [n|] eqn:F.
    - left. apply find_byte_some in F as (v & q & rest & -> & _ & Q & Fv).
      apply Ascii.eqb_eq in Q as <-. exists (TValue v), (quote :: v ++ [quote]), rest.
      repeat split; [|constructor|easy].
      + cbn [app]. now rewrite <- app_assoc.
      + intros I. rewrite Forall_forall in Fv. apply Fv in I. now rewrite Ascii.eqb_refl in I.
    - right. unfold lex_token.
      change (Ascii.eqb dquote "=") with false. change (Ascii.eqb dquote "(") with false.
      change (Ascii.eqb dquote ")") with false. change (Ascii.eqb dquote ",") with false.
      change (Ascii.eqb dquote dquote) with true. cbn iota.
      rewrite slice_from_1 by (try assumption; reflexivity). cbn [or_slice bind]. rewrite F.
      eexists. split; [reflexivity|]. split; cbn; auto. }
  destruct (is_ident_start c) eqn:E6.
  { apply ident_start_iff in E6. left. destruct (split_word s) as (r & rest & -> & F & N).
    exists (word_token (c :: r)), (c :: r), rest. split; [reflexivity|]. split; [|auto].
    apply word_token_spelled. exists c, r. auto. }
  right. unfold lex_token. rewrite E1, E2, E3, E4, E5, E6. eexists. split; [reflexivity|].
  split; cbn; auto.
Qed.

(** ** The next token *)

Lemma slice_from_app a r : utf8_valid r = true -> slice_from (a ++ r) (length a) = Some r.
Proof.
  intros V. unfold slice_from. rewrite <- (app_nil_r r) at 1.
  apply (slice_app a r []); auto; [now rewrite app_length|now rewrite app_nil_r].
Qed.

Lemma trim_start_at b u : blank b -> no_leading_ws u -> trim_start (b ++ u) = u.
Proof. intros Hb Hu. rewrite trim_start_blank by assumption. now apply trim_start_id. Qed.

Lemma nil_no_ws : no_leading_ws [].
Proof.
  intros c r W E. apply white_space_shape in W.
  destruct W as [(?&->&_)|[(?&?&->&_)|(?&?&?&->&_)]]; easy.
Qed.

Lemma lex_next_blank original b o : blank b -> lex_next original b o = Ok None.
Proof.
  intros Hb. unfold lex_next.
  assert (E := trim_start_at b [] Hb nil_no_ws). rewrite app_nil_r in E. rewrite E. cbn [length].
  rewrite Nat.sub_0_r. rewrite <- (app_nil_r b) at 1. rewrite slice_from_app by reflexivity. reflexivity.
Qed.

Lemma lex_next_token original b t w rest o :
  blank b -> spelled t w -> (is_word t -> ~ word_goes_on rest) ->
  utf8_valid (b ++ w ++ rest) = true ->
  lex_next original (b ++ w ++ rest) o =
  Ok (Some (t, (o + length b, o + length b + length w), rest, o + length b + length w)).
Proof.
  intros Hb Sp M V. rewrite valid_blank in V by assumption.
  destruct (spelled_head t w Sp) as (c & r & E & St).
  unfold lex_next. rewrite trim_start_at; [|assumption|subst w; now apply starts_no_ws].
  rewrite (app_length b). replace (length b + length (w ++ rest) - length (w ++ rest)) with (length b) by lia.
  rewrite slice_from_app by assumption. cbn [or_slice bind].
  assert (T := lex_token_spelled original t w rest (o + length b) c r Sp M V E).
  assert (Hl := spelled_len t w Sp). assert (Vr := spelled_valid t w rest Sp V).
  subst w. cbn [app] in *. rewrite T. cbn [bind].
  rewrite Hl. change (c :: r ++ rest) with ((c :: r) ++ rest). rewrite slice_from_app by assumption.
  reflexivity.
Qed.

Lemma lex_next_stuck original inner o :
  utf8_valid inner = true ->
  blank inner \/
  (exists b t w rest, inner = b ++ w ++ rest /\ blank b /\ spelled t w /\
     (is_word t -> ~ word_goes_on rest)) \/
  (exists b e, blank b /\ length b < length inner /\ lex_next original inner o = Err e /\
     stuck original (o + length b) e).
Proof.
  intros V. destruct (trim_start_spec inner) as (b & E & Hb & Hn).
  destruct (trim_start inner) as [|c s] eqn:T.
  { left. rewrite app_nil_r in E. now subst. }
  right. assert (V2 := V). rewrite E, valid_blank in V2 by assumption.
  destruct (lex_token_cases original c s (o + length b) V2) as [(t & w & rest & E2 & Sp & M)|(e & R & St)].
  - left. exists b, t, w, rest. rewrite <- E2. auto.
  - right. exists b, e. split; [assumption|]. split; [rewrite E, app_length; cbn; lia|]. split; [|assumption].
    unfold lex_next. rewrite T, E, app_length.
    replace (length b + length (c :: s) - length (c :: s)) with (length b) by lia.
    rewrite slice_from_app by assumption. cbn [or_slice bind]. now rewrite R.
Qed.

(** ** All tokens with their places *)

Inductive lexed : nat -> str -> list (token * span) -> Prop :=
| lexed_end o s : blank s -> lexed o s []
| lexed_token o b w rest t ts :
    blank b -> spelled t w -> (is_word t -> ~ word_goes_on rest) ->
    lexed (o + length b + length w) rest ts ->
    lexed o (b ++ w ++ rest) ((t, (o + length b, o + length b + length w)) :: ts).

Lemma lexed_lexes o s ts : lexed o s ts -> lexes s (map fst ts).
Proof. induction 1; cbn [map fst]; now constructor. Qed.

Lemma lexes_lexed s ts : lexes s ts -> forall o, exists sts, lexed o s sts /\ map fst sts = ts.
Proof.
  induction 1 as [s Hb|b w rest t ts Hb Sp M _ IH]; intros o.
  - exists []. split; [now constructor|reflexivity].
  - destruct (IH (o + length b + length w)) as (sts & L & <-).
    eexists (_ :: sts). split; [now constructor; eauto|reflexivity].
Qed.

(** The text under a token's span. *)
Definition in_place (original : str) (x : token * span) : Prop :=
  fst (snd x) <= snd (snd x) <= length original /\
  match fst x with
  | TKey k => slice original (fst (snd x)) (snd (snd x)) = Some k
  | TValue v => slice original (fst (snd x) + 1) (snd (snd x) - 1) = Some v
  | _ => True
  end.

Lemma lexed_in_place original pre s ts :
  original = pre ++ s -> utf8_valid s = true -> lexed (length pre) s ts ->
  Forall (in_place original) ts.
Proof.
  intros E V L. remember (length pre) as o eqn:Eo. revert pre E Eo V.
  induction L as [o s Hb|o b w rest t ts Hb Sp M L IH]; intros pre E Eo V; constructor.
  - rewrite valid_blank in V by assumption. assert (Vr := spelled_valid t w rest Sp V).
    unfold in_place. cbn [fst snd]. split; [subst; rewrite !app_length; lia|].
    destruct t; auto.
    + inversion Sp; subst. rewrite app_assoc. apply slice_app; auto; rewrite app_length; lia.
    + inversion Sp as [|v Nv| | | | | | |]; subst.
      assert (V2 := V). cbn [app] in V2. rewrite valid_ascii, <- app_assoc in V2 by reflexivity.
      replace (pre ++ b ++ (quote :: s ++ [quote]) ++ rest)
        with ((pre ++ b ++ [quote]) ++ s ++ [quote] ++ rest)
        by (rewrite <- !app_assoc; cbn [app]; now rewrite <- app_assoc).
      apply slice_app; cbn [length]; rewrite ?app_length; cbn [length]; try lia; [assumption|].
      cbn [app]. now rewrite valid_ascii.
  - apply (IH ((pre ++ b) ++ w)).
    + subst. now rewrite <- !app_assoc.
    + subst. rewrite !app_length. lia.
    + rewrite valid_blank in V by assumption. exact (spelled_valid t w rest Sp V).
Qed.

Lemma lexed_bound o s ts : lexed o s ts -> Forall (fun x => o <= fst (snd x) /\ snd (snd x) <= o + length s) ts.
Proof.
  induction 1 as [o s Hb|o b w rest t ts Hb Sp M L IH]; constructor; cbn [fst snd].
  - rewrite !app_length. lia.
  - eapply Forall_impl; [|exact IH]. cbn beta. intros [? [? ?]]; cbn [fst snd]. rewrite !app_length. lia.
Qed.

