(** UTF-8 validity and slicing. *)
From Verif.Model Require Import Base Str.
From Verif.Spec Require Import StrSpec Utf8Spec.
From Verif.Proof Require Import StrFacts.

Lemma nb_lt c : (nb c < 256)%N.
Proof. apply N_ascii_bounded. Qed.
Lemma nb_of n : (n < 256)%N -> nb (ascii_of_N n) = n.
Proof. apply N_ascii_embedding. Qed.
Lemma of_nb c : ascii_of_N (nb c) = c.
Proof. apply ascii_N_embedding. Qed.

Lemma byte_is c n : (nb c = n)%N -> ascii_of_N n = c.
Proof. intros <-. apply of_nb. Qed.

(** The encoding of one character, by byte ranges. *)
Inductive char_shape : str -> Prop :=
| cs1 a : (nb a < 128)%N -> char_shape [a]
| cs2 a b : in_range 194 223 (nb a) = true -> cont b = true -> char_shape [a; b]
| cs3 a b c : in_range 224 239 (nb a) = true -> second3 a b = true -> cont c = true ->
    char_shape [a; b; c]
| cs4 a b c d : in_range 240 244 (nb a) = true -> second4 a b = true -> cont c = true ->
    cont d = true -> char_shape [a; b; c; d].

Lemma range_false lo hi n : in_range lo hi n = false <-> ~ (lo <= n <= hi)%N.
Proof. rewrite <- in_range_iff. destruct (in_range lo hi n); intuition congruence. Qed.

Lemma cont_iff c : cont c = true <-> (128 <= nb c <= 191)%N.
Proof. apply in_range_iff. Qed.

Lemma second3_iff a b :
  second3 a b = true <->
  (128 <= nb b <= 191 /\ (nb a = 224 -> 160 <= nb b) /\ (nb a = 237 -> nb b <= 159))%N.
Proof.
  unfold second3, cont.
  destruct (N.eqb_spec (nb a) 224); [|destruct (N.eqb_spec (nb a) 237)]; rewrite in_range_iff; lia.
Qed.
Lemma second4_iff a b :
  second4 a b = true <->
  (128 <= nb b <= 191 /\ (nb a = 240 -> 144 <= nb b) /\ (nb a = 244 -> nb b <= 143))%N.
Proof.
  unfold second4, cont.
  destruct (N.eqb_spec (nb a) 240); [|destruct (N.eqb_spec (nb a) 244)]; rewrite in_range_iff; lia.
Qed.

Lemma encodes_shape c : (exists n, encodes n c) <-> char_shape c.
Proof.
  split.
  - intros [n [m L|m a b L E Lb|m a b d L S E Lb Ld|m a b d e L E Lb Ld Le]]; cbn [bytes map].
    + apply cs1. rewrite nb_of by lia. assumption.
    + apply cs2; [apply in_range_iff|apply cont_iff]; rewrite nb_of by lia; lia.
    + apply cs3; [apply in_range_iff|apply second3_iff|apply cont_iff]; rewrite !nb_of by lia; lia.
    + apply cs4; [apply in_range_iff|apply second4_iff|apply cont_iff|apply cont_iff];
        rewrite !nb_of by lia; lia.
  - intros [a L|a b A Bb|a b d A Bb D|a b d e A Bb D E'];
      rewrite ?in_range_iff, ?cont_iff, ?second3_iff, ?second4_iff in *.
    + exists (nb a). rewrite <- (of_nb a) at 2. now apply (encodes1 (nb a)).
    + exists (64 * (nb a - 192) + (nb b - 128))%N.
      replace [a; b] with (bytes [192 + (nb a - 192); 128 + (nb b - 128)]%N).
      * apply encodes2; lia.
      * cbn [bytes map]. repeat f_equal; apply byte_is; lia.
    + exists (4096 * (nb a - 224) + 64 * (nb b - 128) + (nb d - 128))%N.
      replace [a; b; d] with (bytes [224 + (nb a - 224); 128 + (nb b - 128); 128 + (nb d - 128)]%N).
      * apply encodes3; lia.
      * cbn [bytes map]. repeat f_equal; apply byte_is; lia.
    + exists (262144 * (nb a - 240) + 4096 * (nb b - 128) + 64 * (nb d - 128) + (nb e - 128))%N.
      replace [a; b; d; e] with
        (bytes [240 + (nb a - 240); 128 + (nb b - 128); 128 + (nb d - 128); 128 + (nb e - 128)]%N).
      * apply encodes4; lia.
      * cbn [bytes map]. repeat f_equal; apply byte_is; lia.
Qed.

Lemma valid_char c s : char_shape c -> utf8_valid (c ++ s) = utf8_valid s.
Proof.
  intros [a L|a b A Bb|a b d A Bb D|a b d e A Bb D E]; cbn [app utf8_valid].
  - apply N.ltb_lt in L. now rewrite L.
  - apply in_range_iff in A as A'.
    replace (nb a <? 128)%N with false by (symmetry; apply N.ltb_ge; lia).
    now rewrite A, Bb.
  - apply in_range_iff in A as A'.
    replace (nb a <? 128)%N with false by (symmetry; apply N.ltb_ge; lia).
    replace (in_range 194 223 (nb a)) with false by (symmetry; apply range_false; lia).
    now rewrite A, Bb, D.
  - apply in_range_iff in A as A'.
    replace (nb a <? 128)%N with false by (symmetry; apply N.ltb_ge; lia).
    replace (in_range 194 223 (nb a)) with false by (symmetry; apply range_false; lia).
    replace (in_range 224 239 (nb a)) with false by (symmetry; apply range_false; lia).
    now rewrite A, Bb, D, E.
Qed.

Lemma valid_inv s :
  utf8_valid s = true -> s = [] \/ exists c r, char_shape c /\ s = c ++ r /\ utf8_valid r = true.
Proof.
  destruct s as [|a t1]; [auto|]. intros H. right. cbn [utf8_valid] in H.
  destruct (N.ltb_spec (nb a) 128).
  { exists [a], t1. repeat split; [now apply cs1|assumption]. }
  destruct (in_range 194 223 (nb a)) eqn:E2.
  { destruct t1 as [|b t2]; [easy|]. apply andb_true_iff in H as [H1 H2].
    exists [a; b], t2. repeat split; [now apply cs2|assumption]. }
  destruct (in_range 224 239 (nb a)) eqn:E3.
  { destruct t1 as [|b [|c t3]]; try easy. apply andb_true_iff in H as [H1 H2].
    apply andb_true_iff in H1 as [H3 H1].
    exists [a; b; c], t3. repeat split; [now apply cs3|assumption]. }
  destruct (in_range 240 244 (nb a)) eqn:E4; [|easy].
  destruct t1 as [|b [|c [|d t4]]]; try easy. apply andb_true_iff in H as [H1 H2].
  apply andb_true_iff in H1 as [H3 H1]. apply andb_true_iff in H3 as [H4 H3].
  exists [a; b; c; d], t4. repeat split; [now apply cs4|assumption].
Qed.

Lemma shape_not_nil c : char_shape c -> c <> [].
Proof. now intros []. Qed.

Lemma valid_ind (P : str -> Prop) :
  P [] -> (forall c s, char_shape c -> utf8_valid s = true -> P s -> P (c ++ s)) ->
  forall s, utf8_valid s = true -> P s.
Proof.
  intros H0 H1 s. induction s as [s IH] using strong_len_ind. intros V.
  destruct (valid_inv s V) as [->|(c & r & Sh & -> & V')]; [assumption|].
  apply H1; try assumption. apply IH; [|assumption].
  apply shape_not_nil in Sh. destruct c; [easy|]. rewrite app_length. cbn. lia.
Qed.

Lemma utf8_valid_iff s : utf8_valid s = true <-> utf8 s.
Proof.
  split.
  - revert s. apply valid_ind; [constructor|]. intros c s Sh V U.
    apply encodes_shape in Sh as [n E]. econstructor; eassumption.
  - induction 1 as [|n c s E _ IH]; [reflexivity|].
    rewrite valid_char; [assumption|]. apply encodes_shape. eauto.
Qed.

(** ** Cutting at ASCII bytes and white space *)

Lemma valid_ascii a s : (nb a < 128)%N -> utf8_valid (a :: s) = utf8_valid s.
Proof. intros L. apply (valid_char [a] s). now apply cs1. Qed.

Lemma valid_ascii_app w s : Forall (fun a => nb a < 128)%N w -> utf8_valid (w ++ s) = utf8_valid s.
Proof. induction 1; cbn [app]; [reflexivity|]. now rewrite valid_ascii. Qed.

Lemma ws_shape c : In c white_space -> char_shape c.
Proof.
  intros H. assert (F : Forall char_shape white_space).
  { unfold white_space. cbn [map bytes].
    repeat (apply Forall_cons;
      [first [apply cs1; reflexivity | apply cs2; reflexivity | apply cs3; reflexivity]|]).
    apply Forall_nil. }
  rewrite Forall_forall in F. now apply F.
Qed.

Lemma valid_blank b s : blank b -> utf8_valid (b ++ s) = utf8_valid s.
Proof.
  induction 1 as [|c b W _ IH]; [reflexivity|]. rewrite <- app_assoc, valid_char, IH; [reflexivity|].
  now apply ws_shape.
Qed.

Lemma shape_tail c : char_shape c -> forall a r, c = a :: r -> Forall (fun x => 128 <= nb x)%N r.
Proof.
  intros [x L|x y A Bb|x y d A Bb D|x y d e A Bb D E] a r [= -> <-]; repeat constructor;
    rewrite ?cont_iff, ?second3_iff, ?second4_iff in *; lia.
Qed.

Lemma shape_head c : char_shape c -> forall a r, c = a :: r -> (128 <= nb a)%N -> exists x r', r = x :: r'.
Proof.
  intros [x L|x y A Bb|x y d A Bb D|x y d e A Bb D E] a r [= -> <-] La; eauto. lia.
Qed.

Lemma valid_app_ascii a s b :
  (nb s < 128)%N -> utf8_valid (a ++ s :: b) = true -> utf8_valid a = true /\ utf8_valid b = true.
Proof.
  intros L V. remember (a ++ s :: b) as t eqn:E. revert a E.
  revert t V. apply (valid_ind (fun t => forall a, t = a ++ s :: b ->
    utf8_valid a = true /\ utf8_valid b = true)).
  - intros a E. now destruct a.
  - intros c r Sh V IH a E. destruct c as [|x c]; [now apply shape_not_nil in Sh|].
    assert (T := shape_tail _ Sh x c eq_refl).
    destruct a as [|y a].
    + injection E as -> E. assert (c = []) as ->.
      { destruct c as [|z c]; [reflexivity|].
        destruct (N.ltb_spec (nb s) 128); [|lia].
        inversion Sh; subst; rewrite ?in_range_iff in *; lia. }
      cbn in E. subst. auto.
    + injection E as <- E.
      assert (exists a', a = c ++ a' /\ r = a' ++ s :: b) as (a' & -> & ->).
      { clear Sh V IH. revert a E. induction c as [|z c IHc]; intros a E.
        - exists a. auto.
        - inversion T; subst. destruct a as [|w a]; cbn in E; injection E as -> E; [lia|].
          destruct (IHc H2 a E) as (a' & -> & ->). exists a'. auto. }
      destruct (IH a' eq_refl) as [V1 V2]. split; [|assumption].
      change (x :: c ++ a') with ((x :: c) ++ a'). now rewrite valid_char.
Qed.

(** ** Slices *)

Lemma boundary_app a r : utf8_valid r = true -> is_char_boundary (a ++ r) (length a) = true.
Proof.
  intros V. unfold is_char_boundary. destruct (Nat.eqb_spec (length a) 0); [reflexivity|].
  rewrite nth_error_app2, Nat.sub_diag by lia. destruct r as [|x r]; cbn [nth_error].
  - rewrite app_nil_r. apply Nat.eqb_refl.
  - destruct (cont x) eqn:C; [|reflexivity]. apply cont_iff in C. cbn [utf8_valid] in V.
    destruct (N.ltb_spec (nb x) 128); [lia|].
    replace (in_range 194 223 (nb x)) with false in V by (symmetry; apply range_false; lia).
    replace (in_range 224 239 (nb x)) with false in V by (symmetry; apply range_false; lia).
    replace (in_range 240 244 (nb x)) with false in V by (symmetry; apply range_false; lia).
    discriminate.
Qed.

Lemma slice_app a m r i j :
  i = length a -> j = length a + length m ->
  utf8_valid (m ++ r) = true -> utf8_valid r = true -> slice (a ++ m ++ r) i j = Some m.
Proof.
  intros -> -> V V'. unfold slice.
  rewrite boundary_app by assumption.
  assert (Bd := boundary_app (a ++ m) r V'). rewrite <- app_assoc, app_length in Bd. rewrite Bd.
  replace (length a <=? length a + length m) with true by (symmetry; apply Nat.leb_le; lia).
  cbn [andb]. f_equal. rewrite skipn_app, skipn_all, Nat.sub_diag. cbn [skipn app].
  replace (length a + length m - length a) with (length m) by lia.
  rewrite firstn_app, firstn_all, Nat.sub_diag. cbn [firstn]. now rewrite app_nil_r.
Qed.

(** ** Lossy conversion *)
Lemma lossy_valid s : utf8_valid s = true -> lossy s = s.
Proof.
  induction s as [s IH] using strong_len_ind. destruct s as [|a t1]; [reflexivity|].
  cbn [utf8_valid lossy]. destruct (N.ltb (nb a) 128).
  { intros H. f_equal. apply IH; [cbn; lia|assumption]. }
  destruct (in_range 194 223 (nb a)).
  { destruct t1 as [|b t2]; [discriminate|]. destruct (cont b); [|discriminate].
    intros H. do 2 f_equal. apply IH; [cbn; lia|assumption]. }
  destruct (in_range 224 239 (nb a)).
  { destruct t1 as [|b [|c t3]]; try discriminate. destruct (second3 a b); [|discriminate].
    destruct (cont c); [|discriminate]. intros H. do 3 f_equal. apply IH; [cbn; lia|assumption]. }
  destruct (in_range 240 244 (nb a)); [|discriminate].
  destruct t1 as [|b [|c [|d t4]]]; try discriminate. destruct (second4 a b); [|discriminate].
  destruct (cont c); [|discriminate]. destruct (cont d); [|discriminate].
  intros H. do 4 f_equal. apply IH; [cbn; lia|assumption].
Qed.
