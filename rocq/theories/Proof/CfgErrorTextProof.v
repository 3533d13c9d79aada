(** The texts of errors in [cfg(...)] expressions. *)
From Coq Require Import DecimalString DecimalNat Decimal.
From Verif.Model Require Import Base Str Error CfgExpr CfgError.
From Verif.Spec Require Import StrSpec Utf8Spec CfgSpec CfgErrorSpec.
From Verif.Proof Require Import StrFacts CfgErrorProof.

(** Neither a mark nor a line end. *)
Definition calm (c : ascii) : bool :=
  negb (Ascii.eqb c "^" || Ascii.eqb c "-" || Ascii.eqb c newline).

Lemma calm_neq c : calm c = true -> c <> "^"%char /\ c <> "-"%char /\ c <> newline.
Proof.
  intros H. repeat split; intros ->; discriminate.
Qed.

Lemma decimal_calm n : forallb calm (decimal n) = true.
Proof.
  unfold decimal, B. generalize (Nat.to_uint n). intros d.
  assert (H : forall d, forallb calm (list_ascii_of_string (NilEmpty.string_of_uint d)) = true).
  { clear. induction d; cbn [NilEmpty.string_of_uint list_ascii_of_string forallb]; [reflexivity|..]; rewrite IHd; reflexivity. }
  destruct d; cbn [NilZero.string_of_uint]; [reflexivity|..]; apply H.
Qed.

Lemma named_calm h t : named h t -> forallb calm (B h) = true.
Proof. now intros []. Qed.

Lemma quoted_cons x y l : quoted_list (x :: y :: l) = bt (B x) ++ B ", " ++ quoted_list (y :: l).
Proof. reflexivity. Qed.
Lemma quoted_calm l : Forall (fun h => forallb calm (B h) = true) l -> forallb calm (quoted_list l) = true.
Proof.
  induction 1 as [|x l Hx _ IH]; [reflexivity|]. destruct l as [|y l].
  - cbn [quoted_list]. unfold bt. rewrite !forallb_app, Hx. reflexivity.
  - rewrite quoted_cons, !forallb_app, IH. unfold bt. now rewrite !forallb_app, Hx.
Qed.

Lemma unexpected_calm l : Forall (fun h => forallb calm (B h) = true) l ->
  forallb calm (reason_text (Unexpected l)) = true.
Proof.
  intros F. cbn [reason_text]. assert (Q := quoted_calm l F). destruct l as [|x [|y l]]; [reflexivity| |].
  - cbn [quoted_list] in Q. now rewrite !forallb_app, Q.
  - rewrite !forallb_app, Q. reflexivity.
Qed.

Lemma hints_calm ts names : hints ts names -> Forall (fun h => forallb calm (B h) = true) names.
Proof.
  intros [H _]. apply Forall_forall. intros h Ih. destruct (H h Ih) as (t & N & _). now apply named_calm in N.
Qed.

Lemma explains_calm s sp r : explains s sp r -> forallb calm (reason_text r) = true.
Proof.
  intros []; try reflexivity.
  - apply unexpected_calm. now apply (hints_calm ts).
  - cbn [reason_text]. now rewrite forallb_app, decimal_calm.
Qed.

Lemma explains_span s sp r : explains s sp r -> fst sp <= snd sp <= length s.
Proof.
  intros []; subst; cbn [fst snd]; rewrite ?app_length in *; cbn [length] in *; rewrite ?app_length; cbn; try lia.
  destruct f; cbn; lia.
Qed.

Lemma unopened_one s sp : explains s sp UnopenedParens -> snd sp = fst sp + 1.
Proof. now inversion 1. Qed.

Lemma nth_repeat_app {A} (x : A) n l i :
  nth_error (repeat x n ++ l) i = if i <? n then Some x else nth_error l (i - n).
Proof.
  revert i. induction n as [|n IH]; intros i; cbn [repeat app].
  - cbn. now rewrite Nat.sub_0_r.
  - destruct i; cbn; [reflexivity|]. apply IH.
Qed.

Lemma calm_not_marked l i : forallb calm l = true -> ~ marked l i.
Proof.
  intros F [E|E]; apply nth_error_In in E; rewrite forallb_forall in F; apply F in E; discriminate.
Qed.

Lemma message pr text s e :
  utf8_valid text = true -> unwrapped text s -> parse_expr pr text = Err e ->
  explains s (pe_span e) (pe_reason e) /\
  exists second, parse_error_text e = s ++ newline :: second /\ ~ In newline second /\
    (forall i, marked second i <-> to_mark (pe_span e) (pe_reason e) i) /\
    exists before, second = before ++ B " " ++ reason_text (pe_reason e).
Proof.
  intros V U E. destruct (parse_explained pr text s e V U E) as [Eo Ex]. split; [assumption|].
  assert (C := explains_calm _ _ _ Ex). assert (Sp := explains_span _ _ _ Ex).
  assert (One : pe_reason e = UnopenedParens -> snd (pe_span e) = fst (pe_span e) + 1).
  { intros Er. rewrite Er in Ex. now apply unopened_one in Ex. }
  clear Ex E. destruct e as [o [a b] r]. cbn [pe_original pe_span pe_reason fst snd] in *. subst o.
  assert (K : forall m n, calm m = false -> m <> newline -> (m = "^"%char \/ m = "-"%char) ->
    let second := repeat " "%char a ++ repeat m n ++ B " " ++ reason_text r in
    ~ In newline second /\ (forall i, marked second i <-> a <= i < a + n) /\
    exists before, second = before ++ B " " ++ reason_text r).
  { intros m n Cm Nn Hm second. split; [|split].
    - unfold second. rewrite !in_app_iff. intros [I|[I|[I|I]]].
      + apply repeat_spec in I. discriminate.
      + apply repeat_spec in I. now apply Nn.
      + destruct I as [I|[]]. discriminate.
      + rewrite forallb_forall in C. apply C in I. discriminate.
    - intros i. unfold marked, second. rewrite !nth_repeat_app.
      destruct (Nat.ltb_spec i a).
      { split; [intros [[=]|[=]]|lia]. }
      destruct (Nat.ltb_spec (i - a) n).
      { split; [lia|]. intros _. destruct Hm as [-> | ->]; auto. }
      split; [|lia]. intros H'. exfalso. revert H'. apply (calm_not_marked (B " " ++ reason_text r) (i - a - n)).
      now rewrite forallb_app, C.
    - exists (repeat " "%char a ++ repeat m n). unfold second. now rewrite <- app_assoc. }
  unfold parse_error_text. cbn [pe_original pe_span pe_reason].
  assert (Caret : forall n, n = b - a -> to_mark (a, b) r = (fun i => a <= i < b) ->
    exists second, s ++ B (String (ascii_of_nat 10) EmptyString) ++ repeat " "%char a ++
      repeat "^"%char n ++ B " " ++ reason_text r = s ++ newline :: second /\ ~ In newline second /\
      (forall i, marked second i <-> to_mark (a, b) r i) /\
      exists before, second = before ++ B " " ++ reason_text r).
  { intros n -> ->. destruct (K "^"%char (b - a) eq_refl ltac:(discriminate) (or_introl eq_refl)) as (H1 & H2 & H3).
    eexists. split; [reflexivity|]. split; [exact H1|]. split; [|exact H3]. intros i. rewrite H2. lia. }
  assert (Dash : to_mark (a, b) r = (fun i => i = a) ->
    exists second, s ++ B (String (ascii_of_nat 10) EmptyString) ++ repeat " "%char a ++
      B "- " ++ reason_text r = s ++ newline :: second /\ ~ In newline second /\
      (forall i, marked second i <-> to_mark (a, b) r i) /\
      exists before, second = before ++ B " " ++ reason_text r).
  { intros ->. destruct (K "-"%char 1 eq_refl ltac:(discriminate) (or_intror eq_refl)) as (H1 & H2 & H3).
    eexists. split; [reflexivity|]. split; [exact H1|]. split; [|exact H3]. intros i. rewrite H2. lia. }
  destruct r; try (apply Caret; reflexivity); try (apply Dash; reflexivity).
  specialize (One eq_refl). apply (Caret 1); [lia|reflexivity].
Qed.

(** ** Different reasons read differently *)

Lemma decimal_inj a b : decimal a = decimal b -> a = b.
Proof.
  assert (H : forall n, option_map Nat.of_uint (NilZero.uint_of_string (string_of_list_ascii (decimal n))) = Some n).
  { intros n. unfold decimal, B. rewrite string_of_list_ascii_of_string.
    rewrite <- (DecimalNat.Unsigned.of_to n) at 2. destruct (Nat.to_uint n); [reflexivity|..];
      (rewrite NilZero.usu by discriminate; reflexivity). }
  intros E. assert (Ha := H a). rewrite E, H in Ha. now injection Ha.
Qed.

Lemma cut_inj (c : ascii) a a' r r' :
  ~ In c a -> ~ In c a' -> a ++ c :: r = a' ++ c :: r' -> a = a' /\ r = r'.
Proof.
  revert a'. induction a as [|x a IH]; intros [|y a'] N N' E; cbn [app] in E.
  - now injection E.
  - injection E as -> _. destruct N'. now left.
  - injection E as -> _. destruct N. now left.
  - injection E as -> E. destruct (IH a') as [-> ->]; auto.
    + intros I. apply N. now right.
    + intros I. apply N'. now right.
Qed.
Lemma B_inj x y : B x = B y -> x = y.
Proof.
  intros E. apply (f_equal string_of_list_ascii) in E. unfold B in E.
  now rewrite !string_of_list_ascii_of_string in E.
Qed.
Lemma bt_inj x y r r' :
  ~ In "`"%char (B x) -> ~ In "`"%char (B y) -> bt (B x) ++ r = bt (B y) ++ r' -> x = y /\ r = r'.
Proof.
  intros N N' E. unfold bt in E. rewrite <- !app_assoc in E. cbn [B list_ascii_of_string app] in E.
  injection E as E. apply cut_inj in E as [E ->]; auto. now apply B_inj in E.
Qed.

Lemma quoted_inj l l' r : Forall (fun h => ~ In "`"%char (B h)) l -> Forall (fun h => ~ In "`"%char (B h)) l' ->
  l <> [] -> l' <> [] -> quoted_list l ++ " "%char :: r = quoted_list l' ++ " "%char :: r -> l = l'.
Proof.
  intros F. revert l'. induction F as [|x l Hx F IH]; intros l' F' N N' E; [easy|].
  destruct F' as [|y l' Hy F']; [easy|]. clear N N'.
  assert (Tl : forall x l, exists t, quoted_list (x :: l) ++ " "%char :: r = bt (B x) ++ t /\
     t = match l with [] => " "%char :: r | _ => B ", " ++ quoted_list l ++ " "%char :: r end).
  { intros z l0. destruct l0 as [|u l0]; [now eexists|]. rewrite quoted_cons. rewrite <- !app_assoc. now eexists. }
  destruct (Tl x l) as (t & E1 & Et). destruct (Tl y l') as (t' & E1' & Et'). rewrite E1, E1' in E.
  apply bt_inj in E as [-> E]; auto. f_equal. rewrite Et, Et' in E.
  destruct l as [|u l], l' as [|v l']; try reflexivity; try discriminate E.
  apply IH; auto; try discriminate. now apply app_inv_head in E.
Qed.

Lemma reason_inj r r' : plain_names r -> plain_names r' -> reason_text r = reason_text r' -> r = r'.
Proof.
  intros P P' E. destruct r as [n| | | | |names|], r' as [n'| | | | |names'|]; try reflexivity; try discriminate E;
    try (exfalso; destruct names as [|x [|y names]]; discriminate E);
    try (exfalso; destruct names' as [|x [|y names']]; discriminate E).
  - cbn [reason_text] in E. apply app_inv_head in E. now apply decimal_inj in E as ->.
  - f_equal. cbn [plain_names] in *. destruct names as [|x [|y names]], names' as [|x' [|y' names']];
      try reflexivity; try discriminate E; cbn [reason_text] in E.
    + apply app_inv_head in E. inversion P; inversion P'; subst. now apply bt_inj in E as [-> _].
    + apply app_inv_head in E. now apply quoted_inj in E.
Qed.
