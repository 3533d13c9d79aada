(** Parsing and evaluating [cfg(...)] expressions. *)
From Coq Require Import Permutation.
From Verif.Model Require Import Base Str Error CfgExpr.
From Verif.Spec Require Import StrSpec Utf8Spec CfgSpec.
From Verif.Proof Require Import StrFacts Utf8Proof CfgLexProof CfgParseProof CfgGrammarProof.

(** ** Trees over places and trees over texts *)

Section Same.
Context (original : str).

Inductive same : ptree -> tree -> Prop :=
| same_leaf p q : (forall E, @to_pred E original p = Ok q) -> same (PLeaf p) (Leaf q)
| same_call f l l' : sames l l' -> same (PCall f l) (Call f l')
with sames : list ptree -> list tree -> Prop :=
| sames_nil : sames [] []
| sames_cons x y l l' : same x y -> sames l l' -> sames (x :: l) (y :: l').

Scheme same_mut := Induction for same Sort Prop
with sames_mut := Induction for sames Sort Prop.
Combined Scheme same_sames_ind from same_mut, sames_mut.

Lemma sames_app a a' b b' : sames a a' -> sames b b' -> sames (a ++ b) (a' ++ b').
Proof. intros Ha Hb. revert b b' Hb. induction Ha; intros; cbn [app]; [assumption|]. constructor; auto. Qed.

Lemma sames_counts l l' :
  sames l l' -> length (pleaves l) = leaves l' /\ ncalls l = calls l' /\ length l = length l'.
Proof.
  intros S. induction S as [|x y l l' Sx S (IH1 & IH2 & IH3)]; [now cbn|].
  unfold leaves, calls, pleaves, is_call in *. destruct Sx; cbn in *; lia.
Qed.
Lemma sames_count8 l l' : sames l l' -> pcount8 l = count8 l'.
Proof. intros S. apply sames_counts in S as (E1 & E2 & _). unfold pcount8, count8. now rewrite E1, E2. Qed.
Lemma sames_nil_iff l l' : sames l l' -> (l = [] <-> l' = []).
Proof. intros []; easy. Qed.

(** ** The grammar *)

Scheme item_mut := Induction for item Sort Prop
with items_mut := Induction for items Sort Prop.
Combined Scheme item_items_ind from item_mut, items_mut.

Lemma items_comma l ts : items l ts -> l <> [] -> items l (ts ++ [TComma]).
Proof.
  assert (Rep : forall n, repeat TComma n ++ [TComma] = repeat TComma (S n)).
  { intros n. symmetry. apply repeat_cons. }
  induction 1 as [|x ts n I|x ts n y l rest I S IH]; intros N; [easy| |].
  - rewrite <- app_assoc, Rep. now constructor.
  - rewrite <- !app_assoc. constructor; [assumption|]. now apply IH.
Qed.

Lemma items_snoc l ts x xs : items l ts -> l <> [] -> item x xs -> items (l ++ [x]) ((ts ++ [TComma]) ++ xs).
Proof.
  intros S N I. revert N. induction S as [|y ts n J|y ts n z l rest J S IH]; intros N; [easy| |].
  - cbn [app]. assert (E : (((ts ++ repeat TComma n) ++ [TComma]) ++ xs) = ts ++ repeat TComma (S n) ++ xs ++ repeat TComma 0).
    { cbn [repeat]. rewrite app_nil_r. rewrite <- !app_assoc. f_equal. rewrite app_assoc, <- repeat_cons. reflexivity. }
    rewrite E. constructor; [assumption|]. now constructor.
  - cbn [app] in *. rewrite <- !app_assoc. rewrite <- !app_assoc in IH. constructor; [assumption|]. now apply IH.
Qed.

Lemma in_place_key k s : in_place original (TKey k, s) ->
  forall E, @to_pred E original (mkPred s None) = Ok (PFlag k).
Proof. intros [_ H] E. cbn in *. unfold to_pred. cbn. now rewrite H. Qed.
Lemma in_place_pair k s v sv : in_place original (TKey k, s) -> in_place original (TValue v, sv) ->
  forall E, @to_pred E original (mkPred s (Some (fst sv + 1, snd sv - 1))) = Ok (PKeyValue k v).
Proof. intros [_ H] [_ H'] E. cbn in *. unfold to_pred. cbn. now rewrite H, H'. Qed.

Lemma derivation_tree :
  (forall x its, sitem x its -> Forall (in_place original) its ->
     exists t, same x t /\ item t (map fst its) /\ proper count8 t) /\
  (forall l b its, sitems l b its -> Forall (in_place original) its ->
     exists ts, sames l ts /\ items ts (map fst its) /\ Forall (proper count8) ts /\
       (b = false -> forall x xs, item x xs -> items (ts ++ [x]) (map fst its ++ xs))).
Proof.
  apply sitem_sitems_ind.
  - intros k s F. inversion F; subst. exists (Leaf (PFlag k)).
    split; [constructor; now apply in_place_key|]. split; constructor.
  - intros k s e v sv F. inversion F as [|? ? F1 F2]; subst. inversion F2 as [|? ? F3 F4]; subst.
    inversion F4; subst. exists (Leaf (PKeyValue k v)).
    split; [constructor; now apply in_place_pair|]. split; constructor.
  - intros f sf so sc args b ts S IH Hn F. inversion F as [|? ? F1 F2]; subst.
    inversion F2 as [|? ? F3 F4]; subst. apply Forall_app in F4 as [F4 _].
    destruct (IH F4) as (ts' & Sm & It & Pr & _).
    exists (Call f ts'). split; [now constructor|]. split.
    + cbn [map fst]. rewrite map_app. now constructor.
    + constructor; [assumption|]. intros Ef. rewrite <- (sames_count8 _ _ Sm). now apply Hn.
  - intros _. exists []. split; [constructor|]. split; [constructor|]. split; [constructor|].
    intros _ x xs I. cbn [app map]. rewrite <- (app_nil_r xs). apply (items_last x xs 0 I).
  - intros l ts x its S IHs I IHi F. apply Forall_app in F as [F1 F2].
    destruct (IHs F1) as (l' & Sm & _ & Pr & Nx). destruct (IHi F2) as (t & St & It & Pt).
    exists (l' ++ [t]). split; [apply sames_app; [assumption|constructor; [assumption|constructor]]|].
    rewrite map_app. split; [now apply Nx|]. split; [|easy]. apply Forall_app. auto.
  - intros l b ts s N S IH F. apply Forall_app in F as [F1 F2].
    destruct (IH F1) as (l' & Sm & It & Pr & _). exists l'.
    assert (N' : l' <> []) by (intros E; apply N; now apply (sames_nil_iff l l')).
    split; [assumption|]. rewrite map_app. cbn [map fst]. split; [now apply items_comma|].
    split; [assumption|]. intros _ x xs I. now apply items_snoc.
Qed.

Lemma sitems_commas l b ts n its :
  l <> [] -> sitems l b ts -> map fst its = repeat TComma n ->
  exists b', sitems l b' (ts ++ its) /\ (0 < n -> b' = false).
Proof.
  revert b ts its. induction n as [|n IH]; intros b ts its N S E.
  - destruct its; [|discriminate]. rewrite app_nil_r. exists b. split; [assumption|lia].
  - destruct its as [|[t s] its]; [discriminate|]. injection E as -> E. cbn [fst] in *.
    destruct (IH false (ts ++ [(TComma, s)]) its N ltac:(now apply (sitems_comma _ b)) E) as (b' & S' & Hb).
    rewrite <- app_assoc in S'. exists b'. split; [exact S'|]. intros _.
    destruct n; [|apply Hb; lia]. destruct its; [|discriminate].
    rewrite app_nil_r in *. cbn [app] in S'.
    destruct b'; [|reflexivity]. exfalso. clear -S'.
    remember (ts ++ [(TComma, s)]) as u eqn:Eu. remember true as b eqn:Eb. revert Eu Eb.
    destruct S' as [|l ts0 x its0 _ I|]; intros Eu Eb; try discriminate.
    assert (H : exists its1 t s', its0 = its1 ++ [(t, s')] /\ t <> TComma).
    { destruct I as [k s1|k s1 e v sv|f sf so sc args b0 ts1 _ _].
      - exists [], (TKey k), s1. easy.
      - exists [(TKey k, s1); (TEquals, e)], (TValue v), sv. easy.
      - exists ((callee_token f, sf) :: (TOpen, so) :: ts1), TClose, sc. easy. }
    destruct H as (its1 & t & s' & -> & Nt). rewrite app_assoc in Eu.
    apply app_inj_tail in Eu as [_ [= -> _]]. now apply Nt.
Qed.

Lemma map_app_split {A A'} (f : A -> A') l a b :
  map f l = a ++ b -> exists l1 l2, l = l1 ++ l2 /\ map f l1 = a /\ map f l2 = b.
Proof.
  revert l. induction a as [|x a IH]; intros l E; cbn [app] in E.
  - exists [], l. auto.
  - destruct l as [|y l]; [discriminate|]. injection E as <- E.
    destruct (IH l E) as (l1 & l2 & -> & <- & <-). exists (y :: l1), l2. auto.
Qed.

Lemma tree_derivation :
  (forall t ts, item t ts -> proper count8 t -> forall its, map fst its = ts ->
     Forall (in_place original) its -> exists x, sitem x its /\ same x t) /\
  (forall l ts, items l ts -> Forall (proper count8) l -> forall its, map fst its = ts ->
     Forall (in_place original) its ->
     exists pl, sames pl l /\
       forall l1 ts1, sitems l1 false ts1 -> exists b, sitems (l1 ++ pl) b (ts1 ++ its)).
Proof.
  apply item_items_ind.
  - intros k _ its E F. destruct its as [|[t s] [|]]; try discriminate. injection E as ->.
    inversion F; subst. eexists. split; [apply sitem_flag|]. constructor. now apply in_place_key.
  - intros k v _ its E F. destruct its as [|[t1 s1] [|[t2 s2] [|[t3 s3] [|]]]]; try discriminate.
    injection E as -> -> ->. inversion F as [|? ? F1 F2]; subst. inversion F2 as [|? ? F3 F4]; subst.
    inversion F4; subst. eexists. split; [apply sitem_pair|]. constructor. now apply in_place_pair.
  - intros f args ts S IH P its E F. inversion P as [|? ? Pa Hn]; subst.
    destruct its as [|[t1 s1] [|[t2 s2] its]]; try discriminate. injection E as -> -> E.
    destruct (map_app_split _ _ _ _ E) as (i1 & i2 & -> & <- & E2).
    destruct i2 as [|[t3 s3] [|]]; try discriminate. injection E2 as ->.
    inversion F as [|? ? F1 F2]; subst. inversion F2 as [|? ? F3 F4]; subst.
    apply Forall_app in F4 as [F4 _].
    destruct (IH Pa i1 eq_refl F4) as (pl & Sm & D).
    destruct (D [] [] sitems_nil) as (b & D'). cbn [app] in D'.
    exists (PCall f pl). split; [|now constructor]. apply (sitem_call _ _ _ _ _ b); [assumption|].
    intros Ef. rewrite (sames_count8 _ _ Sm). now apply Hn.
  - intros _ its E F. destruct its; [|discriminate]. exists []. split; [constructor|].
    intros l1 ts1 S. exists false. now rewrite !app_nil_r.
  - intros x ts n I IH P its E F. inversion P; subst.
    destruct (map_app_split _ _ _ _ E) as (i1 & i2 & -> & <- & E2). apply Forall_app in F as [F1 F2].
    destruct (IH H1 i1 eq_refl F1) as (y & Sy & Sm).
    exists [y]. split; [constructor; [assumption|constructor]|]. intros l1 ts1 S.
    destruct (sitems_commas (l1 ++ [y]) true (ts1 ++ i1) n i2) as (b & S' & _).
    + intros E'. now apply app_eq_nil in E'.
    + now apply sitems_item.
    + assumption.
    + exists b. now rewrite app_assoc.
  - intros x ts n y l rest I IH S IHs P its E F. inversion P as [|? ? P1 P2]; subst.
    destruct (map_app_split _ _ _ _ E) as (i1 & i' & -> & <- & E').
    destruct (map_app_split _ _ _ _ E') as (i2 & i3 & -> & E2 & E3).
    apply Forall_app in F as [F1 F']. apply Forall_app in F' as [F2 F3].
    destruct (IH P1 i1 eq_refl F1) as (z & Sz & Sm).
    destruct (IHs P2 i3 E3 F3) as (pl & Sms & D).
    exists (z :: pl). split; [now constructor|]. intros l1 ts1 S1.
    destruct (sitems_commas (l1 ++ [z]) true (ts1 ++ i1) (Datatypes.S n) i2) as (b & S' & Hb).
    + intros E'0. now apply app_eq_nil in E'0.
    + now apply sitems_item.
    + assumption.
    + rewrite (Hb ltac:(lia)) in S'. destruct (D _ _ S') as (b2 & S2). exists b2.
      rewrite <- !app_assoc in S2. exact S2.
Qed.

End Same.

(** ** A text has one tree *)

Definition stops (r : list token) : Prop :=
  match r with [] | TComma :: _ | TClose :: _ => True | _ => False end.
Definition closes (r : list token) : Prop :=
  match r with [] | TClose :: _ => True | _ => False end.

Lemma item_first x ts : item x ts -> exists t r, ts = t :: r /\ t <> TComma /\ t <> TClose.
Proof. intros [k|k v|f args ts' _]; eexists _, _; (split; [reflexivity|]); try easy. now destruct f. Qed.

Lemma commas_unique n n' r r' :
  repeat TComma n ++ r = repeat TComma n' ++ r' ->
  (forall u, r <> TComma :: u) -> (forall u, r' <> TComma :: u) -> n = n' /\ r = r'.
Proof.
  revert n'. induction n as [|n IH]; intros [|n'] E N N'; cbn [repeat app] in E.
  - auto.
  - now destruct (N (repeat TComma n' ++ r')).
  - symmetry in E. now destruct (N' (repeat TComma n ++ r)).
  - injection E as E. destruct (IH n' E N N') as [-> ->]. auto.
Qed.

Lemma items_first_not_comma l ts r u : items l ts -> closes r -> ts ++ r <> TComma :: u.
Proof.
  intros S C E. destruct S as [|x ts n I|x ts n y l rest I S].
  - cbn in E. subst. destruct C.
  - destruct (item_first x ts I) as (t & q & -> & N & _). injection E as -> _. now apply N.
  - destruct (item_first x ts I) as (t & q & -> & N & _). injection E as -> _. now apply N.
Qed.

Lemma items_first y l ts : items (y :: l) ts -> exists t r, ts = t :: r /\ t <> TComma /\ t <> TClose.
Proof.
  intros S. inversion S as [|x ts' n I E1|x ts' n y' l' rest I S' E1]; subst;
    destruct (item_first _ _ I) as (t & r & -> & N); cbn [app]; eauto.
Qed.
Lemma not_closes y l ts r : items (y :: l) ts -> ~ closes (ts ++ r).
Proof.
  intros S C. destruct (items_first y l ts S) as (t & q & -> & N1 & N2). cbn in C. destruct t; easy.
Qed.

Lemma callee_token_inj f g : callee_token f = callee_token g -> f = g.
Proof. now destruct f, g. Qed.

Lemma unique_tree :
  (forall x ts, item x ts -> forall x' ts' r r', item x' ts' -> ts ++ r = ts' ++ r' ->
     stops r -> stops r' -> x = x' /\ r = r') /\
  (forall l ts, items l ts -> forall l' ts' r r', items l' ts' -> ts ++ r = ts' ++ r' ->
     closes r -> closes r' -> l = l' /\ r = r').
Proof.
  apply item_items_ind.
  - intros k x' ts' r r' I' E C C'. destruct I' as [k'|k' v'|f args ts' S]; cbn [app] in E.
    + injection E as -> ->. auto.
    + injection E as -> ->. destruct C.
    + injection E as E _. now destruct f.
  - intros k v x' ts' r r' I' E C C'. destruct I' as [k'|k' v'|f args ts' S]; cbn [app] in E.
    + injection E as -> <-. destruct C'.
    + injection E as -> -> ->. auto.
    + injection E as E _. now destruct f.
  - intros f args ts S IH x' ts' r r' I' E C C'. destruct I' as [k'|k' v'|f' args' ts' S']; cbn [app] in E.
    + injection E as E _. now destruct f.
    + injection E as E _. now destruct f.
    + injection E as Ef E. apply callee_token_inj in Ef as ->.
      rewrite <- !app_assoc in E. cbn [app] in E.
      destruct (IH args' ts' (TClose :: r) (TClose :: r') S' E I I) as [-> [= ->]]. auto.
  - intros l' ts' r r' S' E C C'. cbn [app] in E. destruct S' as [|x ts n I'|x ts n y l rest I' S].
    + auto.
    + destruct (item_first x ts I') as (t & q & -> & N1 & N2). subst r.
      cbn in C. destruct t; try destruct C; easy.
    + destruct (item_first x ts I') as (t & q & -> & N1 & N2). subst r.
      cbn in C. destruct t; try destruct C; easy.
  - intros x ts n I IH l' ts' r r' S' E C C'.
    assert (Cr : forall m, stops (repeat TComma m ++ r)).
    { intros [|m]; [cbn; destruct r as [|[] r]; easy|exact Logic.I]. }
    assert (Nr : forall u, r <> TComma :: u) by (intros u ->; destruct C).
    destruct S' as [|x' ts' n' I'|x' ts' n' y l rest I' S'].
    + cbn [app] in E. destruct (item_first x ts I) as (t & q & -> & N1 & N2). subst r'.
      cbn in C'. destruct t; try destruct C'; easy.
    + rewrite <- !app_assoc in E.
      assert (Cr' : stops (repeat TComma n' ++ r')).
      { destruct n'; [cbn; destruct r' as [|[] r']; easy|exact Logic.I]. }
      destruct (IH x' ts' _ _ I' E (Cr n) Cr') as [-> E2].
      apply commas_unique in E2 as [-> ->]; [auto|assumption|]. intros u ->. destruct C'.
    + rewrite <- !app_assoc in E.
      destruct (IH x' ts' _ _ I' E (Cr n) Logic.I) as [-> E2].
      apply commas_unique in E2 as [-> ->]; [|assumption|].
      * exfalso. now apply (not_closes y l rest r' S').
      * intros u. now apply (items_first_not_comma (y :: l) rest r' u).
  - intros x ts n y l rest I IH S IHs l' ts' r r' S' E C C'.
    destruct S' as [|x' ts' n' I'|x' ts' n' y' l' rest' I' S'].
    + cbn [app] in E. destruct (item_first x ts I) as (t & q & -> & N1 & N2). subst r'.
      cbn in C'. destruct t; try destruct C'; easy.
    + rewrite <- !app_assoc in E.
      assert (Cr' : stops (repeat TComma n' ++ r')).
      { destruct n'; [cbn; destruct r' as [|[] r']; easy|exact Logic.I]. }
      destruct (IH x' ts' _ _ I' E Logic.I Cr') as [-> E2].
      apply commas_unique in E2 as [<- E2].
      * exfalso. rewrite <- E2 in C'. now apply (not_closes y l rest r S).
      * intros u. now apply (items_first_not_comma (y :: l) rest r u).
      * intros u ->. destruct C'.
    + rewrite <- !app_assoc in E.
      destruct (IH x' ts' _ _ I' E Logic.I Logic.I) as [-> E2].
      apply commas_unique in E2 as [_ E2].
      * destruct (IHs _ _ _ _ S' E2 C C') as [-> ->]. auto.
      * intros u. now apply (items_first_not_comma (y :: l) rest r u).
      * intros u. now apply (items_first_not_comma (y' :: l') rest' r' u).
Qed.

Lemma items_unique l l' ts : items l ts -> items l' ts -> l = l'.
Proof.
  intros S S'. apply (proj2 unique_tree l ts S l' ts [] [] S' eq_refl I I).
Qed.

Lemma lexes_unique s ts ts' : utf8_valid s = true -> lexes s ts -> lexes s ts' -> ts = ts'.
Proof.
  intros V L. revert V ts'. induction L as [s Hb|b w rest t ts Hb Sp M L IH]; intros V ts' L'.
  - destruct L' as [s' Hb'|b' w' rest' t' ts' Hb' Sp' M' L']; [reflexivity|].
    assert (Q := lex_next_blank [] _ 0 Hb). rewrite (lex_next_token [] b' t' w' rest' 0) in Q by assumption.
    discriminate.
  - assert (Q := lex_next_token [] b t w rest 0 Hb Sp M V).
    remember (b ++ w ++ rest) as s eqn:Es.
    destruct L' as [s' Hb'|b' w' rest' t' ts' Hb' Sp' M' L'].
    + rewrite lex_next_blank in Q by assumption. discriminate.
    + rewrite (lex_next_token [] b' t' w' rest' 0) in Q by assumption.
      injection Q as -> _ _ -> _. f_equal. apply IH; [|assumption].
      rewrite Es, valid_blank in V by assumption. exact (spelled_valid t w rest Sp V).
Qed.

Lemma written_unique s l l' : utf8_valid s = true -> written l s -> written l' s -> l = l'.
Proof.
  intros V (ts & L & S) (ts' & L' & S'). rewrite <- (lexes_unique s ts ts' V L L') in S'.
  exact (items_unique l l' ts S S').
Qed.

(** ** The wrapper *)

Lemma lexer_text_spec text : utf8_valid text = true ->
  exists s, lexer_text text = Ok s /\ unwrapped text s /\ utf8_valid s = true.
Proof.
  intros V. unfold lexer_text.
  destruct (starts_with (B "cfg(") text) eqn:E1; cbn [andb];
    [destruct (ends_with (B ")") text) eqn:E2; cbn [andb]|].
  - apply starts_with_iff in E1 as [r ->]. apply ends_with_iff in E2 as [r' E].
    destruct (exists_last (l := r)) as (r2 & c & ->).
    { intros ->. destruct r' as [|? [|? [|? [|? r']]]]; try discriminate. destruct r'; discriminate. }
    rewrite app_assoc in E. apply app_inj_tail in E as [_ ->].
    assert (V2 : utf8_valid (r2 ++ B ")") = true).
    { now rewrite (valid_ascii_app (B "cfg(")) in V by repeat constructor. }
    exists r2. rewrite (slice_app (B "cfg(") r2 (B ")")).
    + split; [reflexivity|]. split; [constructor|]. now apply (valid_app_ascii r2 ")"%char []) in V2.
    + reflexivity.
    + rewrite !app_length. cbn [length B list_ascii_of_string]. lia.
    + exact V2.
    + reflexivity.
  - exists text. split; [reflexivity|]. split; [|assumption]. constructor. intros r ->.
    assert (ends_with (B ")") (B "cfg(" ++ r ++ B ")") = true); [|congruence].
    apply ends_with_iff. exists (B "cfg(" ++ r). now rewrite app_assoc.
  - exists text. split; [reflexivity|]. split; [|assumption]. constructor. intros r ->.
    assert (starts_with (B "cfg(") (B "cfg(" ++ r ++ B ")") = true); [|congruence].
    apply starts_with_iff. eauto.
Qed.

Lemma unwrapped_unique text s s' : unwrapped text s -> unwrapped text s' -> s = s'.
Proof.
  intros U U'. inversion U as [s0 E|s0 N E]; inversion U' as [s1 E'|s1 N' E']; subst.
  - apply app_inv_head in E'. now apply app_inj_tail in E'.
  - now destruct (N' s).
  - now destruct (N s').
  - reflexivity.
Qed.

Lemma unwrapped_opens text s : unwrapped text s -> opens s <= opens text.
Proof. intros []; rewrite ?opens_app; lia. Qed.

(** ** Wide argument lists *)

Inductive pwide : ptree -> Prop :=
| pw_here f args : 256 <= ncalls args -> pwide (PCall f args)
| pw_in f args x : In x args -> pwide x -> pwide (PCall f args).

Definition all_items (ls : lists) : list ptree := snd ls ++ flat_map fr_items (fst ls).
Definition wz (ls : lists) : Prop :=
  match fst ls with
  | [] => False
  | fr :: rest =>
      256 <= ncalls (fr_items fr) \/ Exists (fun fr => 255 <= ncalls (fr_items fr)) rest
  end \/ Exists pwide (all_items ls).

Lemma exists_app_l {A} (P : A -> Prop) l m : Exists P l -> Exists P (l ++ m).
Proof. intros H. apply Exists_app. auto. Qed.

Lemma wz_add ls l : wz ls -> wz (add ls l).
Proof.
  destruct ls as [[|fr rest] root]; unfold wz, all_items; cbn [add fst snd flat_map fr_items].
  - intros [[]|H]. right. rewrite app_nil_r in *. now apply exists_app_l.
  - rewrite ncalls_app. intros [[H|H]|H]; [left; left; lia|auto|right].
    rewrite !Exists_app in *. tauto.
Qed.

Lemma astep_wz z x z' : astep z x = Some z' -> wz (fst z) -> wz (fst z').
Proof.
  destruct z as [[frs root] m], x as [t s]. intros A. cbn [fst].
  assert (Fn : t = TAll \/ t = TAny \/ t = TNot -> wz (frs, root) -> wz (fst z')).
  { intros Ht. assert (E : astep (frs, root, m) (t, s) =
      match m with MStart | MComma => Some ((mkFrame (callee_of t) s 0 [] :: frs, root), MFn) | _ => None end)
    by (destruct Ht as [->|[->| ->]]; reflexivity).
    rewrite E in A. assert (z' = ((mkFrame (callee_of t) s 0 [] :: frs, root), MFn)) as ->
      by (destruct m; try discriminate A; now injection A as <-).
    unfold wz, all_items. cbn [fst snd flat_map fr_items app ncalls].
    intros [H|H]; [|auto]. left. right. destruct frs as [|fr rest]; [destruct H|].
    destruct H as [H|H]; [left; lia|now right]. }
  destruct t; try (apply Fn; auto; fail); clear Fn; cbn [astep] in A.
  - destruct m; try discriminate A; injection A as <-; auto.
  - destruct m; try discriminate A; injection A as <-; auto.
  - destruct m; try discriminate A; injection A as <-; auto.
  - destruct m; try discriminate A. destruct frs as [|fr rest]; [discriminate A|]. injection A as <-. auto.
  - intros W. apply (wz_add _ (pending m)) in W. change (wz (content (frs, root, m))) in W.
    remember (content (frs, root, m)) as ls eqn:El.
    destruct ls as [[|fr rest] root'].
    { cbn [fst] in A. destruct m; discriminate A. }
    cbn [fst snd] in A.
    assert (root' = root) as ->.
    { unfold content in El. cbn [fst snd] in El. destruct frs; cbn in El; congruence. }
    assert (z' = (add (rest, root) [PCall (fr_callee fr) (fr_items fr)], MItem)) as ->.
    { destruct m; try discriminate A;
      match type of A with (if ?c then _ else _) = _ => destruct c end; try discriminate A;
      now injection A as <-. }
    cbn [fst]. clear A El. unfold wz, all_items in W. cbn [fst snd flat_map] in W.
    assert (Here : pwide (PCall (fr_callee fr) (fr_items fr)) -> wz (add (rest, root) [PCall (fr_callee fr) (fr_items fr)])).
    { intros H. right. unfold all_items. destruct rest as [|fr2 rest]; cbn [add fst snd flat_map fr_items];
        rewrite !Exists_app; [left; right; now left|right; left; right; now left]. }
    destruct W as [[W|W]|W].
    + apply Here. now constructor.
    + destruct rest as [|fr2 rest]; [inversion W|]. left. cbn [add fst fr_items].
      rewrite ncalls_app. cbn [ncalls]. inversion W; subst; [left; lia|now right].
    + rewrite !Exists_app in W. destruct W as [W|[W|W]].
      * apply wz_add. right. unfold all_items. cbn [fst snd]. now apply exists_app_l.
      * apply Here. apply Exists_exists in W as (y & Iy & Wy). now apply (pw_in _ _ y).
      * apply wz_add. right. unfold all_items. cbn [fst snd]. rewrite Exists_app. now right.
  - intros W. assert (z' = (content (frs, root, m), MComma)) as -> by (destruct m; try easy; now injection A as <-).
    cbn [fst]. unfold content. now apply wz_add.
Qed.

Lemma run_wz ts : forall z z', run z ts = Some z' -> wz (fst z) -> wz (fst z').
Proof.
  induction ts as [|x ts IH]; intros z z' R W; cbn [run] in R; [now injection R as <-|].
  destruct (astep z x) as [z1|] eqn:A; [|discriminate]. apply (IH z1); [assumption|].
  now apply (astep_wz z x).
Qed.

Lemma ploop_panic_wide pr original : forall fuel inner off z p,
  length inner < fuel -> utf8_valid inner = true -> off + length inner = length original ->
  zok off z -> ploop fuel pr original inner off (conc z) = Panic p ->
  forall sts z', lexed off inner sts -> run z sts = Some z' -> wz (fst z').
Proof.
  induction fuel as [|fuel IH]; intros inner off z p Lf V El Z P sts z' L R; [lia|]. cbn [ploop] in P.
  destruct L as [o s Hb|o b w rest t ts Hb Sp M L].
  - rewrite lex_next_blank in P by assumption. discriminate.
  - rewrite (lex_next_token original b t w rest o) in P by assumption. cbn [bind] in P. cbn [run] in R.
    destruct (astep z (t, (o + length b, o + length b + length w))) as [z1|] eqn:A; [|discriminate].
    rewrite !app_length in *.
    assert (Lw : 1 <= length w).
    { destruct (spelled_head t w Sp) as (c & r & -> & _). cbn. lia. }
    assert (Ps := pstep_spec pr original z (t, (o + length b, o + length b + length w)) o Z).
    cbn [fst snd] in Ps. specialize (Ps ltac:(lia) ltac:(lia)). unfold step_spec in Ps. cbn [fst snd] in Ps.
    destruct (pstep pr original (conc z) t (o + length b, o + length b + length w)) as [s1|e|q] eqn:Es;
      cbn [bind] in P.
    + destruct Ps as (z2 & A2 & -> & Z2). rewrite A in A2. injection A2 as <-.
      apply (IH rest (o + length b + length w) z1 p) with (sts := ts); try assumption; try lia.
      rewrite valid_blank in V by assumption. exact (spelled_valid t w rest Sp V).
    + destruct Ps as [A2 _]. rewrite A in A2. discriminate.
    + destruct Ps as (_ & _ & fr & frs & E & Nc).
      apply (run_wz ts z1); [assumption|].
      (* the step taken opens a call inside a frame that already has 255 *)
      assert (Ht : t = TAll \/ t = TAny \/ t = TNot).
      { destruct t; auto; exfalso; clear -Es; destruct z as [[frs root] m]; cbn [pstep] in Es;
          unfold token_err in Es;
          repeat match type of Es with
          | match ?x with _ => _ end = _ => destruct x; try discriminate Es
          | bind ?x _ = _ => let E := fresh in destruct x eqn:E; cbn [bind] in Es; try discriminate Es
          | (if ?x then _ else _) = _ => destruct x; try discriminate Es
          end.
        all: repeat match goal with
          | H : match ?x with _ => _ end = _ |- _ => destruct x; try discriminate H
          end. }
      destruct z as [[frs0 root] m]. cbn [fst] in E. subst frs0.
      assert (E : astep (fr :: frs, root, m) (t, (o + length b, o + length b + length w)) =
        match m with MStart | MComma => Some ((mkFrame (callee_of t) (o + length b, o + length b + length w) 0 [] :: fr :: frs, root), MFn) | _ => None end)
        by (destruct Ht as [->|[->| ->]]; reflexivity).
      rewrite E in A. clear E.
      assert (255 <= ncalls (fr_items fr)) by (rewrite <- Nc; apply Nat.mod_le; lia).
      destruct m; try discriminate A; injection A as <-; left; cbn [fst]; right; now left.
Qed.

Lemma same_wide o :
  (forall x t, same o x t -> pwide x -> ~ narrow t) /\
  (forall l ts, sames o l ts -> forall x, In x l -> pwide x -> ~ Forall narrow ts).
Proof.
  apply same_sames_ind.
  - intros p q _ W. inversion W.
  - intros f l l' S IH W N. inversion N as [|? ? Nf Lc]; subst.
    apply sames_counts in S as (_ & Ec & _). inversion W; subst; [lia|]. now apply (IH x).
  - intros x [].
  - intros x y l l' Sx IHx S IHs z [<-|I] W N; inversion N; subst; [now apply IHx|now apply (IHs z)].
Qed.

(** ** Parsing *)

Lemma accepted_run s roots : utf8_valid s = true -> accepted s roots ->
  exists sts z l, lexed 0 s sts /\ run init sts = Some z /\ final z l /\ sames s l roots.
Proof.
  intros V ((ts & L & S) & P & _).
  destruct (lexes_lexed s ts L 0) as (sts & Ls & E).
  assert (F := lexed_in_place s [] s sts eq_refl V Ls).
  destruct (proj2 (tree_derivation s) roots ts S P sts E F) as (pl & Sm & D).
  destruct (D [] [] sitems_nil) as (b & D'). cbn [app] in D'.
  destruct (sitems_run pl b sts D') as (z & R & Fi). exists sts, z, pl. auto.
Qed.

Lemma final_unique z l l' : final z l -> final z l' -> l = l'.
Proof. intros (_ & _ & _ & ->) (_ & _ & _ & ->). reflexivity. Qed.

Lemma run_accepted s sts z l : utf8_valid s = true -> lexed 0 s sts -> run init sts = Some z -> final z l ->
  exists roots, sames s l roots /\ written roots s /\ Forall (proper count8) roots.
Proof.
  intros V L R F. destruct (run_sitems sts z l R F) as (b & S).
  assert (Fi := lexed_in_place s [] s sts eq_refl V L).
  destruct (proj2 (derivation_tree s) l b sts S Fi) as (roots & Sm & It & P & _).
  exists roots. split; [assumption|]. split; [|assumption]. exists (map fst sts).
  split; [|assumption]. now apply (lexed_lexes 0).
Qed.

Lemma lexed_unique o s a b : utf8_valid s = true -> lexed o s a -> lexed o s b -> a = b.
Proof.
  intros V L. revert V b. induction L as [o s Hb|o b w rest t ts Hb Sp M L IH]; intros V ts' L'.
  - destruct L' as [o s' Hb'|o b' w' rest' t' ts' Hb' Sp' M' L']; [reflexivity|].
    assert (Q := lex_next_blank [] _ 0 Hb). rewrite (lex_next_token [] b' t' w' rest' 0) in Q by assumption.
    discriminate.
  - assert (Q := lex_next_token [] b t w rest o Hb Sp M V).
    remember (b ++ w ++ rest) as s eqn:Es.
    destruct L' as [o s' Hb'|o b' w' rest' t' ts' Hb' Sp' M' L'].
    + rewrite lex_next_blank in Q by assumption. discriminate.
    + rewrite (lex_next_token [] b' t' w' rest' o) in Q by assumption.
      injection Q as -> E1 E2 -> E3. rewrite E2, E1. f_equal. apply IH; [|now rewrite <- E2].
      rewrite Es, valid_blank in V by assumption. exact (spelled_valid t w rest Sp V).
Qed.

Lemma init_ok : zok 0 init.
Proof. split; [constructor|]. split; [easy|reflexivity]. Qed.

Lemma parse_cases pr text : utf8_valid text = true ->
  exists s, unwrapped text s /\ utf8_valid s = true /\
  match parse_expr pr text with
  | Ok e => exists l roots, sames s l roots /\ accepted s roots /\
              e = mkExpression (flat_map compile l) s
  | Err e => err_ok s e /\ ~ (exists roots, accepted s roots)
  | Panic p => p = POverflow /\ overflow_checks pr = true /\ 256 <= opens text /\
      forall roots, accepted s roots -> ~ Forall narrow roots
  end.
Proof.
  intros V. destruct (lexer_text_spec text V) as (s & E & U & Vs). exists s.
  split; [assumption|]. split; [assumption|]. unfold parse_expr. rewrite E. cbn [bind].
  assert (P := ploop_spec pr s (S (length s)) s 0 init ltac:(lia) Vs eq_refl init_ok).
  assert (W := ploop_panic_wide pr s (S (length s)) s 0 init).
  rewrite conc_init in P, W.
  destruct (ploop (S (length s)) pr s s 0 ps_init) as [st|e|p] eqn:Ep; cbn [bind loop_spec] in *.
  - destruct P as (sts & z & L & R & -> & Z).
    assert (Pf := pfinish_spec s z (length s) Z (le_n _)).
    destruct (pfinish s (conc z)) as [e|e|p]; [| |destruct Pf].
    + destruct Pf as (l & F & N & Le & ->).
      destruct (run_accepted s sts z l Vs L R F) as (roots & Sm & Wr & Pr).
      exists l, roots. split; [assumption|]. split; [|reflexivity].
      destruct (sames_counts s l roots Sm) as (E1 & E2 & E3).
      split; [assumption|]. split; [assumption|]. split; [|lia].
      intros ->. apply N. now apply (sames_nil_iff s l []).
    + destruct Pf as [Eo No]. split; [assumption|]. intros (roots & A).
      destruct (accepted_run s roots Vs A) as (sts' & z' & l & L' & R' & F' & Sm).
      rewrite (lexed_unique 0 s sts' sts Vs L' L) in R'. rewrite R in R'. injection R' as <-.
      apply No. exists l. destruct (sames_counts s l roots Sm) as (E1 & E2 & E3).
      destruct A as (_ & _ & N & Le). split; [assumption|]. split; [|lia].
      intros ->. apply N. now apply (sames_nil_iff s [] roots).
  - destruct P as [Eo No]. split; [assumption|]. intros (roots & A).
    destruct (accepted_run s roots Vs A) as (sts' & z' & l & L' & R' & _). apply No. eauto.
  - destruct P as (-> & O & Wt). split; [reflexivity|]. split; [assumption|].
    split; [cbn in Wt; apply unwrapped_opens in U; lia|].
    intros roots A N.
    destruct (accepted_run s roots Vs A) as (sts & z & l & L & R & F & Sm).
    assert (Wz := W POverflow ltac:(lia) Vs eq_refl init_ok eq_refl sts z L R).
    destruct z as [[frs root] m]. destruct F as (E1 & _ & _ & ->). cbn [fst] in *. subst frs.
    destruct Wz as [[]|Wz]. unfold all_items in Wz. cbn [fst snd flat_map] in Wz. rewrite app_nil_r in Wz.
    apply Exists_exists in Wz as (x & Ix & Wx).
    apply (proj2 (same_wide s) _ _ Sm x); [|assumption|assumption].
    cbn. apply in_app_iff. now left.
Qed.

(** ** Evaluation *)

Section Eval.
Context {E T : Type} (L : logic T) (ep : predicate -> T) (original : str).

Lemma eval_nodes_app st a b :
  @eval_nodes E T L ep original st (a ++ b) =
  (st' <- eval_nodes L ep original st a ;; eval_nodes L ep original st' b).
Proof.
  revert st. induction a as [|n a IH]; intros st; cbn [app eval_nodes]; [reflexivity|].
  destruct (eval_node L ep original st n); cbn [bind]; auto.
Qed.

Lemma pop_n_len op n acc (st : list T) :
  n <= length st -> exists v st', @pop_n E T op n acc st = Ok (v, st') /\ length st = n + length st'.
Proof.
  revert acc st. induction n as [|n IH]; intros acc st Le; cbn [pop_n].
  - exists acc, st. auto.
  - destruct st as [|r st]; cbn in Le; [lia|]. destruct (IH (op acc r) st ltac:(lia)) as (v & st' & Ev & El).
    exists v, st'. split; [assumption|]. cbn. lia.
Qed.

(** Evaluating any accepted tree leaves at least one more value. *)
Lemma eval_leaves l ts st : sames original l ts ->
  exists vs, @eval_nodes E T L ep original st (map NPred (pleaves l)) = Ok (vs ++ st) /\
    length vs = leaves ts.
Proof.
  intros S. revert st. induction S as [|x y l l' Sx S IH]; intros st.
  - exists []. auto.
  - change (pleaves (x :: l)) with (pleaf x ++ pleaves l).
    destruct Sx as [p q R|f a a' _]; cbn [pleaf app map eval_nodes eval_node].
    + rewrite R. cbn [bind]. destruct (IH (ep q :: st)) as (vs & -> & Ev).
      exists (vs ++ [ep q]). rewrite <- app_assoc. split; [reflexivity|]. rewrite app_length. cbn.
      unfold leaves in *. cbn. lia.
    + destruct (IH st) as (vs & -> & Ev). exists vs. auto.
Qed.

Lemma eval_total :
  (forall x t, same original x t -> proper count8 t -> forall st,
     exists st', @eval_nodes E T L ep original st (compile x) = Ok st' /\ length st < length st') /\
  (forall l ts, sames original l ts -> Forall (proper count8) ts -> forall st,
     (exists st', @eval_nodes E T L ep original st (flat_map compile_call l) = Ok st' /\
       length st + calls ts <= length st') /\
     (exists st', @eval_nodes E T L ep original st (flat_map compile l) = Ok st' /\
       length st + length ts <= length st')).
Proof.
  apply same_sames_ind.
  - intros p q R _ st. cbn. rewrite R. cbn. eexists. split; [reflexivity|]. cbn. lia.
  - intros f l l' S IH P st. inversion P as [|? ? Pa Hn]; subst.
    rewrite compile_call_eq, eval_nodes_app. destruct (proj1 (IH Pa st)) as (st1 & -> & L1). cbn [bind].
    rewrite eval_nodes_app. destruct (eval_leaves l l' st1 S) as (vs & -> & Lv). cbn [bind].
    rewrite (sames_count8 _ _ _ S). cbn [eval_nodes].
    assert (Lc : count8 l' <= leaves l' + calls l').
    { unfold count8. assert (calls l' mod 256 <= calls l') by (apply Nat.mod_le; lia). lia. }
    assert (Ls : length (vs ++ st1) = leaves l' + length st1) by (rewrite app_length; lia).
    destruct f; cbn [func_of eval_node].
    + destruct (pop_n_len (l_and L) (count8 l') (l_top L) (vs ++ st1)) as (v & st' & -> & El); [lia|].
      cbn [bind fst snd]. eexists. split; [reflexivity|]. cbn. lia.
    + destruct (pop_n_len (l_or L) (count8 l') (l_bottom L) (vs ++ st1)) as (v & st' & -> & El); [lia|].
      cbn [bind fst snd]. eexists. split; [reflexivity|]. cbn. lia.
    + specialize (Hn eq_refl). destruct (vs ++ st1) as [|r st'] eqn:Es; [cbn in Ls; lia|].
      cbn [bind]. eexists. split; [reflexivity|]. cbn in *. lia.
  - intros _ st. split; (exists st; split; [reflexivity|]; cbn; lia).
  - intros x y l l' Sx IHx S IHs P st. inversion P as [|? ? P1 P2]; subst. cbn [flat_map].
    rewrite !eval_nodes_app. destruct (IHx P1 st) as (st1 & E1 & L1). split.
    + destruct Sx as [p q R|f a a' Sa].
      * cbn [compile_call eval_nodes bind]. destruct (proj1 (IHs P2 st)) as (st2 & -> & L2).
        exists st2. split; [reflexivity|]. exact L2.
      * cbn [compile_call]. rewrite E1. cbn [bind]. destruct (proj1 (IHs P2 st1)) as (st2 & -> & L2).
        exists st2. split; [reflexivity|]. unfold calls in *. cbn. lia.
    + rewrite E1. cbn [bind]. destruct (proj2 (IHs P2 st1)) as (st2 & -> & L2).
      exists st2. split; [reflexivity|]. cbn. lia.
Qed.

End Eval.

(** Results of well-formed trees. *)
Section Meaning.
Context {E T : Type} (L : logic T) (ep : predicate -> T) (original : str).

(** Values in postfix order: calls first. *)
Fixpoint value (t : tree) : T :=
  match t with
  | Leaf p => ep p
  | Call CAll args => fold_right (l_and L) (l_top L) (map value args)
  | Call CAny args => fold_right (l_or L) (l_bottom L) (map value args)
  | Call CNot args => l_not L (hd (l_top L) (map value args))
  end.

Context (and_comm : forall a b, l_and L a b = l_and L b a)
        (and_assoc : forall a b c, l_and L a (l_and L b c) = l_and L (l_and L a b) c)
        (or_comm : forall a b, l_or L a b = l_or L b a)
        (or_assoc : forall a b c, l_or L a (l_or L b c) = l_or L (l_or L a b) c).

Lemma pop_n_fold op n acc (vs st : list T) :
  length vs = n -> @pop_n E T op n acc (vs ++ st) = Ok (fold_left op vs acc, st).
Proof.
  intros <-. revert acc. induction vs as [|v vs IH]; intros acc; cbn; auto.
Qed.

Lemma fold_left_right op (C : forall a b, op a b = op b a) (A : forall a b c : T, op a (op b c) = op (op a b) c) vs acc :
  fold_left op vs acc = fold_right op acc vs.
Proof.
  revert acc. induction vs as [|v vs IH]; intros acc; cbn; [reflexivity|].
  rewrite IH. clear IH. revert acc. induction vs as [|w vs IH]; intros acc; cbn; [apply C|].
  rewrite IH. rewrite A, (C w v), <- A. reflexivity.
Qed.

Lemma fold_right_perm op (C : forall a b, op a b = op b a) (A : forall a b c : T, op a (op b c) = op (op a b) c) acc vs ws :
  Permutation vs ws -> fold_right op acc vs = fold_right op acc ws.
Proof.
  induction 1; cbn; congruence.
Qed.

Definition call_values (ts : list tree) := map value (filter is_call ts).
Definition leaf_values (ts : list tree) := map value (filter is_leaf ts).

Lemma eval_leaves_value l ts st : sames original l ts ->
  @eval_nodes E T L ep original st (map NPred (pleaves l)) = Ok (rev (leaf_values ts) ++ st).
Proof.
  intros S. revert st. induction S as [|x y l l' Sx S IH]; intros st; [reflexivity|].
  change (pleaves (x :: l)) with (pleaf x ++ pleaves l).
  destruct Sx as [p q R|f a a' _]; cbn [pleaf app map eval_nodes eval_node].
  - rewrite R. cbn [bind]. rewrite IH. unfold leaf_values. cbn. now rewrite <- app_assoc.
  - apply IH.
Qed.

Lemma split_perm ts :
  Permutation (rev (leaf_values ts) ++ rev (call_values ts)) (map value ts).
Proof.
  transitivity (leaf_values ts ++ call_values ts).
  { apply Permutation_app; apply Permutation_sym, Permutation_rev. }
  unfold leaf_values, call_values. induction ts as [|t ts IH]; [constructor|].
  destruct t as [p|f a]; cbn.
  - now constructor.
  - apply Permutation_sym, Permutation_cons_app, Permutation_sym, IH.
Qed.

Lemma counts_length ts : leaves ts + calls ts = length ts.
Proof.
  unfold leaves, calls. induction ts as [|[p|f a] ts IH]; cbn; [reflexivity| |]; unfold is_call in *; cbn in *; lia.
Qed.
Lemma count8_small ts : calls ts < 256 -> count8 ts = length ts.
Proof. intros Lc. unfold count8. rewrite Nat.mod_small by assumption. apply counts_length. Qed.

Lemma eval_value :
  (forall x t, same original x t -> narrow t -> proper (@length tree) t -> forall st,
     @eval_nodes E T L ep original st (compile x) = Ok (value t :: st)) /\
  (forall l ts, sames original l ts -> Forall narrow ts -> Forall (proper (@length tree)) ts -> forall st,
     @eval_nodes E T L ep original st (flat_map compile_call l) = Ok (rev (call_values ts) ++ st) /\
     @eval_nodes E T L ep original st (flat_map compile l) = Ok (rev (map value ts) ++ st)).
Proof.
  apply same_sames_ind.
  - intros p q R _ _ st. cbn. rewrite R. reflexivity.
  - intros f l l' S IH N P st. inversion P as [|? ? Pa Hn]; subst. inversion N as [|? ? Na Lc]; subst.
    rewrite compile_call_eq, eval_nodes_app, (proj1 (IH Na Pa st)). cbn [bind].
    rewrite eval_nodes_app, (eval_leaves_value l l' _ S). cbn [bind].
    rewrite (sames_count8 _ _ _ S), count8_small by assumption. rewrite app_assoc.
    assert (Pm := split_perm l').
    assert (Lv : length (rev (leaf_values l') ++ rev (call_values l')) = length l').
    { rewrite (Permutation_length Pm). apply map_length. }
    cbn [eval_nodes]. destruct f; cbn [func_of eval_node value].
    + rewrite pop_n_fold by assumption. cbn [bind fst snd].
      rewrite fold_left_right by assumption. now rewrite (fold_right_perm _ and_comm and_assoc _ _ _ Pm).
    + rewrite pop_n_fold by assumption. cbn [bind fst snd].
      rewrite fold_left_right by assumption. now rewrite (fold_right_perm _ or_comm or_assoc _ _ _ Pm).
    + specialize (Hn eq_refl). destruct l' as [|t [|]]; try discriminate Hn.
      destruct t; reflexivity.
  - intros _ _ st. split; reflexivity.
  - intros x y l l' Sx IHx S IHs N P st. inversion P as [|? ? P1 P2]; subst.
    inversion N as [|? ? N1 N2]; subst. cbn [flat_map]. rewrite !eval_nodes_app. split.
    + destruct Sx as [p q R|f a a' Sa].
      * cbn [compile_call eval_nodes bind]. apply (proj1 (IHs N2 P2 st)).
      * cbn [compile_call]. rewrite (IHx N1 P1 st). cbn [bind].
        rewrite (proj1 (IHs N2 P2 _)). unfold call_values. cbn. now rewrite <- app_assoc.
    + rewrite (IHx N1 P1 st). cbn [bind]. rewrite (proj2 (IHs N2 P2 _)). cbn. now rewrite <- app_assoc.
Qed.

End Meaning.
