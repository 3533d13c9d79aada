(** What parsed expressions evaluate to, and how trees are written. *)
From Verif.Model Require Import Base Str Error CfgExpr.
From Verif.Spec Require Import StrSpec Utf8Spec CfgSpec.
From Verif.Proof Require Import StrFacts Utf8Proof CfgLexProof CfgParseProof CfgGrammarProof CfgProof.

(** ** Trees *)

Lemma tree_ind' (P : tree -> Prop)
  (H1 : forall p, P (Leaf p)) (H2 : forall f args, Forall P args -> P (Call f args)) t : P t.
Proof.
  revert t. fix IH 1. intros [p|f args]; [apply H1|apply H2].
  induction args as [|x args IHa]; constructor; [apply IH|apply IHa].
Qed.

Lemma proper_counts t : narrow t -> (proper count8 t <-> proper (@length tree) t).
Proof.
  induction t as [p|f args IH] using tree_ind'; intros N; [split; constructor|].
  inversion N as [|? ? Na Lc]; subst.
  assert (F : Forall (proper count8) args <-> Forall (proper (@length tree)) args).
  { rewrite !Forall_forall. rewrite Forall_forall in IH, Na.
    split; intros H x I; apply IH; auto; now apply H. }
  split; intros P; inversion P as [|? ? Pa Hn]; subst; constructor; try (now apply F);
    intros E; specialize (Hn E); rewrite ?count8_small in * by assumption; assumption.
Qed.
Lemma proper_counts_list l : Forall narrow l ->
  Forall (proper count8) l <-> Forall (proper (@length tree)) l.
Proof.
  intros N. rewrite !Forall_forall in *. split; intros H x I; apply proper_counts; auto.
Qed.

(** ** Values *)

Lemma value_bool ep t : proper (@length tree) t -> value logic_bool ep t = meaning ep t.
Proof.
  induction t as [p|f args IH] using tree_ind'; intros P; [reflexivity|].
  inversion P as [|? ? Pa Hn]; subst.
  assert (M : map (value logic_bool ep) args = map (meaning ep) args).
  { rewrite Forall_forall in IH, Pa. apply map_ext_in. intros x I. apply IH; auto. }
  destruct f; cbn [value meaning]; rewrite M.
  - clear. induction args as [|x args IH]; cbn in *; [reflexivity|]. now rewrite IH.
  - clear. induction args as [|x args IH]; cbn in *; [reflexivity|]. now rewrite IH.
  - specialize (Hn eq_refl). destruct args as [|x [|]]; try discriminate Hn. cbn.
    now rewrite orb_false_r.
Qed.

Lemma Forall2_map {X Y} (R : X -> Y -> Prop) f l :
  Forall (fun x => R x (f x)) l -> Forall2 R l (map f l).
Proof. induction 1; cbn; constructor; auto. Qed.

Lemma fold_and3 vs : let v := fold_right (l_and logic_option) (Some true) vs in
  (v = Some false <-> In (Some false) vs) /\
  (v = Some true <-> Forall (fun v => v = Some true) vs).
Proof.
  induction vs as [|x vs [IH1 IH2]]; cbn in *.
  - split; split; auto; try easy.
  - rewrite Forall_cons_iff, <- IH1, <- IH2.
    destruct x as [[]|], (fold_right _ _ vs) as [[]|]; intuition congruence.
Qed.
Lemma fold_or3 vs : let v := fold_right (l_or logic_option) (Some false) vs in
  (v = Some true <-> In (Some true) vs) /\
  (v = Some false <-> Forall (fun v => v = Some false) vs).
Proof.
  induction vs as [|x vs [IH1 IH2]]; cbn in *.
  - split; split; auto; try easy.
  - rewrite Forall_cons_iff, <- IH1, <- IH2.
    destruct x as [[]|], (fold_right _ _ vs) as [[]|]; intuition congruence.
Qed.

Lemma value_option ep t : proper (@length tree) t -> meaning3 ep t (value logic_option ep t).
Proof.
  induction t as [p|f args IH] using tree_ind'; intros P; [constructor|].
  inversion P as [|? ? Pa Hn]; subst.
  assert (M : Forall2 (meaning3 ep) args (map (value logic_option ep) args)).
  { apply Forall2_map. rewrite Forall_forall in *. intros x I. apply IH; auto. }
  destruct f; cbn [value].
  - econstructor; [exact M| |]; apply fold_and3.
  - econstructor; [exact M| |]; apply fold_or3.
  - specialize (Hn eq_refl). destruct args as [|x [|]]; try discriminate Hn.
    inversion M; subst. now constructor.
Qed.

(** The three-valued meaning is unique. *)
Lemma meaning3_unique ep t : forall v v', meaning3 ep t v -> meaning3 ep t v' -> v = v'.
Proof.
  induction t as [p|f args IH] using tree_ind'; intros v v' M M'.
  { inversion M; inversion M'; subst; congruence. }
  assert (U : forall vs vs', Forall2 (meaning3 ep) args vs -> Forall2 (meaning3 ep) args vs' -> vs = vs').
  { clear M M'. induction IH as [|x args Hx _ IHa]; intros vs vs' F F'; inversion F; inversion F'; subst;
      [reflexivity|]. f_equal; [now apply Hx|now apply IHa]. }
  inversion M as [|? vs ? F A1 A2|? vs ? F A1 A2|x y Mx]; subst;
  inversion M' as [|? vs' ? F' B1 B2|? vs' ? F' B1 B2|x' y' Mx']; subst.
  - rewrite <- (U vs vs' F F') in *. clear -A1 A2 B1 B2. destruct v as [[]|], v' as [[]|]; intuition congruence.
  - rewrite <- (U vs vs' F F') in *. clear -A1 A2 B1 B2. destruct v as [[]|], v' as [[]|]; intuition congruence.
  - f_equal. inversion IH; subst. auto.
Qed.

(** ** Parsed expressions *)

Section Parsed.
Context {E T : Type} (L : logic T) (ep : predicate -> T).
Context (and_comm : forall a b, l_and L a b = l_and L b a)
        (and_assoc : forall a b c, l_and L a (l_and L b c) = l_and L (l_and L a b) c)
        (or_comm : forall a b, l_or L a b = l_or L b a)
        (or_assoc : forall a b c, l_or L a (l_or L b c) = l_or L (l_or L a b) c).

Lemma parse_eval_value pr text s roots e d :
  utf8_valid text = true -> unwrapped text s -> written roots s -> Forall narrow roots ->
  parse_expr pr text = Ok e -> @eval_expr E T L ep e = Ok (value L ep (last roots d)).
Proof.
  intros V U W N P. destruct (parse_cases pr text V) as (s' & U' & Vs & C). rewrite P in C.
  rewrite (unwrapped_unique _ _ _ U' U) in *. clear s' U'.
  destruct C as (l & roots' & Sm & (W' & Pr & Ne & Le) & ->).
  rewrite (written_unique s roots' roots Vs W' W) in *. clear roots' W'.
  unfold eval_expr. cbn [ex_original ex_expr].
  destruct (proj2 (@eval_value E T L ep s and_comm and_assoc or_comm or_assoc) l roots Sm N
    (proj1 (proper_counts_list roots N) Pr) []) as [_ Ev].
  rewrite Ev, app_nil_r. cbn [bind]. destruct (exists_last Ne) as (pre & x & ->).
  rewrite last_last, map_app, rev_app_distr. reflexivity.
Qed.
End Parsed.

Lemma parse_eval_bool {E} pr text s roots e d ep :
  utf8_valid text = true -> unwrapped text s -> written roots s -> Forall narrow roots ->
  parse_expr pr text = Ok e -> @eval_expr E bool logic_bool ep e = Ok (meaning ep (last roots d)).
Proof.
  intros V U W N P.
  assert (Q := @parse_eval_value E bool logic_bool ep andb_comm andb_assoc orb_comm orb_assoc
    pr text s roots e d V U W N P). rewrite Q. f_equal. apply value_bool.
  destruct (parse_cases pr text V) as (s' & U' & Vs & C). rewrite P in C.
  rewrite (unwrapped_unique _ _ _ U' U) in *.
  destruct C as (l & roots' & Sm & (W' & Pr & Ne & Le) & _).
  rewrite (written_unique s roots' roots Vs W' W) in *.
  apply (proj1 (proper_counts_list roots N)) in Pr. rewrite Forall_forall in Pr. apply Pr.
  destruct (exists_last Ne) as (pre & x & ->). rewrite last_last. apply in_app_iff. right. now left.
Qed.

Lemma parse_eval_option {E} pr text s roots e d ep :
  utf8_valid text = true -> unwrapped text s -> written roots s -> Forall narrow roots ->
  parse_expr pr text = Ok e ->
  exists v, @eval_expr E (option bool) logic_option ep e = Ok v /\ meaning3 ep (last roots d) v.
Proof.
  intros V U W N P. exists (value logic_option ep (last roots d)). split.
  - apply (@parse_eval_value E (option bool) logic_option ep) with (pr := pr) (text := text) (s := s); try assumption;
      repeat intros [[]|]; reflexivity.
  - apply value_option.
    destruct (parse_cases pr text V) as (s' & U' & Vs & C). rewrite P in C.
    rewrite (unwrapped_unique _ _ _ U' U) in *.
    destruct C as (l & roots' & Sm & (W' & Pr & Ne & Le) & _).
    rewrite (written_unique s roots' roots Vs W' W) in *.
    apply (proj1 (proper_counts_list roots N)) in Pr. rewrite Forall_forall in Pr. apply Pr.
    destruct (exists_last Ne) as (pre & x & ->). rewrite last_last. apply in_app_iff. right. now left.
Qed.

Lemma parse_accepts pr text s roots :
  utf8_valid text = true -> unwrapped text s -> written roots s -> Forall narrow roots ->
  (is_ok (parse_expr pr text) = true <->
   roots <> [] /\ leaves roots <= 1 /\ Forall (proper (@length tree)) roots).
Proof.
  intros V U W N. destruct (parse_cases pr text V) as (s' & U' & Vs & C).
  rewrite (unwrapped_unique _ _ _ U' U) in *. clear s' U'.
  assert (A : accepted s roots <->
    roots <> [] /\ leaves roots <= 1 /\ Forall (proper (@length tree)) roots).
  { unfold accepted. rewrite (proper_counts_list roots N). tauto. }
  rewrite <- A. destruct (parse_expr pr text) as [e|e|p]; cbn [is_ok].
  - destruct C as (l & roots' & Sm & A' & ->). split; [|easy]. intros _.
    rewrite (written_unique s roots roots' Vs W (proj1 A')). assumption.
  - destruct C as [_ No]. split; [easy|]. intros A'. exfalso. eauto.
  - destruct C as (_ & _ & _ & No). split; [easy|]. intros A'. now destruct (No roots A').
Qed.

Lemma parse_ok_accepted pr text : utf8_valid text = true ->
  is_ok (parse_expr pr text) = true -> exists s roots, unwrapped text s /\ accepted s roots.
Proof.
  intros V O. destruct (parse_cases pr text V) as (s & U & Vs & C).
  destruct (parse_expr pr text); try discriminate O. destruct C as (l & roots & _ & A & _). eauto.
Qed.

Lemma accepted_parse_ok pr text : utf8_valid text = true -> overflow_checks pr = false ->
  (exists s roots, unwrapped text s /\ accepted s roots) -> is_ok (parse_expr pr text) = true.
Proof.
  intros V O (s & roots & U & A). destruct (parse_cases pr text V) as (s' & U' & Vs & C).
  rewrite (unwrapped_unique _ _ _ U' U) in *.
  destruct (parse_expr pr text) as [e|e|p]; [reflexivity| |].
  - exfalso. apply (proj2 C). eauto.
  - destruct C as (_ & O' & _). congruence.
Qed.

Lemma parse_no_panic pr text p : utf8_valid text = true ->
  parse_expr pr text = Panic p ->
  p = POverflow /\ overflow_checks pr = true /\ 256 <= opens text.
Proof.
  intros V P. destruct (parse_cases pr text V) as (s & U & Vs & C). rewrite P in C. tauto.
Qed.

Lemma parse_eval_ok {E T} (L : logic T) ep pr text e : utf8_valid text = true ->
  parse_expr pr text = Ok e -> exists v, @eval_expr E T L ep e = Ok v.
Proof.
  intros V P. destruct (parse_cases pr text V) as (s & U & Vs & C). rewrite P in C.
  destruct C as (l & roots & Sm & (W & Pr & Ne & Le) & ->).
  unfold eval_expr. cbn [ex_original ex_expr].
  destruct (proj2 (@eval_total E T L ep s) l roots Sm Pr []) as [_ (st & -> & Lt)]. cbn [bind].
  destruct st as [|r st]; [|eauto]. destruct roots; [easy|cbn in Lt; lia].
Qed.

Lemma parse_err_ok pr text s e : utf8_valid text = true -> unwrapped text s ->
  parse_expr pr text = Err e -> err_ok s e.
Proof.
  intros V U P. destruct (parse_cases pr text V) as (s' & U' & Vs & C). rewrite P in C.
  rewrite (unwrapped_unique _ _ _ U U'). apply C.
Qed.

(** ** Writing trees *)

Fixpoint seps (l : list (list token)) : list token :=
  match l with
  | [] => []
  | [x] => x
  | x :: rest => x ++ TComma :: seps rest
  end.
Fixpoint tokens (x : tree) : list token :=
  match x with
  | Leaf (PFlag k) => [TKey k]
  | Leaf (PKeyValue k v) => [TKey k; TEquals; TValue v]
  | Call f args => callee_token f :: TOpen :: seps (map tokens args) ++ [TClose]
  end.

Lemma item_tokens t : item t (tokens t).
Proof.
  induction t as [[k|k v]|f args IH] using tree_ind'; cbn [tokens]; try constructor.
  induction IH as [|x args Hx F IHa]; [constructor|]. destruct args as [|y args].
  - cbn. rewrite <- (app_nil_r (tokens x)). apply (items_last x (tokens x) 0 Hx).
  - apply (items_more x (tokens x) 0 y args _ Hx IHa).
Qed.

Lemma blank_space : blank (B " ").
Proof. change (B " ") with (B " " ++ []). constructor; [|constructor]. cbn. tauto. Qed.

Definition cut (s : str) : Prop := ~ word_goes_on s.
Lemma cut_nil : cut [].
Proof. intros (c & r & E & _). discriminate. Qed.
Lemma cut_char c s : ~ (letter c \/ digit c) -> cut (c :: s).
Proof. intros N (x & r & [= <- <-] & H). now apply N. Qed.
Ltac solve_cut := apply cut_char; cbv [letter digit]; cbn; lia.

Lemma lexes_next t w rest ts : spelled t w -> (is_word t -> cut rest) -> lexes rest ts ->
  lexes (w ++ rest) (t :: ts).
Proof. intros. apply (lexes_token [] w rest t ts); auto. constructor. Qed.
Lemma lexes_space t w rest ts : spelled t w -> (is_word t -> cut rest) -> lexes rest ts ->
  lexes (B " " ++ w ++ rest) (t :: ts).
Proof. intros. apply lexes_token; auto. apply blank_space. Qed.

(** A comma and a space before whatever comes next. *)
Lemma lexes_blank_before b s ts : blank b -> lexes s ts -> lexes (b ++ s) ts.
Proof.
  intros Hb H. destruct H as [s Hs|b' w rest t ts Hb' Sp N H].
  - constructor. now apply blank_app.
  - rewrite app_assoc. apply lexes_token; auto. now apply blank_app.
Qed.

Lemma lexes_show t : printable t -> forall rest ts, cut rest -> lexes rest ts ->
  lexes (show t ++ rest) (tokens t ++ ts).
Proof.
  induction t as [[k|k v]|f args IH] using tree_ind'; intros P rest ts C H; inversion P; subst;
    cbn [show tokens].
  - cbn [app]. apply lexes_next; auto. match goal with X : name_ok k |- _ => destruct X as (? & ? & ? & ?) end.
    now constructor.
  - rewrite <- !app_assoc. cbn [app]. apply lexes_next.
    + match goal with X : name_ok k |- _ => destruct X as (? & ? & ? & ?) end. now constructor.
    + intros _. solve_cut.
    + change (B " = " ++ quote :: (v ++ [quote]) ++ rest) with
        (B " " ++ B "=" ++ (B " " ++ (quote :: v ++ [quote]) ++ rest)).
      apply lexes_space; [constructor|intros []|]. apply lexes_space; [now constructor|intros []|assumption].
  - rewrite <- !app_assoc. cbn [app]. apply lexes_next; [destruct f; constructor|intros _; solve_cut|].
    apply lexes_next; [constructor|intros []|].
    assert (H' : lexes (B ")" ++ rest) (TClose :: ts)) by (apply lexes_next; [constructor|intros []|assumption]).
    rewrite <- app_assoc. change ([TClose] ++ ts) with (TClose :: ts).
    assert (C' : cut (B ")" ++ rest)) by solve_cut.
    remember (B ")" ++ rest) as r eqn:Er. clear Er.
    match goal with X : Forall printable args |- _ => rename X into Pa end.
    clear P. induction IH as [|x args Hx F IHa]; [assumption|]. inversion Pa; subst.
    destruct args as [|y args].
    + cbn [map comma_join seps]. apply Hx; assumption.
    + change (comma_join (map show (x :: y :: args))) with
        (show x ++ B ", " ++ comma_join (map show (y :: args))).
      change (seps (map tokens (x :: y :: args))) with
        (tokens x ++ TComma :: seps (map tokens (y :: args))).
      rewrite <- !app_assoc. apply Hx; [assumption|solve_cut|].
      change (B ", " ++ comma_join (map show (y :: args)) ++ r) with
        (B "," ++ (B " " ++ (comma_join (map show (y :: args)) ++ r))).
      cbn [app]. apply lexes_next; [constructor|intros []|].
      apply lexes_blank_before; [apply blank_space|]. now apply IHa.
Qed.

Lemma show_written t : printable t -> written [t] (show t).
Proof.
  intros P. exists (tokens t). split.
  - rewrite <- (app_nil_r (show t)), <- (app_nil_r (tokens t)).
    apply lexes_show; [assumption|apply cut_nil|]. constructor. constructor.
  - rewrite <- (app_nil_r (tokens t)). apply (items_last t (tokens t) 0), item_tokens.
Qed.

Lemma utf8_app a b : utf8 a -> utf8 b -> utf8 (a ++ b).
Proof.
  intros H Hb. induction H as [|n c s Hc Hs IH]; [assumption|].
  rewrite <- app_assoc. now apply (utf8_cons n).
Qed.
