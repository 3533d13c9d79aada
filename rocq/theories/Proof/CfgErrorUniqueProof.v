(** A text that is refused is refused for one reason. *)
From Verif.Model Require Import Base Str Error CfgExpr.
From Verif.Spec Require Import StrSpec Utf8Spec CfgSpec CfgErrorSpec.
From Verif.Proof Require Import StrFacts Utf8Proof CfgLexProof CfgParseProof CfgGrammarProof CfgProof CfgEvalProof CfgErrorProof.

(** ** Texts that end with their last token *)

Inductive tight : nat -> str -> list stok -> Prop :=
| tight_nil o : tight o [] []
| tight_cons o b w rest t ts :
    blank b -> spelled t w -> (is_word t -> ~ word_goes_on rest) ->
    tight (o + length b + length w) rest ts ->
    tight o (b ++ w ++ rest) ((t, (o + length b, o + length b + length w)) :: ts).

Lemma tight_lexed o p sts : tight o p sts -> lexed o p sts.
Proof. induction 1; constructor; auto. constructor. Qed.

Lemma word_end t w p c : spelled t w -> is_word t -> w = p ++ [c] -> letter c \/ digit c.
Proof.
  intros Sp W E. assert (F : Forall (fun c => letter c \/ digit c) w).
  { destruct Sp as [w (c' & r & E1 & Lc & F) _ _ _|v _| | | | | | |]; try contradiction;
      [rewrite E1; constructor; [now left|exact F]| | |];
      repeat (apply Forall_cons || apply Forall_nil); left; unfold letter; cbn; lia. }
  rewrite E in F. apply Forall_app in F as [_ F]. now inversion F.
Qed.

Lemma lexed_tight o pre sts : lexed o pre sts ->
  exists p b, pre = p ++ b /\ blank b /\ tight o p sts /\
    (forall q, parted pre q -> apart sts (b ++ q)).
Proof.
  induction 1 as [o s Hb|o b w rest t ts Hb Sp M L IH].
  - exists [], s. split; [reflexivity|]. split; [assumption|]. split; [constructor|].
    intros q _ [|] x E; discriminate.
  - destruct IH as (p & b' & -> & Hb' & Lp & A). exists (b ++ w ++ p), b'.
    split; [now rewrite <- !app_assoc|]. split; [assumption|].
    split; [constructor; auto; intros W; specialize (M W); now apply no_word_prefix in M|].
    intros q Pa. destruct ts as [|y ts].
    + intros sts' x Ex W. inversion Lp; subst p.
      assert (x = (t, (o + length b, o + length b + length w))) as ->.
      { destruct sts' as [|? [|]]; now inversion Ex. }
      cbn [fst] in W. cbn [app] in M, Pa.
      destruct (exists_last (spelled_not_nil t w Sp)) as (w' & z & Ew).
      destruct (blank_not_word b' q Hb') as [Nw| ->]; [exact Nw|]. cbn [app].
      apply (Pa (b ++ w') z); [rewrite Ew, app_nil_r; now rewrite app_assoc|]. now apply (word_end t w w' z).
    + intros sts' x Ex W. destruct sts' as [|x' sts']; [discriminate|].
      injection Ex as _ Ex. apply (A q) with (sts' := sts') (x := x); auto.
      intros p1 c E1 Lc. apply (Pa (b ++ w ++ p1) c); [|assumption]. rewrite E1. now rewrite <- !app_assoc.
Qed.

Lemma lexes_valid pre ts r : lexes pre ts -> utf8_valid (pre ++ r) = true ->
  utf8_valid pre = true /\ utf8_valid r = true.
Proof.
  induction 1 as [s Hb|b w rest t ts Hb Sp M _ IH]; intros V.
  - rewrite valid_blank in V by assumption. split; [|assumption].
    rewrite <- (app_nil_r s). now rewrite valid_blank.
  - rewrite <- !app_assoc in V. rewrite valid_blank in * by assumption.
    destruct (IH (spelled_valid t w _ Sp V)) as [V1 V2]. split; [|assumption].
    rewrite valid_app by exact (spelled_self_valid t w _ Sp V). exact V1.
Qed.

(** ** Reading on *)

Lemma ploop_run original : forall sts o p q z z' fuel,
  tight o p sts -> apart sts q -> utf8_valid (p ++ q) = true -> run z sts = Some z' -> zok o z ->
  o + length (p ++ q) = length original -> length (p ++ q) < fuel ->
  utf8_valid q = true /\ zok (o + length p) z' /\
  exists fuel', length q < fuel' /\
    ploop fuel release original (p ++ q) o (conc z) = ploop fuel' release original q (o + length p) (conc z').
Proof.
  induction sts as [|[t sp] sts IH]; intros o p q z z' fuel L A V R Z Lo Lf.
  - inversion L; subst. cbn [run] in R. injection R as <-. cbn [app length] in *. rewrite Nat.add_0_r.
    split; [assumption|]. split; [assumption|]. now exists fuel.
  - remember ((t, sp) :: sts) as l eqn:El. destruct L as [|o b w rest t' ts Hb Sp M L]; [discriminate|].
    injection El as -> <- ->. cbn [run] in R.
    destruct (astep z _) as [z1|] eqn:As in R; [|discriminate].
    destruct fuel as [|fuel]; [lia|]. cbn [ploop].
    assert (M' : is_word t -> ~ word_goes_on (rest ++ q)).
    { intros W (c & r & Ec & Lc). destruct rest as [|y rest].
      - destruct sts as [|y sts].
        + apply (A [] _ eq_refl W). exists c, r. auto.
        + now apply tight_lexed, lexed_nil in L.
      - injection Ec as -> _. apply (M W). exists c, rest. auto. }
    replace ((b ++ w ++ rest) ++ q) with (b ++ w ++ rest ++ q) in * by now rewrite <- !app_assoc.
    rewrite (lex_next_token original b t w (rest ++ q) o Hb Sp M' V). cbn [bind].
    assert (Lw : 1 <= length w) by (destruct (spelled_head t w Sp) as (c & r & -> & _); cbn; lia).
    assert (V2 := V). rewrite valid_blank in V2 by assumption.
    assert (V' := spelled_valid t w (rest ++ q) Sp V2).
    rewrite !app_length in *.
    assert (Ps := pstep_spec release original z (t, (o + length b, o + length b + length w)) o Z).
    cbn [fst snd] in Ps. specialize (Ps ltac:(lia) ltac:(lia)). unfold step_spec in Ps. cbn [fst snd] in Ps.
    destruct (pstep release original (conc z) t (o + length b, o + length b + length w)) as [s'|e|pn] eqn:Es; cbn [bind].
    + destruct Ps as (z2 & A2 & -> & Z2). rewrite As in A2. injection A2 as <-.
      destruct (IH (o + length b + length w) rest q z1 z' fuel L) as (Vq & Zq & f' & Lf' & Eq); auto.
      * destruct sts as [|y sts]; [intros [|] ? Ex; discriminate|]. now apply apart_cons in A.
      * rewrite app_length. lia.
      * rewrite app_length. lia.
      * split; [assumption|].
        replace (o + (length b + (length w + length rest))) with (o + length b + length w + length rest) by lia.
        split; [assumption|]. now exists f'.
    + destruct Ps as [A2 _]. congruence.
    + destruct Ps as (_ & [=] & _).
Qed.

(** ** What is fine can be read *)

Lemma nots_ok_app a b : nots_ok (a ++ b) -> nots_ok a.
Proof.
  intros N x args y c -> I. apply (N x args y (c ++ b)); [|assumption].
  rewrite <- !app_assoc. cbn [app]. now rewrite <- !app_assoc.
Qed.

Lemma fine_run : forall sts pre, utf8_valid pre = true -> lexed 0 pre sts ->
  begins (map fst sts) -> nots_ok (map fst sts) ->
  exists z, run init sts = Some z /\ zok (length pre) z.
Proof.
  induction sts as [|[t sp] sts IH] using rev_ind; intros pre V L Bg No.
  { exists init. split; [reflexivity|]. apply (zok_le 0); [lia|apply init_ok]. }
  rewrite map_app in Bg, No. cbn [map fst] in Bg, No.
  destruct (lexed_split _ _ _ _ _ _ L) as (p & w & r & -> & -> & L1 & Sp & M & L2). cbn [plus].
  assert (V1 : utf8_valid p = true).
  { exact (proj1 (lexes_valid p _ _ (lexed_lexes 0 _ _ L1) V)). }
  destruct (IH p V1 L1 (begins_app _ _ Bg) (nots_ok_app _ _ No)) as (z & R & Z).
  rewrite run_app, R. cbn [run].
  destruct (lexed_fine _ _ _ V1 L1 R) as [Fi F].
  assert (Ps := pstep_spec release (p ++ w ++ r) z (t, (length p, length p + length w)) (length p) Z).
  cbn [fst snd] in Ps. rewrite !app_length in Ps. specialize (Ps ltac:(lia) ltac:(lia)).
  unfold step_spec in Ps. cbn [fst snd] in Ps.
  destruct (pstep release (p ++ w ++ r) (conc z) t _) as [s'|e|pn] eqn:Es in Ps.
  - destruct Ps as (z2 & A2 & -> & Z2). exists z2.
    split; [exact (f_equal (fun o => match o with Some z3 => Some z3 | None => None end) A2)|].
    apply (zok_le (length p + length w)); [rewrite !app_length; lia|assumption].
  - exfalso. clear Ps.
    assert (La := run_last _ _ _ R). change (conc_last init) with (@None token) in La.
    assert (Zt := reached_zt _ _ R).
    apply (pstep_err release _ z t _ e (length p) Z) in Es as
      [(Fo & _)|[(Fo & -> & Ef & _)|(Fo & -> & fr & frs & Ef & Ec & Nc & _)]].
    + apply begins_follows in Bg. rewrite <- La in Bg. congruence.
    + destruct z as [[frs root] m]. cbn [fst] in Ef. subst frs.
      assert (Nm : m <> MFn) by (intros ->; discriminate Fo).
      assert (Ne : forall s, m <> MEq s) by (intros s ->; discriminate Fo).
      destruct (zt_elim _ _ _ _ Nm Zt) as (p0 & its & O & T & E). cbn in O. subst p0. cbn [app] in E. subst its.
      destruct (tail_items p _ _ _ Nm Ne T F) as (l & _ & S & _).
      apply (begins_depth _ Bg). rewrite depth_app, (proj2 grammar_depth l _ S 0). reflexivity.
    + destruct z as [[frs' root] m]. cbn [fst snd] in *. subst frs'.
      assert (Nm : m <> MFn) by (intros ->; cbn in Fo; rewrite Ec in Fo; discriminate Fo).
      assert (Ne : forall s, m <> MEq s) by (intros s ->; discriminate Fo).
      destruct (zt_elim _ _ _ _ Nm Zt) as (p0 & its & O & T & E).
      destruct O as (p' & its' & so & O & S' & _ & ->). subst sts.
      rewrite Ec in *. cbn [callee_token] in *.
      assert (F2 := F). apply Forall_app in F2 as [_ F2].
      destruct (tail_items p _ _ _ Nm Ne T F2) as (args & Sm & S & _).
      cbn [top_items fst] in Sm. rewrite (sames_count8 p _ _ Sm) in Nc.
      apply Nc, (No (map fst (p' ++ its')) args (map fst its) []); [|assumption].
      rewrite !map_app. cbn [map fst]. rewrite <- !app_assoc. reflexivity.
  - destruct Ps as (_ & [=] & _).
Qed.

(** The loop comes to the end of what is fine. *)
Lemma fine_reached s pre q ts :
  utf8_valid s = true -> s = pre ++ q -> fine pre ts -> parted pre q ->
  exists sts z p b fuel,
    map fst sts = ts /\ lexed 0 pre sts /\ Forall (in_place pre) sts /\ run init sts = Some z /\
    pre = p ++ b /\ blank b /\ lexed 0 p sts /\ zok (length p) z /\ utf8_valid (b ++ q) = true /\
    length (b ++ q) < fuel /\ apart sts (b ++ q) /\ utf8_valid pre = true /\
    ploop (S (length s)) release s s 0 ps_init = ploop fuel release s (b ++ q) (length p) (conc z).
Proof.
  intros V -> (Lx & Bg & No) Pa.
  destruct (lexes_valid pre ts q Lx V) as [V1 V2].
  destruct (lexes_lexed pre ts Lx 0) as (sts & L & <-).
  destruct (fine_run sts pre V1 L Bg No) as (z & R & Z).
  destruct (lexed_fine _ _ _ V1 L R) as [_ F].
  destruct (lexed_tight 0 pre sts L) as (p & b & -> & Hb & T & A). specialize (A q Pa).
  rewrite <- app_assoc in V.
  destruct (ploop_run ((p ++ b) ++ q) sts 0 p (b ++ q) init z (S (length ((p ++ b) ++ q))) T A V R init_ok)
    as (Vq & Zq & f & Lf & E).
  - now rewrite app_assoc.
  - rewrite app_assoc. lia.
  - rewrite conc_init in E. cbn [plus] in *. exists sts, z, p, b, f.
    assert (Lp := tight_lexed _ _ _ T).
    rewrite <- E. rewrite <- app_assoc. repeat (split; [assumption || reflexivity|]). reflexivity.
Qed.

(** ** The errors happen *)

Definition outcome (s : str) : res parse_error expression :=
  st <- ploop (S (length s)) release s s 0 ps_init ;; pfinish s st.

Definition refused (s : str) (sp : nat * nat) (r : reason) : Prop :=
  exists e, outcome s = Err e /\ pe_span e = sp /\ alike (pe_reason e) r.

Lemma open_unique a a' i i' l l' :
  a ++ TOpen :: i = a' ++ TOpen :: i' -> items l i -> items l' i' -> a = a' /\ i = i'.
Proof.
  assert (K : forall a i i' l l', items l i -> items l' i' -> a ++ TOpen :: i = TOpen :: i' -> a = []).
  { clear. intros a i i' l l' S S' E. destruct a as [|t a]; [reflexivity|].
    injection E as -> E. subst i'. exfalso.
    assert (D := proj2 grammar_depth l' _ S' 0). rewrite depth_app in D.
    destruct (depth 0 a) as [d|]; [|discriminate]. cbn [depth] in D.
    rewrite (proj2 grammar_depth l i S (Datatypes.S d)) in D. discriminate. }
  intros E S S'. revert a' E. induction a as [|t a IH]; intros a' E.
  - cbn [app] in E. symmetry in E. assert (a' = []) as -> by exact (K _ _ _ _ _ S' S E). now injection E as ->.
  - destruct a' as [|t' a'].
    + assert (H := K _ _ _ _ _ S S' E). discriminate H.
    + injection E as -> E. destruct (IH a' E) as [-> ->]. auto.
Qed.

Lemma follows_close ts its args :
  items args its -> follows (lastof None (ts ++ TOpen :: its)) TClose = true.
Proof.
  intros S. rewrite lastof_app. cbn [lastof].
  destruct (proj2 grammar_chain args its S (Some TOpen) eq_refl) as (_ & H1 & H2).
  destruct args as [|a args]; [now rewrite H1|]. cbn [follows]. rewrite H2; easy.
Qed.

(** Nothing but a word goes on with a word. *)
Lemma parted_other pre c rest : ~ (letter c \/ digit c) -> parted pre (c :: rest).
Proof. intros N p x _ _ (y & r & [= -> _] & L). contradiction. Qed.

(** One more token is taken. *)
Lemma next_token s pre w rest t ts :
  utf8_valid s = true -> s = pre ++ w ++ rest -> fine pre ts -> parted pre (w ++ rest) ->
  spelled t w -> (is_word t -> ~ word_goes_on rest) ->
  exists sts z n, map fst sts = ts /\ lexed 0 pre sts /\ Forall (in_place pre) sts /\
    run init sts = Some z /\ zok n z /\
    ((exists e, outcome s = Err e /\
        pstep release s (conc z) t (length pre, length pre + length w) = Err e) \/
     fine (pre ++ w) (ts ++ [t])).
Proof.
  intros V Es Fi Pa Sp M.
  destruct (fine_reached s pre (w ++ rest) ts V Es Fi Pa)
    as (sts & z & p & b & fuel & E & L & F & R & Ep & Hb & Lp & Z & Vq & Lf & A & Vp & El).
  exists sts, z, (length p). repeat (split; [assumption|]).
  remember (ploop (S (length s)) release s s 0 ps_init) as lp eqn:Elp.
  destruct fuel as [|fuel]; [lia|]. cbn [ploop] in El.
  rewrite (lex_next_token s b t w rest (length p) Hb Sp M Vq) in El. cbn [bind] in El.
  assert (Lb : length p + length b = length pre) by now rewrite Ep, app_length.
  rewrite Lb in El.
  assert (Ps := pstep_spec release s z (t, (length pre, length pre + length w)) (length p) Z).
  cbn [fst snd] in Ps. rewrite Es, !app_length in Ps at 1. specialize (Ps ltac:(lia) ltac:(lia)).
  unfold step_spec in Ps. cbn [fst snd] in Ps.
  destruct (pstep release s (conc z) t (length pre, length pre + length w)) as [s'|e|pn] eqn:Ep'.
  - right. destruct Ps as (z2 & A2 & _ & _). clear El.
    assert (L' : lexed 0 (pre ++ w) (sts ++ [(t, (length pre, length pre + length w))])).
    { rewrite Ep. rewrite <- app_assoc. apply lexed_app; [assumption| |].
      - intros sts' x Ex W. specialize (A sts' x Ex W). rewrite app_assoc in A. now apply no_word_prefix in A.
      - cbn [plus]. rewrite app_length. rewrite <- (app_nil_r w) at 1. constructor; auto.
        + intros _. apply no_word_nil.
        + constructor. constructor. }
    assert (V' : utf8_valid (pre ++ w) = true).
    { rewrite valid_app by assumption. rewrite valid_blank in Vq by assumption. exact (spelled_self_valid t w rest Sp Vq). }
    assert (R' : run init (sts ++ [(t, (length pre, length pre + length w))]) = Some z2).
    { rewrite run_app, R. cbn [run]. exact (f_equal (fun o => match o with Some z3 => Some z3 | None => None end) A2). }
    destruct (lexed_fine _ _ _ V' L' R') as [Fi' _]. rewrite map_app, E in Fi'. exact Fi'.
  - left. exists e. split; [|reflexivity]. unfold outcome. now rewrite <- Elp, El.
  - destruct Ps as (_ & [=] & _).
Qed.

Lemma refused_token s pre w rest t ts names :
  utf8_valid s = true ->
  s = pre ++ w ++ rest -> fine pre ts -> parted pre (w ++ rest) ->
  spelled t w -> (is_word t -> ~ word_goes_on rest) ->
  ~ begins (ts ++ [t]) -> hints ts names ->
  (t = TClose -> ~ exists l, l <> [] /\ items l ts) ->
  refused s (length pre, length pre + length w) (Unexpected names).
Proof.
  intros V Es Fi Pa Sp M Nb Hi Nc.
  destruct (next_token s pre w rest t ts V Es Fi Pa Sp M)
    as (sts & z & n & E & L & F & R & Z & [(e & Eo & Ep)|(_ & Bg & _)]); [|contradiction].
  exists e. split; [assumption|].
  assert (Zt := reached_zt _ _ R). subst ts.
  apply (pstep_err release s z t _ e n Z) in Ep as
    [(Fo & ->)|[(Fo & -> & Ef & _)|(Fo & -> & fr & frs & Ef & _ & _ & _)]]; cbn [pe_span pe_reason].
  - split; [reflexivity|]. apply (alike_names (map fst sts)); [|assumption].
    destruct z as [[frs root] m]. now apply (hints_ok pre frs root m).
  - exfalso. apply (Nc eq_refl). destruct z as [[frs root] m]. cbn [fst] in Ef. subst frs.
    assert (Nm : m <> MFn) by (intros ->; discriminate Fo).
    assert (Ne : forall s, m <> MEq s) by (intros ? ->; discriminate Fo).
    assert (Ns : m <> MStart) by (intros ->; discriminate Fo).
    destruct (zt_elim _ _ _ _ Nm Zt) as (p & its & O & T & E). cbn in O. subst p. cbn [app] in E. subst its.
    destruct (tail_items pre _ _ _ Nm Ne T F) as (l & _ & S & N). exists l. auto.
  - exfalso. apply Nb. destruct z as [[frs' root] m]. cbn [fst snd] in Ef. subst frs'.
    now apply (can_follow pre (fr :: frs) root m).
Qed.

Lemma refused_unopened s pre rest ts l :
  utf8_valid s = true ->
  s = pre ++ B ")" ++ rest -> fine pre ts -> items l ts -> l <> [] ->
  refused s (length pre, length pre + 1) UnopenedParens.
Proof.
  intros V Es Fi It Nl.
  assert (Pa : parted pre (B ")" ++ rest)) by (apply parted_other; unfold letter, digit; cbn; lia).
  destruct (next_token s pre (B ")") rest TClose ts V Es Fi Pa spelled_close ltac:(easy))
    as (sts & z & n & E & L & F & R & Z & [(e & Eo & Ep)|(_ & Bg & _)]).
  2:{ exfalso. apply (begins_depth _ Bg). rewrite depth_app, (proj2 grammar_depth l _ It 0). reflexivity. }
  exists e. split; [assumption|]. change (length (B ")")) with 1 in Ep.
  assert (La := run_last _ _ _ R). change (conc_last init) with (@None token) in La.
  assert (Zt := reached_zt _ _ R). subst ts.
  apply (pstep_err release s z TClose _ e n Z) in Ep as
    [(Fo & _)|[(_ & _ & Ef & ->)|(Fo & _ & fr & frs & Ef & _ & _ & _)]].
  - exfalso. assert (C := items_commable l _ It Nl). rewrite <- La in C. cbn [follows] in Fo. rewrite C in Fo. discriminate Fo.
  - split; [reflexivity|constructor].
  - exfalso. destruct z as [[frs' root] m]. cbn [fst snd] in Ef. subst frs'.
    assert (Bg := can_follow pre (fr :: frs) root m sts TClose Zt F Fo ltac:(easy)).
    apply (begins_depth _ Bg). rewrite depth_app, (proj2 grammar_depth l _ It 0). reflexivity.
Qed.

(** The lexer fails. *)
Lemma next_error s pre c rest ts e :
  utf8_valid s = true -> s = pre ++ c :: rest -> fine pre ts -> parted pre (c :: rest) ->
  no_leading_ws (c :: rest) -> (utf8_valid (c :: rest) = true -> lex_token s (c :: rest) (length pre) c = Err e) ->
  outcome s = Err e.
Proof.
  intros V Es Fi Pa Nw El.
  destruct (fine_reached s pre (c :: rest) ts V Es Fi Pa)
    as (sts & z & p & b & fuel & E & L & F & R & Ep & Hb & Lp & Z & Vq & Lf & A & Vp & Eq).
  destruct fuel as [|fuel]; [lia|]. unfold outcome. rewrite Eq. cbn [ploop]. unfold lex_next.
  rewrite trim_start_at, app_length by assumption.
  replace (length b + length (c :: rest) - length (c :: rest)) with (length b) by lia.
  rewrite slice_from_app by (rewrite valid_blank in Vq by assumption; assumption). cbn [or_slice bind].
  replace (length p + length b) with (length pre) by now rewrite Ep, app_length.
  rewrite El; [reflexivity|]. now rewrite valid_blank in Vq.
Qed.

Lemma refused_stray s pre c rest ts :
  utf8_valid s = true ->
  s = pre ++ c :: rest -> fine pre ts -> parted pre (c :: rest) -> no_token c ->
  (forall b r, blank b -> c :: rest = b ++ r -> b = []) ->
  refused s (length pre, length pre + 1) (Unexpected ["<key>"; "all"; "any"; "not"]%string).
Proof.
  intros V Es Fi Pa [Nl Nt] Nb.
  exists (mkParseError s (length pre, length pre + 1) (Unexpected ["<key>"; "all"; "any"; "not"]%string)).
  split; [|split; [reflexivity|constructor]].
  { apply (next_error s pre c rest ts _ V Es Fi Pa).
      - intros x r Ix E. assert (x ++ [] = []) as Hx.
        { apply (Nb (x ++ []) r); [constructor; [assumption|constructor]|now rewrite app_nil_r]. }
        rewrite app_nil_r in Hx. subst x. apply white_space_shape in Ix.
        destruct Ix as [(?&[=]&_)|[(?&?&[=]&_)|(?&?&?&[=]&_)]].
      - intros _. unfold lex_token.
        assert (K : forall x, In x [quote; "="%char; "("%char; ")"%char; ","%char] -> Ascii.eqb c x = false).
        { intros x Ix. apply Ascii.eqb_neq. intros ->. contradiction. }
        rewrite (K "="%char), (K "("%char), (K ")"%char), (K ","%char) by (cbn; auto 6).
        change dquote with quote. rewrite (K quote) by (cbn; auto).
        destruct (is_ident_start c) eqn:Ei; [apply ident_start_iff in Ei; contradiction|]. reflexivity. }
Qed.

Lemma refused_quote s pre v ts :
  utf8_valid s = true -> s = pre ++ quote :: v -> fine pre ts -> ~ In quote v ->
  refused s (length pre, length s) UnclosedQuotes.
Proof.
  intros V Es Fi Nq. exists (mkParseError s (length pre, length s) UnclosedQuotes).
  split; [|split; [reflexivity|constructor]].
  { apply (next_error s pre quote v ts _ V Es Fi).
      - apply parted_other. unfold letter, digit. cbn. lia.
      - apply starts_no_ws. unfold starts_token. auto 8.
      - intros Vv. unfold lex_token. change (Ascii.eqb quote dquote) with true.
        change (Ascii.eqb quote "=") with false. change (Ascii.eqb quote "(") with false.
        change (Ascii.eqb quote ")") with false. change (Ascii.eqb quote ",") with false. cbv beta iota.
        rewrite slice_from_1 by (try assumption; reflexivity). cbn [or_slice bind].
        assert (find_byte (Ascii.eqb dquote) v = None) as ->; [|reflexivity].
        apply find_byte_none, Forall_forall. intros x Ix. apply Ascii.eqb_neq. intros <-. contradiction. }
Qed.

(** Tokens before and after a word or sign in the text. *)
Lemma lexed_at pre w rest t sts1 sts2 sts :
  utf8_valid (pre ++ w ++ rest) = true ->
  lexed 0 pre sts1 -> parted pre (w ++ rest) -> spelled t w -> (is_word t -> ~ word_goes_on rest) ->
  lexed (length pre + length w) rest sts2 -> lexed 0 (pre ++ w ++ rest) sts ->
  sts = sts1 ++ (t, (length pre, length pre + length w)) :: sts2.
Proof.
  intros V L1 Pa Sp M L2 L.
  destruct (lexed_tight _ _ _ L1) as (p & b & -> & Hb & T & A). specialize (A _ Pa).
  assert (L' : lexed 0 ((p ++ b) ++ w ++ rest) (sts1 ++ (t, (length (p ++ b), length (p ++ b) + length w)) :: sts2)).
  { rewrite <- app_assoc. apply lexed_app; [now apply tight_lexed|assumption|].
    cbn [plus]. rewrite app_length in *. now constructor. }
  exact (lexed_unique 0 _ _ _ V L L').
Qed.

Lemma same_place {A B} (f : A -> B) a x b a' x' b' :
  a ++ x :: b = a' ++ x' :: b' -> map f a = map f a' -> a = a' /\ x = x' /\ b = b'.
Proof.
  revert a'. induction a as [|y a IH]; intros [|y' a'] E M; try discriminate M.
  - injection E as -> ->. auto.
  - injection E as -> E. injection M as M. destruct (IH a' E M) as (-> & -> & ->). auto.
Qed.

Lemma parted_after pre ts t q : lexes pre ts -> begins (ts ++ [t]) -> is_word t -> parted pre q.
Proof.
  intros Lx Bg W p c E Lc. destruct (lexes_lexed pre ts Lx 0) as (sts & L & <-).
  destruct (lexed_end_word 0 pre sts L p c E Lc) as (sts' & x & -> & Wx).
  apply begins_follows in Bg. rewrite map_app, lastof_app in Bg. cbn [map lastof] in Bg.
  destruct t; try contradiction; cbn [follows starter] in Bg; destruct (fst x); try discriminate Bg; contradiction.
Qed.
Lemma sign_no_word w its : lexes w (TOpen :: its) -> ~ word_goes_on w.
Proof.
  intros L. inversion L as [|b w' rest t ts Hb Sp M L' E1 E2]. subst. inversion Sp; subst.
  destruct (blank_not_word b (B "(" ++ rest) Hb) as [N| ->]; [exact N|].
  intros (y & r & Ey & Ly). injection Ey as <- _. unfold letter, digit in Ly. cbn in Ly. lia.
Qed.

Lemma refused_not s pre w rest ts its args :
  utf8_valid s = true ->
  s = pre ++ (B "not" ++ w ++ B ")") ++ rest ->
  lexes pre ts -> lexes w (TOpen :: its) -> items args its -> count8 args <> 1 ->
  fine (pre ++ B "not" ++ w) (ts ++ TNot :: TOpen :: its) ->
  refused s (length pre, length pre + length (B "not" ++ w ++ B ")")) (InvalidNot (count8 args)).
Proof.
  intros V Es L1 L2 It Nc Fi.
  set (pre' := pre ++ B "not" ++ w) in *.
  assert (Es' : s = pre' ++ B ")" ++ rest) by (rewrite Es; unfold pre'; now rewrite <- !app_assoc).
  assert (Pa : parted pre' (B ")" ++ rest)) by (apply parted_other; unfold letter, digit; cbn; lia).
  destruct (next_token s pre' (B ")") rest TClose _ V Es' Fi Pa spelled_close ltac:(easy))
    as (sts & z & n & E & L & F & R & Z & [(e & Eo & Ep)|(_ & _ & No)]).
  2:{ exfalso. apply Nc. apply (No ts args its []); [|assumption]. now rewrite <- app_assoc. }
  exists e. split; [assumption|].
  assert (La := run_last _ _ _ R). change (conc_last init) with (@None token) in La.
  assert (Zt := reached_zt _ _ R).
  assert (Eo' : ts ++ TNot :: TOpen :: its = (ts ++ [TNot]) ++ TOpen :: its) by now rewrite <- app_assoc.
  rewrite Eo' in E.
  apply (pstep_err release s z TClose _ e n Z) in Ep as
    [(Fo & _)|[(Fo & _ & Ef & ->)|(Fo & _ & fr & frs & Ef & Ec & _ & ->)]].
  - exfalso. rewrite La, E, (follows_close _ its args It) in Fo. discriminate Fo.
  - exfalso. destruct z as [[frs root] m]. cbn [fst] in Ef. subst frs.
    assert (Nm : m <> MFn) by (intros ->; discriminate Fo).
    assert (Ne : forall s, m <> MEq s) by (intros ? ->; discriminate Fo).
    destruct (zt_elim _ _ _ _ Nm Zt) as (p & its' & O & T & E'). cbn in O. subst p. cbn [app] in E'. subst its'.
    destruct (tail_items pre' _ _ _ Nm Ne T F) as (l & _ & S & N).
    assert (D := proj2 grammar_depth l _ S 0). rewrite E, depth_app in D.
    destruct (depth 0 (ts ++ [TNot])) as [d|]; [|discriminate]. cbn [depth] in D.
    rewrite (proj2 grammar_depth args its It) in D. discriminate.
  - destruct z as [[frs' root] m]. cbn [fst snd] in *. subst frs'.
    assert (Nm : m <> MFn) by (intros ->; cbn in Fo; rewrite Ec in Fo; discriminate Fo).
    assert (Ne : forall s, m <> MEq s) by (intros ? ->; discriminate Fo).
    destruct (zt_elim _ _ _ _ Nm Zt) as (p & its2 & O & T & E2).
    destruct O as (p' & its' & so & O & S' & _ & ->).
    rewrite Ec in *. cbn [callee_token] in *.
    assert (F2 := F). rewrite E2 in F2. apply Forall_app in F2 as [_ F2].
    destruct (tail_items pre' _ _ _ Nm Ne T F2) as (args' & Sm & S & _).
    cbn [top_items fst] in Sm. cbn [pe_span pe_reason]. rewrite (sames_count8 pre' _ _ Sm).
    replace ((p' ++ its' ++ [(TNot, fr_span fr); (TOpen, so)]) ++ its2)
      with ((p' ++ its') ++ (TNot, fr_span fr) :: (TOpen, so) :: its2) in E2 by now rewrite <- !app_assoc.
    assert (E3 : map fst sts = (map fst (p' ++ its') ++ [TNot]) ++ TOpen :: map fst its2).
    { rewrite E2, map_app. cbn [map fst]. now rewrite <- app_assoc. }
    rewrite E in E3. destruct (open_unique _ _ _ _ _ _ E3 It S) as [Ea Ei]. rewrite <- Ei in S.
    apply app_inj_tail in Ea as [Ea _].
    rewrite (items_unique _ _ _ S It).
    destruct (lexes_lexed pre ts L1 0) as (sts1 & Ls1 & Es1).
    destruct (lexes_lexed w _ L2 (length pre + length (B "not"))) as (sts2 & Ls2 & Es2).
    assert (Vp : utf8_valid pre' = true).
    { rewrite Es' in V. exact (proj1 (lexes_valid _ _ _ (proj1 Fi) V)). }
    assert (Mw : is_word TNot -> ~ word_goes_on w).
    { intros _. now apply (sign_no_word w its). }
    assert (Pw : parted pre (B "not" ++ w)).
    { apply (parted_after pre ts TNot); [assumption| |exact I].
      destruct Fi as (_ & Bg & _). apply (begins_app _ (TOpen :: its)). now rewrite <- app_assoc. }
    assert (E4 := lexed_at pre (B "not") w TNot sts1 sts2 sts Vp Ls1 Pw spelled_not Mw Ls2 L).
    rewrite E2 in E4. apply (same_place fst) in E4 as (_ & E4 & _); [|congruence].
    injection E4 as E4. rewrite E4. cbn [fst snd]. split; [|constructor].
    f_equal. unfold pre'. rewrite !app_length. lia.
Qed.

(** The loop comes to the end of the text. *)
Lemma fine_end s ts : utf8_valid s = true -> fine s ts ->
  exists sts z, map fst sts = ts /\ lexed 0 s sts /\ Forall (in_place s) sts /\
    run init sts = Some z /\ outcome s = pfinish s (conc z).
Proof.
  intros V Fi.
  destruct (fine_reached s s [] ts V ltac:(now rewrite app_nil_r) Fi)
    as (sts & z & p & b & fuel & E & L & F & R & Ep & Hb & Lp & Z & Vq & Lf & A & Vp & Eq).
  { intros p c _ _. apply no_word_nil. }
  exists sts, z. repeat (split; [assumption|]). unfold outcome. rewrite Eq.
  destruct fuel as [|fuel]; [lia|]. cbn [ploop]. rewrite app_nil_r, lex_next_blank by assumption. reflexivity.
Qed.

Lemma refused_value s ts :
  utf8_valid s = true -> fine s (ts ++ [TEquals]) ->
  refused s (length s, length s) (Unexpected [String quote ("<value>" ++ String quote EmptyString)]%string).
Proof.
  intros V Fi. destruct (fine_end s _ V Fi) as (sts & z & E & L & F & R & Eo).
  assert (La := run_last _ _ _ R). change (conc_last init) with (@None token) in La.
  rewrite E, lastof_app in La. cbn [lastof] in La.
  exists (mkParseError s (length s, length s) (Unexpected [String quote ("<value>" ++ String quote EmptyString)]%string)).
  split; [|split; [reflexivity|constructor]]. rewrite Eo. unfold pfinish. cbn [conc ps_last]. now rewrite La.
Qed.

Lemma refused_name s pre f b ts :
  utf8_valid s = true ->
  s = pre ++ callee_name f ++ b -> fine pre ts -> begins (ts ++ [callee_token f]) -> blank b ->
  refused s (length pre, length pre + 3) (Unexpected ["("]%string).
Proof.
  intros V Es (Lx & Bg & No) Bf Hb.
  assert (Sp : spelled (callee_token f) (callee_name f)) by (destruct f; constructor).
  assert (W : is_word (callee_token f)) by (destruct f; exact I).
  assert (Pa := parted_after pre ts (callee_token f) (callee_name f ++ b) Lx Bf W).
  destruct (lexes_lexed pre ts Lx 0) as (sts1 & L1 & E1).
  assert (L' : lexed 0 s (sts1 ++ [(callee_token f, (length pre, length pre + length (callee_name f)))])).
  { rewrite Es. destruct (lexed_tight _ _ _ L1) as (p & b' & -> & Hb' & T & A). specialize (A _ Pa).
    rewrite <- app_assoc. apply lexed_app; [now apply tight_lexed|assumption|].
    cbn [plus]. rewrite app_length in *. constructor; auto; [intros _; now apply blank_no_word|now constructor]. }
  assert (Fi : fine s (ts ++ [callee_token f])).
  { split; [|split; [assumption|]].
    - apply lexed_lexes in L'. rewrite map_app, E1 in L'. exact L'.
    - intros a args x c E It. destruct (exists_last (l := TClose :: c)) as (c' & y & Ec); [discriminate|].
      destruct c' as [|t c'].
      + injection Ec as <- ->. exfalso. change (a ++ TNot :: TOpen :: x ++ [TClose]) with (a ++ [TNot; TOpen] ++ x ++ [TClose]) in E.
        rewrite !app_assoc in E. apply app_inj_tail in E as [_ E]. now destruct f.
      + injection Ec as <- ->. change (a ++ TNot :: TOpen :: x ++ TClose :: c' ++ [y]) with (a ++ [TNot; TOpen] ++ x ++ (TClose :: c') ++ [y]) in E.
        rewrite !app_assoc in E. apply app_inj_tail in E as [E _]. rewrite <- !app_assoc in E.
        exact (No a args x c' E It). }
  destruct (fine_end s _ V Fi) as (sts & z & E & L & F & R & Eo).
  rewrite (lexed_unique 0 s _ _ V L L') in *. clear sts L.
  assert (La := run_last _ _ _ R). change (conc_last init) with (@None token) in La.
  rewrite map_app, lastof_app in La. cbn [map fst lastof] in La.
  assert (Zt := reached_zt _ _ R). destruct z as [[frs root] m].
  assert (m = MFn) as ->.
  { destruct m; try reflexivity; exfalso; cbn [conc_last fst snd] in La; try (destruct frs); destruct f; discriminate La. }
  destruct Zt as (fr & rest & p & its & -> & _ & Eop & _ & _ & Et). rewrite app_assoc in Et.
  apply app_inj_tail in Et as [_ Et]. injection Et as Ef Esp.
  exists (mkParseError s (fr_span fr) (Unexpected ["("]%string)).
  split; [|split; [|constructor]].
  - rewrite Eo. unfold pfinish. cbn [conc ps_last ps_stack fst conc_stack conc_frame fs_parens_index fs_span].
    rewrite La, Eop. destruct f; reflexivity.
  - cbn [pe_span]. rewrite <- Esp. now destruct f.
Qed.

Lemma refused_unclosed s pre rest ts its args :
  utf8_valid s = true ->
  s = pre ++ B "(" ++ rest -> lexes pre ts -> lexes rest its -> items args its ->
  fine s (ts ++ TOpen :: its) ->
  refused s (length pre, length s) UnclosedParens.
Proof.
  intros V Es L1 L2 It Fi.
  destruct (fine_end s _ V Fi) as (sts & z & E & L & F & R & Eo).
  assert (La := run_last _ _ _ R). change (conc_last init) with (@None token) in La.
  assert (Fo := follows_close ts its args It). rewrite <- E, <- La in Fo.
  assert (Zt := reached_zt _ _ R). destruct z as [[frs root] m].
  assert (Nm : m <> MFn).
  { intros ->. destruct Zt as (fr & ? & ? & ? & -> & _). cbn in Fo. destruct (fr_callee fr); discriminate Fo. }
  assert (Ne : forall s, m <> MEq s) by (intros ? ->; discriminate Fo).
  destruct (zt_elim _ _ _ _ Nm Zt) as (p & its2 & O & T & E2).
  destruct frs as [|fr frs].
  { exfalso. cbn in O. subst p. cbn [app] in E2. subst its2.
    destruct (tail_items s _ _ _ Nm Ne T F) as (l & _ & S & N).
    assert (D := proj2 grammar_depth l _ S 0). rewrite E, depth_app in D.
    destruct (depth 0 ts) as [d|]; [|discriminate]. cbn [depth] in D.
    rewrite (proj2 grammar_depth args its It) in D. discriminate. }
  destruct O as (p' & its' & so & O & S' & Eop & ->).
  assert (F2 := F). rewrite E2 in F2. apply Forall_app in F2 as [_ F2].
  destruct (tail_items s _ _ _ Nm Ne T F2) as (args' & _ & S & _).
  set (f := (callee_token (fr_callee fr), fr_span fr)) in *.
  replace ((p' ++ its' ++ [f; (TOpen, so)]) ++ its2)
    with ((p' ++ its' ++ [f]) ++ (TOpen, so) :: its2) in E2 by now rewrite <- !app_assoc.
  assert (E3 := E). rewrite E2, map_app in E3. cbn [map fst] in E3. symmetry in E3.
  destruct (open_unique _ _ _ _ _ _ E3 It S) as [Ea _].
  destruct (lexes_lexed pre ts L1 0) as (sts1 & Ls1 & Es1).
  destruct (lexes_lexed rest its L2 (length pre + length (B "("))) as (sts2 & Ls2 & Es2).
  assert (Pa : parted pre (B "(" ++ rest)) by (apply parted_other; unfold letter, digit; cbn; lia).
  rewrite Es in V, L.
  assert (E4 := lexed_at pre (B "(") rest TOpen sts1 sts2 sts V Ls1 Pa spelled_open ltac:(easy) Ls2 L).
  rewrite E2 in E4. apply (same_place fst) in E4 as (Ep & E4 & _); [|congruence].
  injection E4 as E4. rewrite E4 in Eop. cbn [fst] in Eop.
  exists (mkParseError s (length pre, length s) UnclosedParens).
  split; [|split; [reflexivity|constructor]].
  assert (Np : length pre <> 0).
  { intros H. apply length_zero_iff_nil in H. subst pre. apply lexed_nil in Ls1. subst sts1.
    apply app_eq_nil in Ep as [_ Ep]. now apply app_eq_nil in Ep. }
  rewrite Eo. unfold pfinish. cbn [conc ps_last ps_stack fst conc_stack conc_frame fs_parens_index fs_span].
  assert (Skip : forall A (a b : A), match conc_last (fr :: frs, root, m) with Some TEquals => a | _ => b end = b).
  { intros A a b. destruct (conc_last (fr :: frs, root, m)) as [[]|]; try reflexivity. discriminate Fo. }
  rewrite Skip, Eop. destruct (Nat.eqb_spec (length pre) 0); [contradiction|reflexivity].
Qed.

Lemma refused_empty s : utf8_valid s = true -> blank s -> refused s (0, length s) Empty.
Proof.
  intros V Hb. exists (mkParseError s (0, length s) Empty).
  split; [|split; [reflexivity|constructor]].
  unfold outcome. cbn [ploop]. now rewrite lex_next_blank.
Qed.

Lemma refused_roots s roots :
  utf8_valid s = true -> written roots s -> Forall (proper count8) roots -> 1 < leaves roots ->
  refused s (0, length s) MultipleRootPredicates.
Proof.
  intros V (ts & L & S) P N.
  destruct (lexes_lexed s ts L 0) as (sts & Ls & E).
  assert (F := lexed_in_place s [] s sts eq_refl V Ls).
  destruct (proj2 (tree_derivation s) roots ts S P sts E F) as (pl & Sm & D).
  destruct (D [] [] sitems_nil) as (b & D'). cbn [app] in D'.
  destruct (sitems_run pl b sts D') as (z & R & Fin).
  destruct (lexed_fine _ _ _ V Ls R) as [Fi _].
  destruct (fine_end s _ V Fi) as (sts' & z' & _ & Ls' & _ & R' & Eo).
  rewrite (lexed_unique 0 s _ _ V Ls' Ls) in R'. rewrite R in R'. injection R' as <-.
  destruct z as [[frs root] m]. destruct Fin as (Ef & Ne & Nm & ->). cbn [fst snd] in Ef, Ne, Nm. subst frs.
  exists (mkParseError s (0, length s) MultipleRootPredicates).
  split; [|split; [reflexivity|constructor]]. rewrite Eo. unfold pfinish.
  assert (Skip : forall A (a b : A), match ps_last (conc ([], root, m)) with Some TEquals => a | _ => b end = b).
  { intros A a b0. cbn [conc ps_last conc_last fst snd]. destruct m; try reflexivity. now destruct (Ne s0). }
  rewrite Skip. clear Skip.
  cbn [content fst snd add] in Sm.
  destruct (sames_counts s _ roots Sm) as (E1 & E2 & E3).
  cbn [conc ps_stack fst conc_stack ps_queue ps_roots ps_key ps_val snd].
  rewrite <- (pending_preds m Nm Ne), <- pending_queue, conc_root_queue.
  assert (Q : conc_queue (add ([], root) (pending m)) = flat_map compile (root ++ pending m)).
  { unfold conc_queue. cbn. now rewrite app_nil_r. }
  rewrite Q. clear Q.
  rewrite <- app_length, <- pleaves_app, E1.
  destruct (flat_map compile (root ++ pending m)) as [|y q] eqn:Eq.
  - exfalso. assert (roots = []) as ->; [|cbn in N; lia].
    apply (sames_nil_iff s _ _ Sm). destruct (root ++ pending m) as [|x l']; [reflexivity|].
    cbn [flat_map] in Eq. apply app_eq_nil in Eq as [Eq _]. now apply compile_not_nil in Eq.
  - destruct (Nat.ltb_spec 1 (leaves roots)); [reflexivity|lia].
Qed.

Lemma explained_refused s sp r : utf8_valid s = true -> explains s sp r -> refused s sp r.
Proof.
  intros V [pre w rest t ts names Es Fi Pa Sp M Nb Hi Nc|pre rest ts l Es Fi It Nl|pre c rest ts Es Fi Pa Nt Nb
    |pre v ts Es Fi Nq|pre w rest ts its args Es L1 L2 It Nc Fi|ts Fi|pre f b ts Es Fi Bf Hb
    |pre rest ts its args Es L1 L2 It Fi|Hb|roots W P N].
  - now apply (refused_token s pre w rest t ts names).
  - now apply (refused_unopened s pre rest ts l).
  - now apply (refused_stray s pre c rest ts).
  - now apply (refused_quote s pre v ts).
  - now apply (refused_not s pre w rest ts its args).
  - now apply (refused_value s ts).
  - now apply (refused_name s pre f b ts).
  - now apply (refused_unclosed s pre rest ts its args).
  - now apply refused_empty.
  - now apply (refused_roots s roots).
Qed.

Lemma parse_outcome text s : utf8_valid text = true -> unwrapped text s ->
  utf8_valid s = true /\ parse_expr release text = outcome s.
Proof.
  intros V U. destruct (lexer_text_spec text V) as (s' & El & U' & Vs).
  rewrite (unwrapped_unique text s s' U U') in *. split; [assumption|].
  unfold parse_expr. now rewrite El.
Qed.

Lemma explained_parse text s sp r :
  utf8_valid text = true -> unwrapped text s -> explains s sp r ->
  exists e, parse_expr release text = Err e /\ pe_original e = s /\ pe_span e = sp /\ alike (pe_reason e) r.
Proof.
  intros V U X. destruct (parse_outcome text s V U) as [Vs E].
  destruct (explained_refused s sp r Vs X) as (e & Eo & Esp & Al). rewrite <- E in Eo.
  exists e. split; [assumption|]. split; [|auto]. now apply (parse_explained release text s e).
Qed.

Lemma alike_sym a b : alike a b -> alike b a.
Proof. intros [r|ts n n' H H']; [constructor|]. now apply (alike_names ts). Qed.

(** Two explanations of one text agree. *)
Lemma explains_unique s sp r sp' r' :
  utf8_valid s = true -> explains s sp r -> explains s sp' r' ->
  sp = sp' /\ exists r0, alike r0 r /\ alike r0 r'.
Proof.
  intros V X X'. destruct (explained_refused s sp r V X) as (e & E & <- & A).
  destruct (explained_refused s sp' r' V X') as (e' & E' & <- & A').
  rewrite E in E'. injection E' as <-. split; [reflexivity|]. now exists (pe_reason e).
Qed.

(** Without a panic, checks of overflow change nothing. *)
Lemma incr_release pr n : (exists p, incr_u8 pr n = Panic p) \/ incr_u8 pr n = incr_u8 release n.
Proof. unfold incr_u8. destruct (n <? 255), (overflow_checks pr); eauto. Qed.
Lemma pstep_release pr original st t sp :
  (exists p, pstep pr original st t sp = Panic p) \/
  pstep pr original st t sp = pstep release original st t sp.
Proof.
  destruct t; try (right; reflexivity); unfold pstep;
    (destruct (ps_last st) as [[]|]; try (right; reflexivity));
    (destruct (ps_stack st) as [|fs rest]; [right; reflexivity|]);
    (destruct (incr_release pr (fs_nest_level fs)) as [[p ->]| ->]; [left; now exists p|right; reflexivity]).
Qed.
Lemma ploop_release pr original : forall fuel inner o st,
  (exists p, ploop fuel pr original inner o st = Panic p) \/
  ploop fuel pr original inner o st = ploop fuel release original inner o st.
Proof.
  induction fuel as [|fuel IH]; intros inner o st; cbn [ploop]; [right; reflexivity|].
  destruct (lex_next original inner o) as [[[[[t sp] inner'] o']|]|e|p]; cbn [bind]; try (right; reflexivity).
  destruct (pstep_release pr original st t sp) as [[p ->]| ->]; [left; now exists p|].
  destruct (pstep release original st t sp) as [st'|e|p]; cbn [bind]; try (right; reflexivity). apply IH.
Qed.
Lemma parse_release pr text :
  (exists p, parse_expr pr text = Panic p) \/ parse_expr pr text = parse_expr release text.
Proof.
  unfold parse_expr. destruct (lexer_text text) as [s|e|p]; cbn [bind]; try (right; reflexivity).
  destruct (ploop_release pr s (S (length s)) s 0 ps_init) as [[p ->]| ->]; [left; now exists p|right; reflexivity].
Qed.

Lemma explained_parse_any pr text s sp r :
  utf8_valid text = true -> unwrapped text s -> explains s sp r ->
  (exists e, parse_expr pr text = Err e /\ pe_original e = s /\ pe_span e = sp /\ alike (pe_reason e) r) \/
  (exists p, parse_expr pr text = Panic p).
Proof.
  intros V U X. destruct (parse_release pr text) as [H| ->]; [now right|]. left. now apply explained_parse.
Qed.

Lemma accepted_or_explained s : utf8_valid s = true ->
  ((exists roots, accepted s roots) \/ (exists sp r, explains s sp r)) /\
  ~ ((exists roots, accepted s roots) /\ (exists sp r, explains s sp r)).
Proof.
  intros V. set (text := B "cfg(" ++ s ++ B ")").
  assert (Vt : utf8_valid text = true).
  { unfold text. rewrite valid_app by reflexivity. now rewrite valid_app. }
  assert (U : unwrapped text s) by constructor.
  split.
  - destruct (parse_expr release text) as [x|e|p] eqn:E.
    + left. destruct (parse_ok_accepted release text Vt) as (s' & roots & U' & A); [now rewrite E|].
      rewrite (unwrapped_unique text s s' U U'). now exists roots.
    + right. exists (pe_span e), (pe_reason e). now apply (parse_explained release text s e).
    + exfalso. apply parse_no_panic in E as (_ & [=] & _). assumption.
  - intros [(roots & A) (sp & r & X)].
    assert (O : is_ok (parse_expr release text) = true).
    { apply accepted_parse_ok; auto. now exists s, roots. }
    destruct (explained_parse text s sp r Vt U X) as (e & E & _). rewrite E in O. discriminate O.
Qed.
