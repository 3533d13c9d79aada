(** When reading a [cfg(...)] expression panics. *)
From Verif.Model Require Import Base Str Error CfgExpr.
From Verif.Spec Require Import StrSpec Utf8Spec CfgSpec CfgErrorSpec PanicSpec.
From Verif.Proof Require Import StrFacts Utf8Proof CfgLexProof CfgParseProof CfgGrammarProof CfgProof CfgEvalProof
  CfgErrorProof CfgErrorUniqueProof.

(** ** The counters stay small *)

Definition small (z : zip) : Prop :=
  match fst (fst z) with
  | [] => True
  | fr :: rest => ncalls (fr_items fr) <= 255 /\ Forall (fun fr => ncalls (fr_items fr) < 255) rest
  end.

Lemma small_pending ls m : small (ls, m) -> small (content (ls, m), m).
Proof.
  destruct ls as [[|fr rest] root]; unfold small, content, add; cbn [fst snd fr_items]; [auto|].
  intros [L F]. split; [|assumption]. rewrite ncalls_app, pending_calls. lia.
Qed.

Lemma astep_small z t s z' :
  small z -> astep z (t, s) = Some z' ->
  (is_fn t = true -> forall fr rest, fst (fst z) = fr :: rest -> ncalls (fr_items fr) <> 255) ->
  small z'.
Proof.
  destruct z as [[frs root] m]. intros S A K. cbn [astep fst snd] in A.
  assert (Fn : is_fn t = true -> small ((mkFrame (callee_of t) s 0 [] :: frs, root), MFn)).
  { intros It. unfold small in *. cbn [fst snd fr_items] in *. split; [cbn; lia|].
    destruct frs as [|fr rest]; [constructor|]. destruct S as [L F]. constructor; [|assumption].
    specialize (K It fr rest eq_refl). lia. }
  destruct t; try (destruct m; try discriminate; injection A as <-; now (apply Fn || exact S)).
  - destruct m; try discriminate. destruct frs as [|fr rest]; [discriminate|]. injection A as <-. exact S.
  - assert (C := small_pending (frs, root) m S).
    assert (A' : match fst (content (frs, root, m)) with
          | fr :: rest =>
              if match fr_callee fr with CNot => negb (Nat.eqb (pcount8 (fr_items fr)) 1) | _ => false end then None
              else Some (add (rest, root) [PCall (fr_callee fr) (fr_items fr)], MItem)
          | [] => None
          end = Some z') by (destruct m; try discriminate; exact A).
    clear A. unfold small in C. cbn [fst] in C. destruct (fst (content (frs, root, m))) as [|fr rest]; [discriminate|].
    match type of A' with (if ?c then _ else _) = _ => destruct c end; [discriminate|]. injection A' as <-.
    destruct C as [_ F]. unfold small, add. cbn [fst snd]. destruct rest as [|fr' rest]; cbn [fst]; [exact I|].
    inversion F; subst. cbn [fr_items]. split; [|assumption]. rewrite ncalls_app. cbn [ncalls]. lia.
  - assert (C := small_pending (frs, root) m S). destruct m; try discriminate; injection A as <-; exact C.
Qed.

(** ** A panic, where it happens *)

Lemma pstep_panic pr original z t sp p :
  pstep pr original (conc z) t sp = Panic p ->
  is_fn t = true /\ p = POverflow /\ overflow_checks pr = true /\
  starter (conc_last z) = true /\
  exists fr rest, fst (fst z) = fr :: rest /\ ncalls (fr_items fr) mod 256 = 255.
Proof.
  destruct z as [[frs root] m]. intros E.
  assert (K : is_fn t = true -> pstep pr original (conc (frs, root, m)) t sp = Panic p ->
     p = POverflow /\ overflow_checks pr = true /\ starter (conc_last (frs, root, m)) = true /\
     exists fr rest, frs = fr :: rest /\ ncalls (fr_items fr) mod 256 = 255).
  { clear E. intros It E.
    assert (E' : starter (conc_last (frs, root, m)) = true /\
       match conc_stack frs with [] => False | fs :: _ => incr_u8 pr (fs_nest_level fs) = Panic p end).
    { destruct t; try discriminate It; unfold pstep in E; cbn [conc ps_last ps_stack fst] in E;
        (destruct (conc_last (frs, root, m)) as [[]|]; try discriminate E; (split; [reflexivity|]));
        (destruct (conc_stack frs) as [|fs rest]; [discriminate E|]);
        (destruct (incr_u8 pr (fs_nest_level fs)) as [n|e|x]; try discriminate E; now injection E as ->). }
    destruct E' as [St E']. destruct frs as [|fr rest]; [destruct E'|]. cbn [conc_stack conc_frame fs_nest_level] in E'.
    rewrite Nat.add_0_r in E'. unfold incr_u8 in E'.
    assert (U : ncalls (fr_items fr) mod 256 < 256) by (apply Nat.mod_upper_bound; lia).
    destruct (Nat.ltb_spec (ncalls (fr_items fr) mod 256) 255) as [L|L]; [discriminate|].
    destruct (overflow_checks pr); [|discriminate]. injection E' as <-.
    repeat split; auto. exists fr, rest. split; [reflexivity|]. lia. }
  destruct (is_fn t) eqn:It; [split; [reflexivity|]; now apply K|].
  exfalso. destruct t; try discriminate It; unfold pstep in E; cbn [conc ps_last ps_stack fst] in E;
    destruct (conc_last (frs, root, m)) as [[]|]; try discriminate E;
    repeat (match type of E with context [match ?x with _ => _ end] => destruct x end; try discriminate E).
Qed.

Lemma ploop_panic pr original : forall fuel inner off sts z p,
  length inner < fuel -> utf8_valid inner = true -> zok off z -> small z -> reached original off inner sts z ->
  ploop fuel pr original inner off (conc z) = Panic p ->
  p = POverflow /\ overflow_checks pr = true /\
  exists inner off sts z b t w rest,
    reached original off inner sts z /\ utf8_valid inner = true /\ zok off z /\ small z /\
    inner = b ++ w ++ rest /\ blank b /\ spelled t w /\ (is_word t -> ~ word_goes_on rest) /\
    is_fn t = true /\ starter (conc_last z) = true /\
    exists fr frs, fst (fst z) = fr :: frs /\ ncalls (fr_items fr) = 255.
Proof.
  induction fuel as [|fuel IH]; intros inner off sts z p Lf V Z Sm Re E; [lia|]. cbn [ploop] in E.
  destruct (lex_next_stuck original inner off V)
    as [Hb|[(b & t & w & rest & Ei & Hb & Sp & M)|(b & e & Hb & Lb & R & St)]].
  - rewrite lex_next_blank in E by assumption. discriminate E.
  - subst inner. rewrite (lex_next_token original b t w rest off) in E by assumption. cbn [bind] in E.
    set (s := (off + length b, off + length b + length w)) in *.
    assert (Lw : 1 <= length w).
    { destruct (spelled_head t w Sp) as (c & r & -> & _). cbn. lia. }
    assert (Lo : off + length (b ++ w ++ rest) = length original).
    { destruct Re as (pre & -> & -> & _). rewrite !app_length. lia. }
    rewrite !app_length in *.
    assert (Ps := pstep_spec pr original z (t, s) off Z). cbn [fst snd s] in Ps.
    specialize (Ps ltac:(lia) ltac:(lia)). unfold step_spec in Ps. cbn [fst snd] in Ps. fold s in Ps.
    destruct (pstep pr original (conc z) t s) as [s'|e|p'] eqn:Es; cbn [bind] in E; [|discriminate|].
    + destruct Ps as (z1 & A & -> & Z1).
      destruct (Bool.bool_dec (match fst (fst z) with fr :: _ => Nat.eqb (ncalls (fr_items fr)) 255 | [] => false end && is_fn t)%bool true) as [Full|NF].
      * apply andb_prop in Full as [Full It].
        destruct (overflow_checks pr) eqn:O.
        -- exfalso. destruct (fst (fst z)) as [|fr frs] eqn:Ef; [discriminate|]. apply Nat.eqb_eq in Full.
           destruct z as [[frs' root] m]. cbn [fst] in Ef. subst frs'. unfold pstep in Es.
           cbn [conc ps_last ps_stack fst conc_stack conc_frame fs_nest_level] in Es. rewrite Full in Es.
           replace (incr_u8 pr ((255 + 0) mod 256)) with (Panic (E := parse_error) (A := nat) POverflow) in Es
             by (unfold incr_u8; rewrite O; reflexivity).
           destruct t; try discriminate It; destruct (conc_last _) as [[]|] in Es; discriminate Es.
        -- exfalso. assert (Q := ploop_spec pr original fuel rest (off + length b + length w) z1 ltac:(lia)).
           assert (V2 := V). rewrite valid_blank in V2 by assumption.
           specialize (Q (spelled_valid t w rest Sp V2) ltac:(lia) Z1). unfold loop_spec in Q.
           rewrite E in Q. destruct Q as (_ & O' & _). congruence.
      * assert (Sm1 : small z1).
        { apply (astep_small z t s z1 Sm A). intros It fr frs Ef Hc. apply NF. rewrite Ef, Hc, It. reflexivity. }
        assert (V2 := V). rewrite valid_blank in V2 by assumption.
        assert (V' := spelled_valid t w rest Sp V2).
        apply (IH rest (off + length b + length w) (sts ++ [(t, s)]) z1); auto; [lia|].
        destruct Re as (pre & -> & -> & L & Ap & Vp & R).
        exists (pre ++ b ++ w). split; [now rewrite <- !app_assoc|]. split; [rewrite !app_length; lia|].
        split; [|split; [|split]].
        -- apply lexed_app; [assumption| |].
           ++ intros sts' x Ex Iw. specialize (Ap sts' x Ex Iw). rewrite app_assoc in Ap. now apply no_word_prefix in Ap.
           ++ rewrite <- (app_nil_r w) at 1. cbn [plus]. subst s. constructor; auto.
              ** intros _. apply no_word_nil.
              ** constructor. constructor.
        -- intros sts' x Ex. apply app_inj_tail in Ex as [_ <-]. exact M.
        -- rewrite valid_app, valid_blank by assumption. exact (spelled_self_valid t w rest Sp V2).
        -- rewrite run_app, R. cbn [run]. now rewrite A.
    + injection E as ->. destruct (pstep_panic _ _ _ _ _ _ Es) as (It & -> & O & St & fr & frs & Ef & Nc).
      split; [reflexivity|]. split; [assumption|].
      exists (b ++ w ++ rest), off, sts, z, b, t, w, rest.
      repeat (split; [assumption || reflexivity|]). exists fr, frs. split; [assumption|].
      unfold small in Sm. rewrite Ef in Sm. destruct Sm as [L _].
      destruct (Nat.eq_dec (ncalls (fr_items fr)) 255); [assumption|]. rewrite Nat.mod_small in Nc; lia.
  - rewrite R in E. discriminate E.
Qed.

(** The innermost open call and its arguments so far. *)
Lemma open_call original frs fr root m sts :
  zt (fr :: frs, root, m) sts -> Forall (in_place original) sts -> starter (conc_last (fr :: frs, root, m)) = true ->
  exists ts its args,
    map fst sts = ts ++ callee_token (fr_callee fr) :: TOpen :: its /\ items args its /\ calls args = ncalls (fr_items fr).
Proof.
  intros Zt F St.
  assert (M : m = MStart \/ m = MComma).
  { destruct m; try discriminate St; auto. cbn in St. destruct (fr_callee fr); discriminate St. }
  assert (Nm : m <> MFn) by (destruct M as [->| ->]; discriminate).
  destruct (zt_elim _ _ _ _ Nm Zt) as (p & its & O & T & ->).
  destruct O as (p' & its' & so & O & S' & _ & ->).
  apply Forall_app in F as [_ F].
  destruct (tail_items original _ _ _ Nm ltac:(intros s ->; now destruct M) T F) as (args & Sm & S & _).
  exists (map fst (p' ++ its')), (map fst its), args.
  split; [rewrite !map_app; cbn [map fst]; now rewrite <- !app_assoc|]. split; [assumption|].
  apply sames_counts in Sm as (_ & <- & _). cbn [top_items fst].
  destruct M as [->| ->]; cbn [pending]; now rewrite app_nil_r.
Qed.

Lemma is_fn_callee t : is_fn t = true -> exists g, t = callee_token g.
Proof. destruct t; try discriminate; intros _; [exists CAll|exists CAny|exists CNot]; reflexivity. Qed.
Lemma callee_is_fn g : is_fn (callee_token g) = true.
Proof. now destruct g. Qed.
Lemma callee_is_word g : is_word (callee_token g).
Proof. now destruct g. Qed.

Lemma init_small : small init.
Proof. exact I. Qed.

Lemma panic_crowded pr s p : utf8_valid s = true ->
  ploop (S (length s)) pr s s 0 ps_init = Panic p -> p = POverflow /\ overflow_checks pr = true /\ crowded s.
Proof.
  intros V E. rewrite <- conc_init in E.
  apply (ploop_panic pr s (S (length s)) s 0 [] init p) in E as
    (-> & O & inner & off & sts & z & b & t & w & rest & Re & Vi & Z & _ & Ei & Hb & Sp & M & It & St & fr & frs & Ef & Nc);
    [|lia|assumption|exact init_ok|exact init_small|].
  2:{ exists []. repeat split; try reflexivity; [constructor; constructor|intros [|] ? Ex; discriminate]. }
  split; [reflexivity|]. split; [assumption|].
  destruct (reached_fine s off inner sts z b Re Hb (w ++ rest) Ei) as (pre & Es & Lo & R & Fi & L & F & Pa).
  destruct (is_fn_callee t It) as (g & ->).
  assert (Zt := reached_zt _ _ R). destruct z as [[frs0 root] m]. cbn [fst] in Ef. subst frs0.
  destruct (open_call pre frs fr root m sts Zt F St) as (ts & its & args & Et & It' & Ec).
  exists (pre ++ w), rest, ts, (fr_callee fr), its, args, g.
  split; [now rewrite <- app_assoc|]. split.
  { intros q c _ _. apply M, callee_is_word. }
  split; [|split; [assumption|congruence]].
  destruct (next_token s pre w rest (callee_token g) (map fst sts) V Es Fi Pa Sp M)
    as (sts' & z' & n & Em & L' & F' & R' & Z' & [(e & _ & Ep)|Fi']).
  - exfalso. rewrite (lexed_unique 0 pre sts' sts) in R'; auto.
    2:{ destruct Fi as (Lx & _). rewrite Es in V. exact (proj1 (lexes_valid pre _ _ Lx V)). }
    rewrite R in R'. injection R' as <-.
    apply (pstep_err release s _ _ _ _ n Z') in Ep as [(Fo & _)|[(_ & T & _)|(_ & T & _)]];
      [|destruct g; discriminate T..].
    assert (Fo' : follows (conc_last (fr :: frs, root, m)) (callee_token g) = true).
    { revert St. destruct (conc_last (fr :: frs, root, m)) as [[]|], g; cbn; auto. }
    congruence.
  - rewrite Et in Fi'. rewrite <- app_assoc in Fi'. cbn [app] in Fi'. exact Fi'.
Qed.

(** The loop comes to the end of what is fine, unless it panics. *)
Lemma ploop_run_pr pr original : forall sts o p q z z' fuel,
  tight o p sts -> apart sts q -> utf8_valid (p ++ q) = true -> run z sts = Some z' -> zok o z ->
  o + length (p ++ q) = length original -> length (p ++ q) < fuel ->
  (exists x, ploop fuel pr original (p ++ q) o (conc z) = Panic x) \/
  exists fuel', length q < fuel' /\
    ploop fuel pr original (p ++ q) o (conc z) = ploop fuel' pr original q (o + length p) (conc z').
Proof.
  induction sts as [|[t sp] sts IH]; intros o p q z z' fuel L A V R Z Lo Lf.
  - inversion L; subst. cbn [run] in R. injection R as <-. cbn [app length] in *. rewrite Nat.add_0_r.
    right. now exists fuel.
  - remember ((t, sp) :: sts) as l eqn:El. destruct L as [|o b w rest t' ts Hb Sp M L]; [discriminate|].
    injection El as -> <- ->. cbn [run] in R.
    destruct (astep z _) as [z1|] eqn:As in R; [|discriminate].
    destruct fuel as [|fuel]; [lia|]. cbn [ploop].
    assert (M' : is_word t -> ~ word_goes_on (rest ++ q)).
    { intros W (c & r & Ec & Lc). destruct rest as [|y rest].
      - destruct sts as [|y sts].
        + apply (A [] _ eq_refl W). exists c, r. auto.
        + now apply tight_lexed, lexed_nil in L.
      - injection Ec as -> _. apply (M W). exists c, rest. auto. }
    replace ((b ++ w ++ rest) ++ q) with (b ++ w ++ rest ++ q) in * by now rewrite <- !app_assoc.
    rewrite (lex_next_token original b t w (rest ++ q) o Hb Sp M' V). cbn [bind].
    assert (Lw : 1 <= length w) by (destruct (spelled_head t w Sp) as (c & r & -> & _); cbn; lia).
    assert (V2 := V). rewrite valid_blank in V2 by assumption.
    assert (V' := spelled_valid t w (rest ++ q) Sp V2).
    rewrite !app_length in *.
    assert (Ps := pstep_spec pr original z (t, (o + length b, o + length b + length w)) o Z).
    cbn [fst snd] in Ps. specialize (Ps ltac:(lia) ltac:(lia)). unfold step_spec in Ps. cbn [fst snd] in Ps.
    destruct (pstep pr original (conc z) t (o + length b, o + length b + length w)) as [s'|e|pn] eqn:Es; cbn [bind].
    + destruct Ps as (z2 & A2 & -> & Z2). rewrite As in A2. injection A2 as <-.
      destruct (IH (o + length b + length w) rest q z1 z' fuel L) as [Pn|(f' & Lf' & Eq)]; auto.
      * destruct sts as [|y sts]; [intros [|] ? Ex; discriminate|]. now apply apart_cons in A.
      * rewrite app_length. lia.
      * rewrite app_length. lia.
      * right. replace (o + (length b + (length w + length rest))) with (o + length b + length w + length rest) by lia.
        now exists f'.
    + destruct Ps as [A2 _]. congruence.
    + left. now exists pn.
Qed.

Lemma crowded_panic pr s : utf8_valid s = true -> overflow_checks pr = true -> crowded s ->
  exists p, ploop (S (length s)) pr s s 0 ps_init = Panic p.
Proof.
  intros V O (pre & rest & ts & f & its & args & g & Es & Pa & (Lx & Bg & No) & It & Ec).
  assert (Ea : ts ++ callee_token f :: TOpen :: its ++ [callee_token g]
             = (ts ++ callee_token f :: TOpen :: its) ++ [callee_token g]) by now rewrite <- app_assoc.
  rewrite Ea in *. clear Ea.
  destruct (lexes_lexed pre _ Lx 0) as (sts & L & Em).
  destruct (map_app_split _ _ _ _ Em) as (sts1 & sts2 & -> & Em1 & Em2).
  destruct sts2 as [|[t sp] [|]]; try discriminate. injection Em2 as ->.
  destruct (lexed_split _ _ _ _ _ _ L) as (p & w & r & -> & -> & L1 & Sp & M & L2).
  assert (Hr : blank r).
  { remember (@nil stok) as e eqn:Ee. destruct L2; [assumption|discriminate]. }
  assert (Vp := proj1 (lexes_valid p _ (w ++ r ++ rest) (lexed_lexes 0 _ _ L1)
    ltac:(rewrite Es, <- !app_assoc in V; exact V))).
  rewrite map_app in Em. rewrite <- Em1 in *. cbn [map fst] in *.
  destruct (fine_run sts1 p Vp L1 (begins_app _ _ Bg) (nots_ok_app _ _ No)) as (z & R & Z).
  destruct (lexed_fine _ _ _ Vp L1 R) as [Fi F].
  assert (Mr : ~ word_goes_on (r ++ rest)).
  { destruct r as [|c r].
    - cbn [app]. destruct (exists_last (spelled_not_nil _ _ Sp)) as (w' & c & ->).
      apply (Pa (p ++ w') c); [now rewrite app_nil_r, app_assoc|].
      exact (word_end _ _ w' c Sp (callee_is_word g) eq_refl).
    - destruct (blank_not_word (c :: r) rest Hr) as [N|N]; [exact N|discriminate]. }
  assert (Pp : parted p (w ++ r ++ rest)).
  { apply (parted_after p (map fst sts1) (callee_token g)); auto; [apply (lexed_lexes 0), L1|apply callee_is_word]. }
  destruct (lexed_tight 0 p sts1 L1) as (p0 & b & -> & Hb & T & A). specialize (A _ Pp).
  assert (Eo : s = p0 ++ (b ++ w ++ r ++ rest)) by (rewrite Es, <- !app_assoc; reflexivity).
  assert (V' := V). rewrite Eo in V'.
  destruct (ploop_run_pr pr s sts1 0 p0 (b ++ w ++ r ++ rest) init z (S (length s)) T A V' R init_ok)
    as [Pn|(fuel & Lf & Ep)]; [rewrite Eo; reflexivity|rewrite Eo; lia| |].
  { rewrite <- Eo in Pn. exact Pn. }
  rewrite <- Eo, conc_init in Ep. rewrite Ep. destruct fuel as [|fuel]; [lia|]. cbn [ploop].
  rewrite (lex_next_token s b (callee_token g) w (r ++ rest) _ Hb Sp (fun _ => Mr)).
  2:{ rewrite valid_app in V'; [exact V'|].
      rewrite <- (app_nil_r b) in Vp. exact (proj1 (lexes_valid p0 _ _ (lexed_lexes 0 _ _ (tight_lexed _ _ _ T)) Vp)). }
  cbn [bind].
  assert (La := run_last _ _ _ R). change (conc_last init) with (@None token) in La.
  assert (Fo := begins_follows _ _ Bg). rewrite <- La in Fo.
  assert (Zt := reached_zt _ _ R). destruct z as [[frs root] m].
  assert (St : starter (conc_last (frs, root, m)) = true).
  { revert Fo. destruct (conc_last (frs, root, m)) as [[]|], g; cbn; auto. }
  destruct frs as [|fr frs].
  { exfalso. assert (M' : m <> MFn) by (intros ->; destruct Z as (_ & Hm & _); destruct (Hm eq_refl) as (? & ? & [=] & _)).
    destruct (zt_elim _ _ _ _ M' Zt) as (q & its0 & O' & T0 & E0). cbn in O'. subst q. cbn [app] in E0. subst its0.
    assert (Ne : forall x, m <> MEq x) by (intros x ->; discriminate St).
    destruct (tail_items _ _ _ _ M' Ne T0 F) as (l & _ & S & _).
    assert (D := proj2 grammar_depth l _ S 0). rewrite Em1, depth_app in D.
    destruct (depth 0 ts) as [d|]; [|discriminate]. destruct f; cbn [depth callee_token] in D;
      rewrite (proj2 grammar_depth args its It (Datatypes.S d)) in D; discriminate. }
  destruct (open_call _ frs fr root m sts1 Zt F St) as (ts' & its' & args' & E' & It' & Ec').
  rewrite Em1 in E'.
  assert (Eq : (ts ++ [callee_token f]) ++ TOpen :: its = (ts' ++ [callee_token (fr_callee fr)]) ++ TOpen :: its')
    by (rewrite <- !app_assoc; exact E').
  destruct (open_unique _ _ _ _ _ _ Eq It It') as [_ <-].
  rewrite (items_unique _ _ _ It' It) in Ec'. rewrite Ec in Ec'.
  exists POverflow. unfold pstep.
  cbn [conc ps_last ps_stack fst conc_stack conc_frame fs_nest_level]. rewrite <- Ec'.
  replace (incr_u8 pr ((255 + 0) mod 256)) with (Panic (E := parse_error) (A := nat) POverflow)
    by (unfold incr_u8; rewrite O; reflexivity).
  revert St. destruct g; destruct (conc_last (fr :: frs, root, m)) as [[]|]; cbn; try discriminate; reflexivity.
Qed.

Lemma parse_panic_iff pr text s p : utf8_valid text = true -> unwrapped text s ->
  parse_expr pr text = Panic p <-> p = POverflow /\ overflow_checks pr = true /\ crowded s.
Proof.
  intros V U. destruct (lexer_text_spec text V) as (s' & El & U' & Vs).
  rewrite <- (unwrapped_unique text s s' U U') in *. unfold parse_expr. rewrite El. cbn [bind].
  assert (Fin : forall st x, pfinish s st <> Panic x).
  { intros st x. unfold pfinish. destruct (ps_last st) as [[]|]; try discriminate;
      (destruct (ps_stack st) as [|top ?]; [|now destruct (Nat.eqb _ _)]);
      (destruct (ps_queue st ++ _); [discriminate|now destruct (Nat.ltb _ _)]). }
  split.
  - intros E. destruct (ploop (S (length s)) pr s s 0 ps_init) as [st|e|x] eqn:Lp; cbn [bind] in E.
    + now apply Fin in E.
    + discriminate.
    + injection E as ->. now apply (panic_crowded pr).
  - intros (-> & O & C). destruct (crowded_panic pr s Vs O C) as (x & Lp). rewrite Lp. cbn [bind].
    now destruct (panic_crowded pr s x Vs Lp) as (-> & _).
Qed.
