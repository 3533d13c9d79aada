(** The errors of the parser of [cfg(...)] expressions. *)
From Verif.Model Require Import Base Str Error CfgExpr.
From Verif.Spec Require Import StrSpec Utf8Spec CfgSpec CfgErrorSpec.
From Verif.Proof Require Import StrFacts Utf8Proof CfgLexProof CfgParseProof CfgGrammarProof CfgProof.

(** ** Neighbouring tokens *)

Definition is_fn (t : token) : bool := match t with TAll | TAny | TNot => true | _ => false end.
Definition starter (l : option token) : bool :=
  match l with None | Some TOpen | Some TComma => true | _ => false end.
Definition ender (l : option token) : bool :=
  match l with Some (TKey _ | TValue _ | TClose) => true | _ => false end.
Definition commable (l : option token) : bool := (ender l || match l with Some TComma => true | _ => false end)%bool.

Definition follows (l : option token) (t : token) : bool :=
  match t with
  | TKey _ | TAll | TAny | TNot => starter l
  | TValue _ => match l with Some TEquals => true | _ => false end
  | TEquals => match l with Some (TKey _) => true | _ => false end
  | TOpen => match l with Some t => is_fn t | None => false end
  | TClose => (commable l || match l with Some TOpen => true | _ => false end)%bool
  | TComma => commable l
  end.

Fixpoint chain (l : option token) (ts : list token) : bool :=
  match ts with [] => true | t :: ts' => (follows l t && chain (Some t) ts')%bool end.
Fixpoint lastof (l : option token) (ts : list token) : option token :=
  match ts with [] => l | t :: ts' => lastof (Some t) ts' end.

Lemma chain_app l a b : chain l (a ++ b) = (chain l a && chain (lastof l a) b)%bool.
Proof. revert l. induction a as [|t a IH]; intros l; cbn; [reflexivity|]. now rewrite IH, andb_assoc. Qed.
Lemma lastof_app l a b : lastof l (a ++ b) = lastof (lastof l a) b.
Proof. revert l. induction a as [|t a IH]; intros l; cbn; auto. Qed.
Lemma lastof_some l ts t : lastof l ts = Some t -> l = Some t /\ ts = [] \/ exists ts', ts = ts' ++ [t].
Proof.
  revert l. induction ts as [|x ts IH]; intros l E; cbn in E; [now left|]. right.
  destruct (IH _ E) as [([= ->] & ->)|(ts' & ->)]; [now exists []|]. now exists (x :: ts').
Qed.

Lemma chain_commas l n : commable l = true ->
  chain l (repeat TComma n) = true /\ commable (lastof l (repeat TComma n)) = true /\
  (0 < n -> lastof l (repeat TComma n) = Some TComma).
Proof.
  revert l. induction n as [|n IH]; intros l C; cbn [repeat chain lastof]; [repeat split; auto; lia|].
  destruct (IH (Some TComma) eq_refl) as (H1 & H2 & H3). cbn [follows]. rewrite C. repeat split; auto.
  intros _. destruct n; [reflexivity|]. apply H3. lia.
Qed.

Lemma ender_commable l : ender l = true -> commable l = true.
Proof. unfold commable. now intros ->. Qed.

Lemma grammar_chain :
  (forall x ts, item x ts -> forall l, starter l = true ->
     chain l ts = true /\ ender (lastof l ts) = true) /\
  (forall xs ts, items xs ts -> forall l, starter l = true ->
     chain l ts = true /\ (xs = [] -> ts = []) /\ (xs <> [] -> commable (lastof l ts) = true)).
Proof.
  apply item_items_ind.
  - intros k l St. cbn. now rewrite St.
  - intros k v l St. cbn. now rewrite St.
  - intros f args ts S IH l St. destruct (IH (Some TOpen) eq_refl) as (H1 & H2 & H3).
    cbn [chain lastof]. assert (Hf : follows l (callee_token f) = true) by now destruct f.
    assert (Ho : follows (Some (callee_token f)) TOpen = true) by now destruct f.
    rewrite Hf, Ho, chain_app, lastof_app, H1. cbn [chain lastof andb].
    split; [|reflexivity]. rewrite andb_true_r. cbn [follows].
    destruct args as [|a args]; [now rewrite H2|]. rewrite H3; easy.
  - intros l St. repeat split; auto; easy.
  - intros x ts n I IH l St. destruct (IH l St) as (H1 & H2).
    destruct (chain_commas (lastof l ts) n (ender_commable _ H2)) as (H3 & H4 & _).
    rewrite chain_app, lastof_app, H1, H3. easy.
  - intros x ts n y l' rest I IHx S IHs l St. destruct (IHx l St) as (H1 & H2).
    destruct (chain_commas (lastof l ts) (Datatypes.S n) (ender_commable _ H2)) as (H3 & H4 & H5).
    rewrite !chain_app, !lastof_app, H1, H3. rewrite H5 by lia.
    destruct (IHs (Some TComma) eq_refl) as (H6 & H7 & H8). rewrite H6.
    split; [reflexivity|]. split; [easy|]. intros _. now apply H8.
Qed.

Lemma begins_chain ts : begins ts -> chain None ts = true.
Proof.
  intros (more & l & S). destruct (proj2 grammar_chain l _ S None eq_refl) as (H & _).
  rewrite chain_app in H. now apply andb_true_iff in H.
Qed.
Lemma begins_app a b : begins (a ++ b) -> begins a.
Proof. intros (more & l & S). exists (b ++ more), l. now rewrite app_assoc. Qed.
Lemma begins_follows ts t : begins (ts ++ [t]) -> follows (lastof None ts) t = true.
Proof. intros H. apply begins_chain in H. rewrite chain_app in H. cbn in H. rewrite andb_true_r in H. now apply andb_true_iff in H. Qed.

Lemma items_commable l ts : items l ts -> l <> [] -> commable (lastof None ts) = true.
Proof. intros S. now apply (proj2 grammar_chain l ts S None eq_refl). Qed.

(** ** Depth *)

Fixpoint depth (d : nat) (ts : list token) : option nat :=
  match ts with
  | [] => Some d
  | TOpen :: ts' => depth (S d) ts'
  | TClose :: ts' => match d with 0 => None | S d' => depth d' ts' end
  | _ :: ts' => depth d ts'
  end.
Lemma depth_app d a b : depth d (a ++ b) = match depth d a with Some d' => depth d' b | None => None end.
Proof. revert d. induction a as [|t a IH]; intros d; cbn [app depth]; [reflexivity|]. destruct t; auto. destruct d; auto. Qed.
Lemma depth_commas d n : depth d (repeat TComma n) = Some d.
Proof. induction n; auto. Qed.

Lemma grammar_depth :
  (forall x ts, item x ts -> forall d, depth d ts = Some d) /\
  (forall xs ts, items xs ts -> forall d, depth d ts = Some d).
Proof.
  apply item_items_ind; auto.
  - intros f args ts S IH d. assert (E : forall ts d, depth d (callee_token f :: ts) = depth d ts) by now destruct f.
    rewrite E. cbn [depth]. rewrite depth_app, IH. reflexivity.
  - intros x ts n I IH d. now rewrite depth_app, IH, depth_commas.
  - intros x ts n y l' rest I IHx S IHs d. rewrite depth_app, IHx, depth_app. cbv beta iota. now rewrite depth_commas.
Qed.
Lemma begins_depth ts : begins ts -> depth 0 ts <> None.
Proof.
  intros (more & l & S) E. assert (H := proj2 grammar_depth l _ S 0).
  rewrite depth_app, E in H. discriminate.
Qed.

(** ** Texts *)

Lemma blank_app a b : blank a -> blank b -> blank (a ++ b).
Proof. induction 1; intros Hb; [assumption|]. rewrite <- app_assoc. constructor; auto. Qed.
Lemma blank_not_word b r : blank b -> ~ word_goes_on (b ++ r) \/ b = [].
Proof.
  intros [|c s Ic Bs]; [now right|]. left. intros (x & y & E & L).
  destruct c as [|c0 c].
  { apply white_space_shape in Ic. destruct Ic as [(?&?&?)|[(?&?&?&?)|(?&?&?&?&?)]]; easy. }
  injection E as -> _. apply (ws_first_head _ x c) in Ic; [|reflexivity].
  unfold ws_first, white_space in Ic. cbn [map bytes existsb] in Ic.
  rewrite !orb_true_iff, !Ascii.eqb_eq in Ic. unfold letter, digit in L.
  repeat destruct Ic as [Ic|Ic]; try discriminate Ic; rewrite Ic in L; cbn in L; lia.
Qed.
Lemma no_word_nil : ~ word_goes_on [].
Proof. now intros (c & r & E & _). Qed.
Lemma no_word_prefix a b : ~ word_goes_on (a ++ b) -> ~ word_goes_on a.
Proof. intros N (c & r & -> & L). apply N. exists c, (r ++ b). auto. Qed.
Lemma blank_no_word b : blank b -> ~ word_goes_on b.
Proof.
  intros Hb. destruct (blank_not_word b [] Hb) as [N| ->]; [now rewrite app_nil_r in N|apply no_word_nil].
Qed.

Lemma spelled_not_nil t w : spelled t w -> w <> [].
Proof. intros S E. destruct (spelled_head t w S) as (c & r & -> & _). discriminate. Qed.

Lemma lexed_nil o ts : lexed o [] ts -> ts = [].
Proof.
  intros L. remember [] as s eqn:E. destruct L as [|o b w rest t ts Hb Sp M L]; [reflexivity|].
  apply app_eq_nil in E as [_ E]. apply app_eq_nil in E as [E _]. now apply spelled_not_nil in Sp.
Qed.

(** The tokens of a text do not change when what follows does not go on with its last word. *)
Definition apart (sts : list stok) (s : str) : Prop :=
  forall sts' x, sts = sts' ++ [x] -> is_word (fst x) -> ~ word_goes_on s.

Lemma apart_cons x y sts s : apart (x :: y :: sts) s -> apart (y :: sts) s.
Proof. intros A sts' z E. apply (A (x :: sts') z). now rewrite E. Qed.

Lemma lexed_app o p sts q sts2 :
  lexed o p sts -> apart sts q -> lexed (o + length p) q sts2 -> lexed o (p ++ q) (sts ++ sts2).
Proof.
  intros L. revert q sts2. induction L as [o p Hb|o b w rest t ts Hb Sp M L IH]; intros q sts2 A L2.
  - cbn [app]. remember (o + length p) as o2 eqn:Eo. destruct L2 as [o2 q Hq|o2 b w rest t ts Hb2 Sp M L2].
    + constructor. now apply blank_app.
    + subst o2. rewrite app_assoc.
      replace (o + length p + length b) with (o + length (p ++ b)) in * by (rewrite app_length; lia).
      constructor; auto. now apply blank_app.
  - rewrite <- !app_assoc. cbn [app]. constructor; auto.
    + intros Iw Wg. destruct rest as [|c rest].
      * apply lexed_nil in L as ->. now apply (A [] (t, (o + length b, o + length b + length w)) eq_refl Iw).
      * apply (M Iw). destruct Wg as (x & y & E & Lx). injection E as -> _. exists x, rest. auto.
    + apply IH.
      * destruct ts as [|y ts]; [intros [|] ? E; now try discriminate|]. now apply apart_cons in A.
      * replace (o + length b + length w + length rest) with (o + length (b ++ w ++ rest)); [assumption|].
        rewrite !app_length. lia.
Qed.

Lemma lexes_blank p ts b : lexes p ts -> blank b -> lexes (p ++ b) ts.
Proof.
  intros L Hb. induction L as [s Hs|b' w rest t ts Hb' Sp M L IH].
  - constructor. now apply blank_app.
  - rewrite <- !app_assoc. constructor; auto. intros Iw. specialize (M Iw).
    destruct rest as [|c rest]; [now apply blank_no_word|].
    intros (x & y & [= -> _] & Lx). apply M. exists x, rest. auto.
Qed.

Lemma lexed_split o s a t sp b : lexed o s (a ++ (t, sp) :: b) ->
  exists p w r, s = p ++ w ++ r /\ sp = (o + length p, o + length p + length w) /\
    lexed o p a /\ spelled t w /\ (is_word t -> ~ word_goes_on r) /\
    lexed (o + length p + length w) r b.
Proof.
  revert o s. induction a as [|x a IH]; intros o s L; cbn [app] in L.
  - remember ((t, sp) :: b) as ts eqn:E. destruct L as [|o b' w rest t' ts Hb Sp M L]; [discriminate|].
    injection E as -> <- ->. exists b', w, rest. repeat split; auto. now constructor.
  - remember (x :: a ++ (t, sp) :: b) as ts eqn:E. destruct L as [|o b' w rest t' ts Hb Sp M L]; [discriminate|].
    injection E as <- ->. destruct (IH _ _ L) as (p & w2 & r & -> & -> & Lp & Sp2 & M2 & Lr).
    exists (b' ++ w ++ p), w2, r. rewrite !app_length.
    replace (o + (length b' + (length w + length p))) with (o + length b' + length w + length p) by lia.
    split; [now rewrite <- !app_assoc|]. split; [reflexivity|]. split; [|split; [|split]]; auto.
    constructor; auto. intros Iw. specialize (M Iw). now apply no_word_prefix in M.
Qed.

(** ** States reached *)

Lemma astep_last z x z' : astep z x = Some z' -> conc_last z' = Some (fst x).
Proof.
  destruct z as [[frs root] m], x as [t s]. cbn [astep].
  destruct t; intros A; cbn [fst].
  - destruct m; try discriminate; now injection A as <-.
  - destruct m; try discriminate; now injection A as <-.
  - destruct m; try discriminate; now injection A as <-.
  - destruct m; try discriminate; now injection A as <-.
  - destruct m; try discriminate; now injection A as <-.
  - destruct m; try discriminate; now injection A as <-.
  - destruct m; try discriminate; cbn [fst] in A. destruct frs; [discriminate|]. now injection A as <-.
  - destruct m; try discriminate; destruct (fst (content _)) as [|fr rest] in A; try discriminate;
      match type of A with (if ?c then _ else _) = _ => destruct c end; try discriminate; now injection A as <-.
  - destruct m; try discriminate; now injection A as <-.
Qed.
Lemma run_last z sts z' : run z sts = Some z' -> conc_last z' = lastof (conc_last z) (map fst sts).
Proof.
  revert z. induction sts as [|x sts IH]; intros z R; cbn [run map lastof] in *; [now injection R as <-|].
  destruct (astep z x) as [z1|] eqn:A; [|discriminate]. rewrite (IH z1 R). now rewrite (astep_last z x z1 A).
Qed.

Lemma init_zt : zt init [].
Proof. now apply zt_intro with (pre := []) (its := []). Qed.
Lemma reached_zt sts z : run init sts = Some z -> zt z sts.
Proof. intros R. apply (run_zt init sts z []) in R; [exact R|apply init_zt]. Qed.

Section Text.
Context (original : str).

Lemma opened_wrap frs root pre : opened frs root pre -> Forall (in_place original) pre ->
  forall l ts, items l ts -> exists l', items l' (map fst pre ++ ts ++ repeat TClose (length frs)).
Proof.
  revert pre. induction frs as [|fr rest IH]; intros pre O F l ts S.
  - cbn in O. subst pre. exists l. cbn. now rewrite app_nil_r.
  - destruct O as (pre' & its & so & O & S' & _ & ->).
    apply Forall_app in F as [F1 F2]. apply Forall_app in F2 as [F2 _].
    destruct (proj2 (derivation_tree original) _ _ _ S' F2) as (ts' & _ & _ & _ & Nx).
    assert (I := Nx eq_refl _ _ (item_call (fr_callee fr) l ts S)).
    destruct (IH pre' O F1 _ _ I) as (l' & Sl). exists l'.
    rewrite !map_app. cbn [map fst length repeat]. rewrite <- !app_assoc in *. cbn [app] in *.
    rewrite <- !app_assoc in *. exact Sl.
Qed.

Lemma begins_in frs root pre ts :
  opened frs root pre -> Forall (in_place original) pre -> begins ts -> begins (map fst pre ++ ts).
Proof.
  intros O F (more & l & S). destruct (opened_wrap frs root pre O F l _ S) as (l' & S').
  exists (more ++ repeat TClose (length frs)), l'. now rewrite <- !app_assoc in *.
Qed.

Lemma begins_item ts x xs a b : xs = a ++ b ->
  (forall x xs, item x xs -> exists l, items l (ts ++ xs)) -> item x xs -> begins (ts ++ a).
Proof. intros -> H I. destruct (H _ _ I) as (l & S). exists b, l. now rewrite <- app_assoc. Qed.

Lemma ready_item l its : sitems l false its -> Forall (in_place original) its ->
  forall x xs, item x xs -> exists l, items l (map fst its ++ xs).
Proof.
  intros S F x xs I. destruct (proj2 (derivation_tree original) _ _ _ S F) as (ts & _ & _ & _ & Nx).
  exists (ts ++ [x]). now apply Nx.
Qed.

Lemma tail_items l m its : m <> MFn -> (forall s, m <> MEq s) -> tail l m its ->
  Forall (in_place original) its ->
  exists l', sames original (l ++ pending m) l' /\ items l' (map fst its) /\ (m <> MStart -> l' <> []).
Proof.
  intros N1 N2 T F. destruct (tail_content l m its N1 N2 T) as (b & S & N).
  destruct (proj2 (derivation_tree original) _ _ _ S F) as (ts & Sm & It & _).
  exists ts. repeat split; auto. intros Ns E. subst ts. apply (N Ns). now apply (sames_nil_iff original _ []).
Qed.

Lemma can_follow frs root m sts t :
  zt (frs, root, m) sts -> Forall (in_place original) sts ->
  follows (conc_last (frs, root, m)) t = true -> (t = TClose -> frs <> []) ->
  begins (map fst sts ++ [t]).
Proof.
  intros Z F Fo Hc.
  destruct (match m with MFn => true | _ => false end) eqn:Em.
  { destruct m; try discriminate. destruct Z as (fr & rest & pre & its & -> & It & _ & O & S & ->).
    rewrite !map_app in *. cbn [map fst]. apply Forall_app in F as [F1 F2]. apply Forall_app in F2 as [F2 _].
    rewrite <- !app_assoc. apply (begins_in rest root); auto.
    assert (t = TOpen) as ->.
    { cbn in Fo. destruct (fr_callee fr), t; try discriminate; reflexivity. }
    cbn [app]. eapply (begins_item _ (Call (fr_callee fr) []) _ [callee_token (fr_callee fr); TOpen] [TClose]);
      [reflexivity|now apply (ready_item _ its S)|]. apply (item_call (fr_callee fr) [] []). constructor. }
  assert (Nm : m <> MFn) by (intros ->; discriminate). clear Em.
  destruct (zt_elim _ _ _ _ Nm Z) as (pre & its & O & T & ->). clear Z.
  rewrite map_app, <- app_assoc. apply Forall_app in F as [F1 F2].
  assert (D : t = TClose \/ t <> TClose) by (destruct t; auto; right; discriminate).
  destruct D as [->|Nt].
  { assert (Ne : forall s, m <> MEq s) by (intros s ->; discriminate Fo).
    destruct (tail_items _ _ _ Nm Ne T F2) as (l & _ & S & _).
    destruct (opened_wrap frs root pre O F1 _ _ S) as (l' & S').
    destruct frs as [|fr rest]; [now destruct (Hc eq_refl)|]. cbn [length repeat] in S'.
    exists (repeat TClose (length rest)), l'. rewrite <- !app_assoc. exact S'. }
  apply (begins_in frs root); auto.
  assert (Comma : t = TComma -> (m <> MStart /\ forall s, m <> MEq s) -> begins (map fst its ++ [t])).
  { intros -> [Ns Ne]. destruct (tail_items _ _ _ Nm Ne T F2) as (l & _ & S & N).
    exists [], l. rewrite app_nil_r. apply items_comma; auto. }
  assert (Start : m = MStart \/ m = MComma -> starter (Some TComma) = true -> t <> TComma ->
     follows (Some TComma) t = true -> begins (map fst its ++ [t])).
  { intros M _ Nc Fo'. assert (S := tail_ready _ _ _ M T).
    destruct t; try discriminate Fo'; try easy.
    - apply (begins_item _ (Leaf (PFlag s)) [TKey s] [TKey s] []); [reflexivity|now apply (ready_item _ its S)|constructor].
    - apply (begins_item _ (Call CAll []) [TAll; TOpen; TClose] [TAll] [TOpen; TClose]);
        [reflexivity|now apply (ready_item _ its S)|apply (item_call CAll [] []); constructor].
    - apply (begins_item _ (Call CAny []) [TAny; TOpen; TClose] [TAny] [TOpen; TClose]);
        [reflexivity|now apply (ready_item _ its S)|apply (item_call CAny [] []); constructor].
    - apply (begins_item _ (Call CNot []) [TNot; TOpen; TClose] [TNot] [TOpen; TClose]);
        [reflexivity|now apply (ready_item _ its S)|apply (item_call CNot [] []); constructor]. }
  destruct m; cbn [conc_last fst snd] in Fo; try easy.
  - apply Start; auto; destruct frs, t; try discriminate Fo; easy.
  - assert (D : t = TComma \/ t <> TComma) by (destruct t; auto; right; discriminate).
    destruct D as [->|Nc]; [apply Comma; [reflexivity|easy]|]. now apply Start; auto.
  - apply Comma; [|easy]. destruct t; try discriminate Fo; easy.
  - destruct t; try discriminate Fo; try easy.
    + destruct T as (its0 & S & ->). apply Forall_app in F2 as [F2 _]. rewrite map_app, <- app_assoc. cbn [map fst app].
      apply (begins_item _ (Leaf (PKeyValue k [])) [TKey k; TEquals; TValue []] [TKey k; TEquals] [TValue []]);
        [reflexivity|now apply (ready_item _ its0 S)|constructor].
    + now apply Comma.
  - destruct t; try discriminate Fo; try easy.
    destruct T as (its0 & k & e & S & ->). apply Forall_app in F2 as [F2 _]. rewrite map_app, <- app_assoc. cbn [map fst app].
    apply (begins_item _ (Leaf (PKeyValue k s0)) [TKey k; TEquals; TValue s0] [TKey k; TEquals; TValue s0] []);
      [reflexivity|now apply (ready_item _ its0 S)|constructor].
  - apply Comma; [|easy]. destruct t; try discriminate Fo; easy.
Qed.

Lemma zt_begins z sts : zt z sts -> Forall (in_place original) sts -> begins (map fst sts).
Proof.
  destruct z as [[frs root] m]. intros Z F.
  assert (H : exists t, t <> TClose /\ follows (conc_last (frs, root, m)) t = true).
  { destruct m; [exists TAll|exists TAll|exists TComma|exists TComma|exists (TValue [])|exists TComma|exists TOpen];
      (split; [discriminate|]); try reflexivity; cbn [conc_last fst snd].
    - now destruct frs.
    - destruct Z as (fr & rest & pre & its & -> & _). now destruct (fr_callee fr). }
  destruct H as (t & Nt & Fo). apply (begins_app _ [t]). now apply (can_follow frs root m).
Qed.

(** ** Finished calls of [not] *)

Lemma run_commas z its n z' : map fst its = repeat TComma (S n) -> run z its = Some z' -> snd z' = MComma.
Proof.
  revert z its. induction n as [|n IH]; intros z its E R; destruct its as [|[t s] its]; try discriminate;
    injection E as -> E; cbn [run] in R; destruct (astep z (TComma, s)) as [z1|] eqn:A; try discriminate.
  - destruct its; [|discriminate]. injection R as <-. destruct z as [[frs root] m]. cbn [astep] in A.
    destruct m; try discriminate; now injection A as <-.
  - now apply (IH z1 its).
Qed.

Lemma run_proper :
  (forall t ts, item t ts -> forall its z z', map fst its = ts -> Forall (in_place original) its ->
     ready z -> run z its = Some z' -> proper count8 t) /\
  (forall l ts, items l ts -> forall its z z', map fst its = ts -> Forall (in_place original) its ->
     ready z -> run z its = Some z' -> Forall (proper count8) l).
Proof.
  apply item_items_ind.
  - constructor.
  - constructor.
  - intros f args ts S IH its z z' E F Rd R.
    destruct its as [|[t1 s1] [|[t2 s2] its]]; try discriminate. injection E as -> -> E.
    destruct (map_app_split _ _ _ _ E) as (i1 & i2 & -> & <- & E2).
    destruct i2 as [|[t3 s3] [|]]; try discriminate. injection E2 as ->.
    inversion F as [|? ? _ F2]; subst. inversion F2 as [|? ? _ F4]; subst. clear F F2.
    apply Forall_app in F4 as [F4 _].
    destruct z as [[frs root] m]. cbn [run] in R. rewrite astep_callee in R by exact Rd.
    cbn [astep fst snd fr_callee fr_span fr_items] in R. rewrite run_app in R.
    set (z0 := ((mkFrame f s1 (fst s2) [] :: frs, root), MStart)) in *.
    destruct (run z0 i1) as [z1|] eqn:R1; [|discriminate].
    assert (Pa := IH i1 z0 z1 eq_refl F4 (or_introl eq_refl) R1).
    constructor; [assumption|]. intros ->.
    destruct (proj2 (tree_derivation original) args _ S Pa i1 eq_refl F4) as (pl & Sm & D).
    destruct (D [] [] sitems_nil) as (b & D'). cbn [app] in D'.
    destruct (proj2 derivation_runs pl b i1 D' z0 eq_refl) as (z2 & R2 & _ & _ & C).
    rewrite R1 in R2. injection R2 as <-. cbn [run] in R.
    destruct (astep z1 (TClose, s3)) as [z3|] eqn:A; [|discriminate].
    destruct z1 as [[frs1 root1] m1]. cbn [astep] in A.
    rewrite C in A. subst z0. cbn [fst add app fr_callee fr_items] in A.
    rewrite <- (sames_count8 original pl args Sm).
    destruct (pcount8 pl =? 1) eqn:Ec; [now apply Nat.eqb_eq in Ec|].
    destruct m1; discriminate A.
  - constructor.
  - intros x ts n I IH its z z' E F Rd R.
    destruct (map_app_split _ _ _ _ E) as (i1 & i2 & -> & <- & E2). apply Forall_app in F as [F1 F2].
    rewrite run_app in R. destruct (run z i1) as [z1|] eqn:R1; [|discriminate].
    constructor; [|constructor]. now apply (IH i1 z z1).
  - intros x ts n y l rest I IH S IHs its z z' E F Rd R.
    destruct (map_app_split _ _ _ _ E) as (i1 & i' & -> & <- & E').
    destruct (map_app_split _ _ _ _ E') as (i2 & i3 & -> & E2 & E3).
    apply Forall_app in F as [F1 F']. apply Forall_app in F' as [F2 F3].
    rewrite run_app in R. destruct (run z i1) as [z1|] eqn:R1; [|discriminate].
    rewrite run_app in R. destruct (run z1 i2) as [z2|] eqn:R2; [|discriminate].
    constructor; [now apply (IH i1 z z1)|]. apply (IHs i3 z2 z'); auto.
    right. now apply (run_commas z1 i2 n).
Qed.

Lemma run_nots sts z : run init sts = Some z -> Forall (in_place original) sts -> nots_ok (map fst sts).
Proof.
  intros R F a args b c E S.
  destruct (map_app_split _ _ _ _ E) as (ia & i' & -> & _ & E').
  replace (TNot :: TOpen :: b ++ TClose :: c) with ((TNot :: TOpen :: b ++ [TClose]) ++ c) in E'
    by (cbn [app]; now rewrite <- app_assoc).
  destruct (map_app_split _ _ _ _ E') as (ib & ic & -> & Eb & _).
  apply Forall_app in F as [_ F]. apply Forall_app in F as [F _].
  rewrite run_app in R. destruct (run init ia) as [za|]; [|discriminate].
  rewrite run_app in R. destruct (run za ib) as [zb|] eqn:Rb; [|discriminate].
  assert (Rd : ready za).
  { destruct ib as [|[t s] ib]; [discriminate|]. injection Eb as -> _. cbn [run] in Rb.
    destruct za as [ls m]. cbn [astep] in Rb. destruct m; try discriminate; [now left|now right]. }
  assert (P := proj1 run_proper _ _ (item_call CNot args b S) ib za zb Eb F Rd Rb).
  inversion P; subst. auto.
Qed.

(** ** What may follow *)

Lemma hints_ok frs root m sts :
  run init sts = Some (frs, root, m) -> Forall (in_place original) sts ->
  hints (map fst sts) (expected_after (conc_last (frs, root, m))).
Proof.
  intros R F. assert (Z := reached_zt _ _ R).
  assert (La := run_last _ _ _ R). change (conc_last init) with (@None token) in La.
  set (z := (frs, root, m)) in *. split.
  - assert (K : forall h t, named h t -> follows (conc_last z) t = true -> (t = TClose -> frs <> []) ->
      exists t, named h t /\ (begins (map fst sts ++ [t]) \/ (t = TClose /\ exists l, items l (map fst sts)))).
    { intros h t Nh Fo Hc. exists t. split; [assumption|]. left. now apply (can_follow frs root m). }
    assert (Kc : follows (conc_last z) TClose = true -> m <> MStart ->
      exists t, named ")" t /\ (begins (map fst sts ++ [t]) \/ (t = TClose /\ exists l, items l (map fst sts)))).
    { intros Fo Ns. destruct frs as [|fr rest].
      - exists TClose. split; [constructor|]. right. split; [reflexivity|].
        assert (Nm : m <> MFn). { intros ->. destruct Z as (? & ? & ? & ? & E & _). discriminate. }
        assert (Ne : forall s, m <> MEq s) by (intros s ->; discriminate Fo).
        destruct (zt_elim _ _ _ _ Nm Z) as (pre & its & O & T & ->). cbn in O. subst pre.
        destruct (tail_items _ _ _ Nm Ne T F) as (l & _ & S & _). now exists l.
      - apply (K _ TClose); [constructor|assumption|easy]. }
    intros h Ih. destruct m; cbn [z conc_last fst snd expected_after] in *.
    + destruct frs as [|fr rest]; cbn [expected_after In] in Ih;
        repeat (destruct Ih as [<-|Ih]; [first [apply (K _ (TKey [])); [constructor|reflexivity|easy]|eapply K; [constructor|reflexivity|easy]]|]); destruct Ih.
    + destruct Ih as [<-|[<-|[]]]; [now apply Kc|]. now apply (K _ (TKey [])); [constructor|..].
    + destruct Ih as [<-|[<-|[]]]; [now apply Kc|]. now apply (K _ TComma); [constructor|..].
    + destruct Ih as [<-|[<-|[<-|[]]]]; [now apply (K _ TEquals); [constructor|..]|now apply (K _ TComma); [constructor|..]|now apply Kc].
    + destruct Ih as [<-|[]]. now apply (K _ (TValue [])); [constructor|..].
    + destruct Ih as [<-|[<-|[]]]; [now apply (K _ TComma); [constructor|..]|now apply Kc].
    + destruct Z as (fr & rest & pre & its & -> & _). cbn [conc_last fst snd] in *.
      assert (h = "("%string) as -> by (destruct (fr_callee fr); cbn in Ih; destruct Ih as [<-|[]]; reflexivity).
      apply (K _ TOpen); [constructor|now destruct (fr_callee fr)|easy].
  - intros t Bt. apply begins_follows in Bt. rewrite <- La in Bt.
    destruct (conc_last z) as [[]|] eqn:El; destruct t; try discriminate Bt;
      try (left; eexists; split; [|constructor]; cbn; now auto 8).
    all: right; symmetry in La; apply lastof_some in La as [[[=] _]|(ts' & E)]; exists ts'; (split; [exact E|]); auto;
      right; first [now exists CAll|now exists CAny|now exists CNot].
Qed.

End Text.

(** ** Errors of the lexer *)

Lemma lex_token_err original c s o e :
  utf8_valid (c :: s) = true -> lex_token original (c :: s) o c = Err e ->
  (c = quote /\ ~ In quote s /\ e = mkParseError original (o, length original) UnclosedQuotes) \/
  (no_token c /\
   e = mkParseError original (o, o + 1) (Unexpected ["<key>"; "all"; "any"; "not"]%string)).
Proof.
  intros V E. destruct (lex_token_cases original c s o V) as [(t & w & rest & Ew & Sp & M)|_].
  { exfalso. destruct w as [|c' r]; [now apply spelled_not_nil in Sp|]. injection Ew as <- ->.
    assert (T := lex_token_spelled original t (c :: r) rest o c r Sp M V eq_refl).
    cbn [app] in T. rewrite T in E. discriminate. }
  unfold lex_token in E.
  destruct (Ascii.eqb c "=") eqn:E1; [discriminate|]. destruct (Ascii.eqb c "(") eqn:E2; [discriminate|].
  destruct (Ascii.eqb c ")") eqn:E3; [discriminate|]. destruct (Ascii.eqb c ",") eqn:E4; [discriminate|].
  destruct (Ascii.eqb c dquote) eqn:E5.
  { apply Ascii.eqb_eq in E5 as ->. left. split; [reflexivity|].
    rewrite slice_from_1 in E by (try assumption; reflexivity). cbn [or_slice bind] in E.
    destruct (find_byte (Ascii.eqb dquote) s) as [n|] eqn:Fb.
    - destruct (slice (dquote :: s) 1 (n + 1)); discriminate E.
    - injection E as <-. split; [|reflexivity]. apply find_byte_none in Fb. rewrite Forall_forall in Fb.
      intros Iq. apply Fb in Iq. now rewrite Ascii.eqb_refl in Iq. }
  destruct (is_ident_start c) eqn:E6.
  { exfalso. destruct (slice_from (c :: s) 1) as [x|]; [|discriminate]. cbn [or_slice bind] in E.
    destruct (find_byte _ x) as [n|]; [destruct (slice (c :: s) 0 (n + 1))|]; discriminate E. }
  right. injection E as <-. split; [|reflexivity]. split.
  - intros L. apply ident_start_iff in L. congruence.
  - apply Ascii.eqb_neq in E1, E2, E3, E4, E5. intros [H|[H|[H|[H|[H|[]]]]]]; subst c; now try easy.
Qed.

Lemma lex_next_err original inner o e :
  utf8_valid inner = true -> lex_next original inner o = Err e ->
  exists b c s, inner = b ++ c :: s /\ blank b /\ no_leading_ws (c :: s) /\
    ((c = quote /\ ~ In quote s /\ e = mkParseError original (o + length b, length original) UnclosedQuotes) \/
     (no_token c /\ e = mkParseError original (o + length b, o + length b + 1)
                         (Unexpected ["<key>"; "all"; "any"; "not"]%string))).
Proof.
  intros V E. destruct (trim_start_spec inner) as (b & Ei & Hb & Hn).
  unfold lex_next in E. destruct (trim_start inner) as [|c s] eqn:T.
  { rewrite app_nil_r in Ei. subst b. cbn [length] in E. rewrite Nat.sub_0_r in E.
    rewrite <- (app_nil_r inner) in E at 1. rewrite slice_from_app in E by reflexivity. discriminate E. }
  assert (V2 := V). rewrite Ei, valid_blank in V2 by assumption.
  exists b, c, s. split; [assumption|]. split; [assumption|]. split; [assumption|].
  rewrite Ei, app_length in E.
  replace (length b + length (c :: s) - length (c :: s)) with (length b) in E by lia.
  rewrite slice_from_app in E by assumption. cbn [or_slice bind] in E.
  destruct (lex_token original (c :: s) (o + length b) c) as [t|e'|p] eqn:Et; cbn [bind] in E.
  - destruct (slice_from (c :: s) (token_len t)); discriminate E.
  - injection E as ->. now apply lex_token_err in Et.
  - discriminate E.
Qed.

(** ** Errors of a step *)

Lemma pstep_err pr original z t sp e n :
  zok n z -> pstep pr original (conc z) t sp = Err e ->
  (follows (conc_last z) t = false /\
     e = mkParseError original sp (Unexpected (expected_after (conc_last z)))) \/
  (follows (conc_last z) t = true /\ t = TClose /\ fst (fst z) = [] /\
     e = mkParseError original sp UnopenedParens) \/
  (follows (conc_last z) t = true /\ t = TClose /\ exists fr rest,
     fst (fst z) = fr :: rest /\ fr_callee fr = CNot /\
     pcount8 (fr_items fr ++ pending (snd z)) <> 1 /\
     e = mkParseError original (fst (fr_span fr), snd sp)
           (InvalidNot (pcount8 (fr_items fr ++ pending (snd z))))).
Proof.
  destruct z as [[frs root] m]. intros (_ & Hm & _) E. cbn [fst snd] in *.
  set (z := (frs, root, m)) in *. assert (La : ps_last (conc z) = conc_last z) by reflexivity.
  destruct t; unfold pstep in E; rewrite La in E.
  - left. destruct (conc_last z) as [[]|]; try discriminate E; split; try reflexivity; now injection E as <-.
  - left. destruct (conc_last z) as [[]|]; try discriminate E; split; try reflexivity; now injection E as <-.
  - left. destruct (conc_last z) as [[]|]; try discriminate E; split; try reflexivity; now injection E as <-.
  - left. destruct (conc_last z) as [[]|]; try (split; [reflexivity|now injection E as <-]); exfalso;
      (destruct (ps_stack (conc z)) as [|fs rest]; [discriminate E|]); unfold incr_u8 in E;
      destruct (fs_nest_level fs <? 255), (overflow_checks pr); discriminate E.
  - left. destruct (conc_last z) as [[]|]; try (split; [reflexivity|now injection E as <-]); exfalso;
      (destruct (ps_stack (conc z)) as [|fs rest]; [discriminate E|]); unfold incr_u8 in E;
      destruct (fs_nest_level fs <? 255), (overflow_checks pr); discriminate E.
  - left. destruct (conc_last z) as [[]|]; try (split; [reflexivity|now injection E as <-]); exfalso;
      (destruct (ps_stack (conc z)) as [|fs rest]; [discriminate E|]); unfold incr_u8 in E;
      destruct (fs_nest_level fs <? 255), (overflow_checks pr); discriminate E.
  - left. destruct (conc_last z) as [[]|]; try discriminate E; split; try reflexivity; now injection E as <-.
  - destruct (follows (conc_last z) TClose) eqn:Fo.
    2:{ left. destruct (conc_last z) as [[]|]; try discriminate Fo; split; try reflexivity; now injection E as <-. }
    right. assert (E' : match ps_stack (conc z) with
          | top :: rest =>
              let num := length (fs_predicates top)
                         + (if ps_key (conc z) then 1 else 0) + fs_nest_level top in
              f <- match fs_func top with
                   | FAll _ => Ok (FAll num)
                   | FAny _ => Ok (FAny num)
                   | FNot =>
                       if negb (Nat.eqb num 1)
                       then Err (mkParseError original (fst (fs_span top), snd sp)
                                   (InvalidNot num))
                       else Ok FNot
                   end ;;
              Ok (mkPs rest
                    (ps_queue (conc z) ++ map NPred (fs_predicates top)
                       ++ map NPred (preds_of (ps_key (conc z)) (ps_val (conc z))) ++ [NFn f])
                    (Some TClose) None None (ps_roots (conc z)))
          | [] => Err (mkParseError original sp UnopenedParens)
          end = Err e) by (destruct (conc_last z) as [[]|]; try discriminate Fo; exact E).
    clear E. rename E' into E. subst z. cbn [conc fst snd ps_stack ps_key] in E.
    destruct frs as [|fr rest].
    { left. repeat split; auto. now injection E as <-. }
    right. split; [reflexivity|]. split; [reflexivity|]. exists fr, rest. split; [reflexivity|].
    cbn [conc_stack conc_frame fs_predicates fs_nest_level fs_func fs_span] in E.
    assert (N : m <> MFn /\ forall s, m <> MEq s).
    { split; [intros ->|intros s ->]; cbn in Fo; [destruct (fr_callee fr)|]; discriminate Fo. }
    assert (C : length (pleaves (fr_items fr)) + (if conc_key m then 1 else 0)
                 + (ncalls (fr_items fr) + 0) mod 256 = pcount8 (fr_items fr ++ pending m)).
    { unfold pcount8. rewrite pleaves_app, ncalls_app, app_length, pending_calls.
      rewrite (pending_preds m) by apply N. destruct m; cbn; reflexivity || (destruct N as [N1 N2]; now destruct (N2 s)). }
    rewrite C in E. destruct (fr_callee fr); cbn [func_of] in E; try discriminate E.
    split; [reflexivity|]. destruct (Nat.eqb_spec (pcount8 (fr_items fr ++ pending m)) 1); cbn [negb] in E; [discriminate E|].
    split; [assumption|]. now injection E as <-.
  - left. destruct (conc_last z) as [[]|]; try (split; [reflexivity|now injection E as <-]); exfalso;
      (destruct (ps_key (conc z)) as [k|]; [destruct (ps_stack (conc z)) as [|fs rest]|]); discriminate E.
Qed.

(** ** Where the loop stops *)

Lemma valid_app a b : utf8_valid a = true -> utf8_valid (a ++ b) = utf8_valid b.
Proof.
  revert a. apply (valid_ind (fun a => utf8_valid (a ++ b) = utf8_valid b)); [reflexivity|].
  intros c s Sh V IH. now rewrite <- app_assoc, valid_char.
Qed.
Lemma spelled_self_valid t w rest : spelled t w -> utf8_valid (w ++ rest) = true -> utf8_valid w = true.
Proof.
  intros Sp V. assert (K : forall w, Forall (fun a => nb a < 128)%N w -> utf8_valid w = true).
  { intros w0 F. rewrite <- (app_nil_r w0). now rewrite valid_ascii_app. }
  destruct Sp as [w' (c & r & -> & L & F) _ _ _|v _| | | | | | |]; try reflexivity.
  - apply K. constructor; [now apply letter_ascii|]. eapply Forall_impl; [|exact F]. apply ident_ascii.
  - cbn [app] in V. rewrite valid_ascii in V by reflexivity. rewrite <- app_assoc in V. cbn [app] in V.
    rewrite valid_ascii by reflexivity. rewrite valid_app; [reflexivity|].
    now apply (valid_app_ascii v quote rest).
Qed.

Definition reached (original : str) (off : nat) (inner : str) (sts : list stok) (z : zip) : Prop :=
  exists pre, original = pre ++ inner /\ off = length pre /\ lexed 0 pre sts /\ apart sts inner /\
    utf8_valid pre = true /\ run init sts = Some z.

Lemma ploop_trace pr original : forall fuel inner off sts z,
  length inner < fuel -> utf8_valid inner = true -> zok off z -> reached original off inner sts z ->
  match ploop fuel pr original inner off (conc z) with
  | Ok s => exists sts z, lexed 0 original sts /\ run init sts = Some z /\ s = conc z /\ zok (length original) z
  | Err e =>
      exists inner off sts z, reached original off inner sts z /\ utf8_valid inner = true /\ zok off z /\
        (lex_next original inner off = Err e \/
         exists b t w rest, inner = b ++ w ++ rest /\ blank b /\ spelled t w /\
           (is_word t -> ~ word_goes_on rest) /\
           pstep pr original (conc z) t (off + length b, off + length b + length w) = Err e)
  | Panic _ => True
  end.
Proof.
  induction fuel as [|fuel IH]; intros inner off sts z Lf V Z Re; [lia|]. cbn [ploop].
  destruct (lex_next_stuck original inner off V)
    as [Hb|[(b & t & w & rest & E & Hb & Sp & M)|(b & e & Hb & Lb & R & St)]].
  - rewrite lex_next_blank by assumption. cbn [bind].
    destruct Re as (pre & -> & -> & L & A & _ & R). exists sts, z.
    split; [|split; [assumption|split; [reflexivity|]]].
    + rewrite <- (app_nil_r sts). apply lexed_app; auto. now constructor.
    + apply (zok_le (length pre)); [rewrite app_length; lia|assumption].
  - subst inner. rewrite (lex_next_token original b t w rest off) by assumption. cbn [bind].
    set (s := (off + length b, off + length b + length w)).
    assert (Lw : 1 <= length w).
    { destruct (spelled_head t w Sp) as (c & r & -> & _). cbn. lia. }
    assert (Lo : off + length (b ++ w ++ rest) = length original).
    { destruct Re as (pre & -> & -> & _). rewrite !app_length. lia. }
    rewrite !app_length in *.
    assert (Ps := pstep_spec pr original z (t, s) off Z). cbn [fst snd s] in Ps.
    specialize (Ps ltac:(lia) ltac:(lia)). unfold step_spec in Ps. cbn [fst snd] in Ps. fold s in Ps.
    destruct (pstep pr original (conc z) t s) as [s'|e|p] eqn:Es; cbn [bind]; [|clear IH|exact I].
    + destruct Ps as (z1 & A & -> & Z1).
      assert (V2 := V). rewrite valid_blank in V2 by assumption.
      assert (V' := spelled_valid t w rest Sp V2).
      apply (IH rest (off + length b + length w) (sts ++ [(t, s)]) z1); auto; [lia|].
      destruct Re as (pre & -> & -> & L & Ap & Vp & R).
      exists (pre ++ b ++ w). split; [now rewrite <- !app_assoc|]. split; [rewrite !app_length; lia|].
      split; [|split; [|split]].
      * apply lexed_app; [assumption| |].
        -- intros sts' x Ex Iw. specialize (Ap sts' x Ex Iw). rewrite app_assoc in Ap. now apply no_word_prefix in Ap.
        -- rewrite <- (app_nil_r w) at 1. cbn [plus]. subst s. constructor; auto.
           ++ intros _. apply no_word_nil.
           ++ constructor. constructor.
      * intros sts' x Ex. apply app_inj_tail in Ex as [_ <-]. exact M.
      * rewrite valid_app, valid_blank by assumption. exact (spelled_self_valid t w rest Sp V2).
      * rewrite run_app, R. cbn [run]. now rewrite A.
    + exists (b ++ w ++ rest), off, sts, z. split; [assumption|]. split; [assumption|]. split; [assumption|].
      right. exists b, t, w, rest. auto.
  - rewrite R. cbn [bind]. exists inner, off, sts, z. auto.
Qed.

(** ** The errors explained *)

Lemma no_leading_blank c s : no_leading_ws (c :: s) ->
  forall b r, blank b -> c :: s = b ++ r -> b = [].
Proof.
  intros N b r Hb E. destruct Hb as [|x y Ix Hb]; [reflexivity|]. rewrite <- app_assoc in E.
  now apply (N x (y ++ r)) in Ix.
Qed.

(** Words and white space end differently. *)
Lemma white_end c : In c white_space -> exists p x, c = p ++ [x] /\ ~ (letter x \/ digit x).
Proof.
  intros I. assert (H : Forall (fun c => exists p x, c = p ++ [x] /\ ~ (letter x \/ digit x)) white_space).
  { unfold white_space, letter, digit. cbn [map bytes].
    repeat (apply Forall_cons || apply Forall_nil);
      ((eexists [], _; split; [reflexivity|]) || (eexists [_], _; split; [reflexivity|])
       || (eexists [_; _], _; split; [reflexivity|])); cbn; lia. }
  rewrite Forall_forall in H. now apply H.
Qed.
Lemma blank_end b p c : blank b -> b = p ++ [c] -> ~ (letter c \/ digit c).
Proof.
  intros Hb. revert p. induction Hb as [|x s Ix Hb IH]; intros p E; [now destruct p|].
  destruct s as [|y s].
  - rewrite app_nil_r in E. destruct (white_end x Ix) as (p' & z & -> & N). now apply app_inj_tail in E as [_ <-].
  - destruct (exists_last (l := y :: s)) as (s' & z & Es); [discriminate|]. rewrite Es in *.
    rewrite app_assoc in E. apply app_inj_tail in E as [_ <-]. now apply (IH s').
Qed.
Lemma spelled_end t w p c : spelled t w -> w = p ++ [c] -> letter c \/ digit c -> is_word t.
Proof.
  intros Sp E L. destruct Sp as [w _ _ _ _|v _| | | | | | |]; try exact I; exfalso;
    [change (quote :: v ++ [quote]) with ((quote :: v) ++ [quote]) in E; apply app_inj_tail in E as [_ <-]|..];
    try (apply (f_equal (@rev ascii)) in E; rewrite rev_app_distr in E; injection E as <- _);
    unfold letter, digit in L; cbn in L; lia.
Qed.
Lemma lexed_end_word o s sts : lexed o s sts -> forall p c, s = p ++ [c] -> letter c \/ digit c ->
  exists sts' x, sts = sts' ++ [x] /\ is_word (fst x).
Proof.
  induction 1 as [o s Hb|o b w rest t ts Hb Sp M L IH]; intros p c E Lc; [now destruct (blank_end s p c Hb E)|].
  destruct rest as [|y rest].
  - apply lexed_nil in L as ->. rewrite app_nil_r in E. exists [], (t, (o + length b, o + length b + length w)). split; [reflexivity|].
    cbn [fst]. destruct (exists_last (spelled_not_nil t w Sp)) as (w' & z & ->).
    rewrite app_assoc in E. apply app_inj_tail in E as [_ <-]. now apply (spelled_end t (w' ++ [z]) w' z).
  - destruct (exists_last (l := y :: rest)) as (r & z & Er); [discriminate|]. rewrite Er in *.
    rewrite !app_assoc in E. apply app_inj_tail in E as [_ <-].
    destruct (IH r z eq_refl Lc) as (sts' & x & -> & W). now exists ((t, (o + length b, o + length b + length w)) :: sts'), x.
Qed.
Lemma apart_parted o pre sts b r : lexed o pre sts -> apart sts (b ++ r) -> blank b -> parted (pre ++ b) r.
Proof.
  intros L A Hb p c E Lc. destruct b as [|y b].
  - rewrite app_nil_r in E. destruct (lexed_end_word o pre sts L p c E Lc) as (sts' & x & Es & W). exact (A sts' x Es W).
  - exfalso. destruct (exists_last (l := y :: b)) as (b' & z & Eb); [discriminate|]. rewrite Eb in *.
    rewrite app_assoc in E. apply app_inj_tail in E as [_ <-]. exact (blank_end (b' ++ [z]) b' z Hb eq_refl Lc).
Qed.

Lemma lexed_fine pre sts z :
  utf8_valid pre = true -> lexed 0 pre sts -> run init sts = Some z ->
  fine pre (map fst sts) /\ Forall (in_place pre) sts.
Proof.
  intros V L R. assert (F := lexed_in_place pre [] pre sts eq_refl V L).
  split; [|assumption]. split; [now apply (lexed_lexes 0)|]. split.
  - apply (zt_begins pre z); [now apply reached_zt|assumption].
  - now apply (run_nots pre sts z).
Qed.

Lemma reached_fine original off inner sts z b :
  reached original off inner sts z -> blank b ->
  forall r, inner = b ++ r ->
  exists pre, original = pre ++ r /\ off + length b = length pre /\ run init sts = Some z /\
    fine pre (map fst sts) /\ lexed 0 pre sts /\ Forall (in_place pre) sts /\ parted pre r.
Proof.
  intros (pre & E & -> & L & Ap & V & R) Hb r ->. exists (pre ++ b).
  assert (Pa := apart_parted 0 pre sts b r L Ap Hb).
  assert (L' : lexed 0 (pre ++ b) sts).
  { rewrite <- (app_nil_r sts). apply lexed_app; [assumption| |now constructor].
    intros sts' x Ex Iw. specialize (Ap sts' x Ex Iw). now apply no_word_prefix in Ap. }
  assert (V' : utf8_valid (pre ++ b) = true).
  { rewrite valid_app by assumption. rewrite <- (app_nil_r b). now rewrite valid_blank. }
  destruct (lexed_fine _ _ _ V' L' R) as [Fi F].
  split; [now rewrite <- app_assoc|]. split; [now rewrite app_length|]. auto.
Qed.

Lemma step_explained pr original off b w rest sts z t e :
  reached original off (b ++ w ++ rest) sts z -> zok off z -> blank b -> spelled t w ->
  (is_word t -> ~ word_goes_on rest) ->
  pstep pr original (conc z) t (off + length b, off + length b + length w) = Err e ->
  pe_original e = original /\ explains original (pe_span e) (pe_reason e).
Proof.
  intros Re Z Hb Sp M Es.
  destruct (reached_fine _ _ _ _ _ b Re Hb _ eq_refl) as (pre & Eo & Lo & R & Fi & L & F & Pa).
  rewrite Lo in Es.
  assert (La := run_last _ _ _ R). change (conc_last init) with (@None token) in La.
  assert (Zt := reached_zt _ _ R).
  apply (pstep_err pr original z t _ e off Z) in Es as
    [(Fo & ->)|[(Fo & -> & Ef & ->)|(Fo & -> & fr & frs & Ef & Ec & Nc & ->)]]; cbn [pe_original pe_span pe_reason];
    (split; [reflexivity|]).
  - apply (ex_token original pre w rest t (map fst sts)); auto.
    + intros Bt. apply begins_follows in Bt. rewrite <- La in Bt. congruence.
    + destruct z as [[frs root] m]. now apply (hints_ok pre frs root m).
    + intros -> (l & N & S). assert (C := items_commable l _ S N). rewrite <- La in C.
      cbn [follows] in Fo. rewrite C in Fo. discriminate Fo.
  - inversion Sp; subst w. destruct z as [[frs root] m]. cbn [fst] in Ef. subst frs.
    assert (Nm : m <> MFn) by (intros ->; discriminate Fo).
    assert (Ne : forall s, m <> MEq s) by (intros s ->; discriminate Fo).
    assert (Ns : m <> MStart) by (intros ->; discriminate Fo).
    destruct (zt_elim _ _ _ _ Nm Zt) as (p & its & O & T & E). cbn in O. subst p. cbn [app] in E. subst its.
    destruct (tail_items pre _ _ _ Nm Ne T F) as (l & _ & S & N).
    change (length (B ")")) with 1.
    now apply (ex_unopened original pre rest (map fst sts) l); auto.
  - inversion Sp; subst w. destruct z as [[frs' root] m]. cbn [fst snd] in *. subst frs'.
    assert (Nm : m <> MFn) by (intros ->; cbn in Fo; rewrite Ec in Fo; discriminate Fo).
    assert (Ne : forall s, m <> MEq s) by (intros s ->; discriminate Fo).
    destruct (zt_elim _ _ _ _ Nm Zt) as (p & its & O & T & E).
    destruct O as (p' & its' & so & O & S' & _ & ->). subst sts.
    rewrite Ec in *. cbn [callee_token] in *.
    assert (F2 := F). apply Forall_app in F2 as [_ F2].
    destruct (tail_items pre _ _ _ Nm Ne T F2) as (args & Sm & S & _).
    cbn [top_items fst] in Sm. rewrite (sames_count8 pre _ _ Sm) in *.
    replace ((p' ++ its' ++ [(TNot, fr_span fr); (TOpen, so)]) ++ its)
      with ((p' ++ its') ++ (TNot, fr_span fr) :: (TOpen, so) :: its) in * by now rewrite <- !app_assoc.
    destruct (lexed_split _ _ _ _ _ _ L) as (p1 & w1 & r1 & Ep & Esp & L1 & Sp1 & M1 & L2).
    inversion Sp1; subst w1. rewrite Esp. cbn [fst plus].
    replace (length pre + length (B ")")) with (length p1 + length (B "not" ++ r1 ++ B ")"))
      by (rewrite Ep, !app_length; cbn; lia).
    rewrite map_app in Fi. cbn [map fst] in Fi.
    apply (ex_not original p1 r1 rest (map fst (p' ++ its')) (map fst its) args); auto.
    + rewrite Eo, Ep. now rewrite <- !app_assoc.
    + now apply (lexed_lexes 0).
    + now apply lexed_lexes in L2.
    + rewrite <- Ep. exact Fi.
Qed.

Lemma lex_explained original off inner sts z e :
  reached original off inner sts z -> utf8_valid inner = true ->
  lex_next original inner off = Err e ->
  pe_original e = original /\ explains original (pe_span e) (pe_reason e).
Proof.
  intros Re V El. apply lex_next_err in El as (b & c & s & -> & Hb & Nl & El); [|assumption].
  destruct (reached_fine _ _ _ _ _ b Re Hb _ eq_refl) as (pre & Eo & Lo & R & Fi & L & F & Pa).
  rewrite Lo in El. destruct El as [(-> & Nq & ->)|(Nt & ->)]; (split; [reflexivity|]); cbn [pe_span pe_reason].
  - now apply (ex_quote original pre s (map fst sts)).
  - apply (ex_stray original pre c s (map fst sts)); auto. now apply no_leading_blank.
Qed.

Lemma finish_explained original sts z e :
  utf8_valid original = true -> lexed 0 original sts -> run init sts = Some z -> zok (length original) z ->
  pfinish original (conc z) = Err e ->
  pe_original e = original /\ explains original (pe_span e) (pe_reason e).
Proof.
  intros V L R Z Ef. destruct (lexed_fine _ _ _ V L R) as [Fi F].
  assert (La := run_last _ _ _ R). change (conc_last init) with (@None token) in La.
  assert (Zt := reached_zt _ _ R).
  destruct z as [[frs root] m].
  assert (MEqCase : (exists s, m = MEq s) \/ (forall s, m <> MEq s)).
  { destruct m; try (right; easy). left. eauto. }
  destruct MEqCase as [[s ->]|Ne].
  { cbn in Ef. injection Ef as <-. split; [reflexivity|]. cbn [pe_span pe_reason].
    cbn [conc_last snd] in La. symmetry in La. apply lastof_some in La as [[[=] _]|(ts' & E)].
    apply (ex_value original ts'). now rewrite <- E. }
  unfold pfinish in Ef.
  assert (Skip : forall A (a b : A),
     match ps_last (conc (frs, root, m)) with Some TEquals => a | _ => b end = b).
  { intros A a b. cbn [conc ps_last conc_last fst snd].
    destruct m; try reflexivity; [now destruct frs|now destruct (Ne s)|].
    destruct frs as [|fr rest]; [reflexivity|]. unfold conc_last; cbn [fst snd]; destruct (fr_callee fr); reflexivity. }
  rewrite Skip in Ef. clear Skip.
  destruct frs as [|fr rest].
  - assert (Nm : m <> MFn). { intros ->. destruct Zt as (? & ? & ? & ? & E & _). discriminate. }
    assert (Fin : final ([], root, m) (root ++ pending m)) by (repeat split; auto).
    destruct (run_accepted original sts _ _ V L R Fin) as (roots & Sm & Wr & Pr).
    destruct (sames_counts original _ roots Sm) as (E1 & E2 & E3).
    cbn [conc ps_stack fst conc_stack ps_queue ps_roots ps_key ps_val snd] in Ef.
    rewrite <- (pending_preds m Nm Ne), <- pending_queue, conc_root_queue in Ef.
    assert (Q : conc_queue (add ([], root) (pending m)) = flat_map compile (root ++ pending m)).
    { unfold conc_queue. cbn. now rewrite app_nil_r. }
    rewrite Q in Ef. clear Q.
    rewrite <- app_length, <- pleaves_app, E1 in Ef.
    destruct (flat_map compile (root ++ pending m)) as [|y q] eqn:Eq.
    + injection Ef as <-. split; [reflexivity|]. cbn [pe_span pe_reason]. apply ex_empty.
      assert (roots = []) as ->.
      { apply (sames_nil_iff original _ _ Sm). destruct (root ++ pending m) as [|x l']; [reflexivity|].
        cbn [flat_map] in Eq. apply app_eq_nil in Eq as [Eq _]. now apply compile_not_nil in Eq. }
      destruct Wr as (ts & Lx & It).
      assert (ts = []) as -> by now apply (proj2 grammar_chain _ _ It None eq_refl).
      inversion Lx; assumption.
    + destruct (Nat.ltb_spec 1 (leaves roots)); [|discriminate Ef].
      injection Ef as <-. split; [reflexivity|]. now apply (ex_roots original roots).
  - cbn [conc ps_stack fst conc_stack conc_frame fs_parens_index fs_span] in Ef.
    assert (D : m = MFn \/ m <> MFn) by (destruct m; auto; right; discriminate).
    destruct D as [->|Nm].
    + destruct Zt as (fr' & rest' & p & its & [= <- <-] & _ & Eop & O & S & ->).
      rewrite Eop in Ef. cbn [Nat.eqb] in Ef. injection Ef as <-. split; [reflexivity|]. cbn [pe_span pe_reason].
      rewrite app_assoc in *.
      destruct (lexed_split _ _ _ _ _ _ L) as (p1 & w1 & r1 & Ep & Esp & L1 & Sp1 & M1 & L2).
      rewrite run_app in R. destruct (run init (p ++ its)) as [z1|] eqn:R1; [|discriminate].
      assert (w1 = callee_name (fr_callee fr)) as ->.
      { destruct (fr_callee fr); cbn [callee_token] in Sp1; inversion Sp1; reflexivity. }
      rewrite Esp. cbn [plus]. replace (length (callee_name (fr_callee fr))) with 3 by now destruct (fr_callee fr).
      destruct Fi as (Lx & Bg & No). rewrite !map_app in Lx, Bg, No. cbn [map fst] in Lx, Bg, No.
      apply (ex_name original p1 (fr_callee fr) r1 (map fst p ++ map fst its)); auto.
      * split; [|split].
        -- rewrite <- map_app. now apply (lexed_lexes 0).
        -- now apply begins_app in Bg.
        -- intros a args b c E. apply (No a args b (c ++ [callee_token (fr_callee fr)])). rewrite E.
           rewrite <- !app_assoc. cbn [app]. now rewrite <- !app_assoc.
      * inversion L2; auto.
    + destruct (zt_elim _ _ _ _ Nm Zt) as (p & its & O & T & E).
      destruct O as (p' & its' & so & O & S' & Eop & ->). subst sts.
      destruct (Forall_app (in_place original) (p' ++ its' ++ [(callee_token (fr_callee fr), fr_span fr); (TOpen, so)]) its)
        as [FF _]. destruct (FF F) as [_ F2]. clear FF.
      destruct (tail_items original _ _ _ Nm Ne T F2) as (args & Sm & S & _).
      replace ((p' ++ its' ++ [(callee_token (fr_callee fr), fr_span fr); (TOpen, so)]) ++ its)
        with ((p' ++ its' ++ [(callee_token (fr_callee fr), fr_span fr)]) ++ (TOpen, so) :: its) in *
        by now rewrite <- !app_assoc.
      destruct (lexed_split _ _ _ _ _ _ L) as (p1 & w1 & r1 & Ep & Esp & L1 & Sp1 & M1 & L2).
      inversion Sp1; subst w1. rewrite Eop, Esp in Ef. cbn [fst plus] in Ef.
      assert (p1 <> []).
      { intros ->. apply lexed_nil in L1. apply app_eq_nil in L1 as [_ L1]. now apply app_eq_nil in L1. }
      destruct p1 as [|c p1]; [easy|]. cbn [length Nat.eqb] in Ef. injection Ef as <-.
      split; [reflexivity|]. cbn [pe_span pe_reason].
      apply (ex_unclosed original (c :: p1) r1
        (map fst (p' ++ its' ++ [(callee_token (fr_callee fr), fr_span fr)])) (map fst its) args); auto.
      * now apply (lexed_lexes 0).
      * now apply lexed_lexes in L2.
      * now rewrite map_app in Fi.
Qed.

Lemma parse_explained pr text s e :
  utf8_valid text = true -> unwrapped text s -> parse_expr pr text = Err e ->
  pe_original e = s /\ explains s (pe_span e) (pe_reason e).
Proof.
  intros V U E. destruct (lexer_text_spec text V) as (s' & El & U' & Vs).
  rewrite (unwrapped_unique text s s' U U') in *. clear s U U'.
  unfold parse_expr in E. rewrite El in E. cbn [bind] in E.
  assert (Re : reached s' 0 s' [] init).
  { exists []. repeat split; auto; [constructor; constructor|]. intros [|] ? E'; discriminate. }
  assert (T := ploop_trace pr s' (S (length s')) s' 0 [] init ltac:(lia) Vs init_ok Re).
  rewrite conc_init in T.
  destruct (ploop (S (length s')) pr s' s' 0 ps_init) as [st|e'|p]; cbn [bind] in E.
  - destruct T as (sts & z & L & R & -> & Z). now apply (finish_explained s' sts z).
  - injection E as ->. destruct T as (inner & off & sts & z & Re' & Vi & Z & [Hl|(b & t & w & rest & -> & Hb & Sp & M & Hs)]).
    + now apply (lex_explained s' off inner sts z).
    + now apply (step_explained pr s' off b w rest sts z t).
  - discriminate E.
Qed.
