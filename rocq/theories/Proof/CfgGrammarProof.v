(** The trees built by the parser are those of the grammar. *)
From Verif.Model Require Import Base Str Error CfgExpr.
From Verif.Spec Require Import StrSpec CfgSpec.
From Verif.Proof Require Import StrFacts Utf8Proof CfgLexProof CfgParseProof.

(** ** From runs to derivations *)

Fixpoint opened (frs : list frame) (root : list ptree) (pre : list stok) : Prop :=
  match frs with
  | [] => pre = []
  | fr :: rest =>
      exists pre' its so,
        opened rest root pre' /\ sitems (top_items (rest, root)) false its /\
        fr_open fr = fst so /\
        pre = pre' ++ its ++ [(callee_token (fr_callee fr), fr_span fr); (TOpen, so)]
  end.

Definition tail (l : list ptree) (m : mode) (its : list stok) : Prop :=
  match m with
  | MStart => l = [] /\ its = []
  | MComma => l <> [] /\ sitems l false its
  | MItem => sitems l true its
  | MKey k s => exists its0, sitems l false its0 /\ its = its0 ++ [(TKey k, s)]
  | MEq s => exists its0 k e, sitems l false its0 /\ its = its0 ++ [(TKey k, s); (TEquals, e)]
  | MVal v s sv =>
      exists its0 k e x, sitems l false its0 /\ sv = (fst x + 1, snd x - 1) /\
        its = its0 ++ [(TKey k, s); (TEquals, e); (TValue v, x)]
  | MFn => False
  end.

Definition zt (z : zip) (ts : list stok) : Prop :=
  let '((frs, root), m) := z in
  match m with
  | MFn =>
      exists fr rest pre its,
        frs = fr :: rest /\ fr_items fr = [] /\ fr_open fr = 0 /\ opened rest root pre /\
        sitems (top_items (rest, root)) false its /\
        ts = pre ++ its ++ [(callee_token (fr_callee fr), fr_span fr)]
  | _ => exists pre its, opened frs root pre /\ tail (top_items (frs, root)) m its /\ ts = pre ++ its
  end.

Lemma zt_intro frs root m ts pre its :
  m <> MFn -> opened frs root pre -> tail (top_items (frs, root)) m its -> ts = pre ++ its ->
  zt (frs, root, m) ts.
Proof. intros N O T E. destruct m; try easy; exists pre, its; auto. Qed.
Lemma zt_elim frs root m ts :
  m <> MFn -> zt (frs, root, m) ts ->
  exists pre its, opened frs root pre /\ tail (top_items (frs, root)) m its /\ ts = pre ++ its.
Proof. intros N Z. destruct m; try easy. Qed.

Lemma opened_add ls l pre :
  opened (fst (add ls l)) (snd (add ls l)) pre <-> opened (fst ls) (snd ls) pre.
Proof. destruct ls as [[|fr rest] root]; reflexivity. Qed.
Lemma top_add ls l : top_items (add ls l) = top_items ls ++ l.
Proof. destruct ls as [[|fr rest] root]; reflexivity. Qed.

Lemma sitems_true_not_nil l its : sitems l true its -> l <> [].
Proof. inversion 1. intros E. now apply app_eq_nil in E. Qed.

Lemma tail_ready l m its : m = MStart \/ m = MComma -> tail l m its -> sitems l false its.
Proof. intros [->| ->]; cbn; [intros [-> ->]; constructor|easy]. Qed.

Lemma tail_content l m its :
  m <> MFn -> (forall s, m <> MEq s) -> tail l m its ->
  exists b, sitems (l ++ pending m) b its /\ (m <> MStart -> l ++ pending m <> []).
Proof.
  intros N1 N2 T. destruct m; cbn [tail pending] in *; rewrite ?app_nil_r in *; try easy.
  - destruct T as [-> ->]. exists false. split; [constructor|easy].
  - exists false. easy.
  - exists true. split; [assumption|]. intros _. now apply sitems_true_not_nil in T.
  - destruct T as (its0 & S & ->). exists true. split; [apply sitems_item; [assumption|constructor]|].
    intros _ E. now apply app_eq_nil in E.
  - now destruct (N2 s).
  - destruct T as (its0 & k & e & x & S & -> & ->). exists true.
    split; [apply sitems_item; [assumption|constructor]|]. intros _ E. now apply app_eq_nil in E.
Qed.

Lemma astep_zt z x z' ts : zt z ts -> astep z x = Some z' -> zt z' (ts ++ [x]).
Proof.
  destruct z as [[frs root] m], x as [t s]. intros Z A.
  assert (Fn : t = TAll \/ t = TAny \/ t = TNot -> zt z' (ts ++ [(t, s)])).
  { intros Ht.
    assert (E : astep (frs, root, m) (t, s) =
      match m with MStart | MComma => Some ((mkFrame (callee_of t) s 0 [] :: frs, root), MFn) | _ => None end)
    by (destruct Ht as [->|[->| ->]]; reflexivity).
    assert (Ct : callee_token (callee_of t) = t) by (destruct Ht as [->|[->| ->]]; reflexivity).
    rewrite E in A. clear E.
    assert (M : m = MStart \/ m = MComma) by (destruct m; auto; discriminate).
    assert (z' = ((mkFrame (callee_of t) s 0 [] :: frs, root), MFn)) as ->.
    { destruct M as [-> | ->]; now injection A as <-. }
    assert (Nm : m <> MFn) by (destruct M as [-> | ->]; easy).
    destruct (zt_elim _ _ _ _ Nm Z) as (pre & its & O & T & ->).
    cbn [zt]. eexists _, _, pre, its. split; [reflexivity|]. split; [reflexivity|]. split; [reflexivity|].
    split; [exact O|]. split; [exact (tail_ready _ _ _ M T)|].
    cbn [fr_callee fr_span]. now rewrite Ct, app_assoc. }
  destruct t; try (apply Fn; auto; fail); clear Fn; cbn [astep] in A.
  - assert (M : m = MStart \/ m = MComma) by (destruct m; auto; discriminate).
    assert (z' = (frs, root, MKey s0 s)) as -> by (destruct M as [-> | ->]; now injection A as <-).
    assert (Nm : m <> MFn) by (destruct M as [-> | ->]; easy).
    destruct (zt_elim _ _ _ _ Nm Z) as (pre & its & O & T & ->).
    eapply zt_intro; [easy|exact O| |symmetry; apply app_assoc].
    exists its. split; [exact (tail_ready _ _ _ M T)|reflexivity].
  - destruct m; try discriminate A. injection A as <-.
    destruct Z as (pre & its & O & (its0 & k & e & S & ->) & ->).
    eapply zt_intro; [easy|exact O| |symmetry; apply app_assoc].
    exists its0, k, e, s. repeat split; auto. now rewrite <- app_assoc.
  - destruct m; try discriminate A. injection A as <-.
    destruct Z as (pre & its & O & (its0 & S & ->) & ->).
    eapply zt_intro; [easy|exact O| |symmetry; apply app_assoc].
    exists its0, k, s. split; auto. now rewrite <- app_assoc.
  - destruct m; try discriminate A. destruct frs as [|fr rest]; [discriminate A|]. injection A as <-.
    destruct Z as (fr' & rest' & pre & its & [= <- <-] & It & Op & O & S & ->).
    apply zt_intro with (pre := (pre ++ its ++ [(callee_token (fr_callee fr), fr_span fr)]) ++ [(TOpen, s)]) (its := []); [easy| | |].
    + cbn [opened]. exists pre, its, s. split; [exact O|]. split; [exact S|]. split; [reflexivity|].
      cbn [fr_callee fr_span]. now rewrite <- !app_assoc.
    + now split.
    + now rewrite app_nil_r.
  - assert (Nm : m <> MFn) by (intros ->; discriminate).
    assert (Ne : forall s, m <> MEq s) by (intros ? ->; discriminate).
    destruct (zt_elim _ _ _ _ Nm Z) as (pre & its & O & T & ->).
    destruct (tail_content _ _ _ Nm Ne T) as (b & S & _).
    unfold content in A. cbn [fst snd] in A.
    destruct frs as [|fr rest].
    { cbn [add fst] in A. destruct m; discriminate A. }
    cbn [add fst fr_callee fr_items] in A. cbn [top_items fst] in S.
    destruct O as (pre' & its' & so & O & S' & Op & ->).
    assert (Hn : (match fr_callee fr with
                  | CNot => negb (pcount8 (fr_items fr ++ pending m) =? 1)
                  | _ => false end) = false /\
        z' = (add (rest, root) [PCall (fr_callee fr) (fr_items fr ++ pending m)], MItem)).
    { destruct m; try discriminate A;
      match type of A with (if ?c then _ else _) = _ => destruct c eqn:Ec end; try discriminate A;
      (split; [first [exact Ec|reflexivity]|now injection A as <-]). }
    destruct Hn as [Hn ->].
    destruct (add (rest, root) [PCall (fr_callee fr) (fr_items fr ++ pending m)]) as [frs2 root2] eqn:Ad.
    apply zt_intro with (pre := pre')
      (its := its' ++ (callee_token (fr_callee fr), fr_span fr) :: (TOpen, so) :: its ++ [(TClose, s)]).
    + easy.
    + change (opened (fst (frs2, root2)) (snd (frs2, root2)) pre'). rewrite <- Ad.
      now apply opened_add.
    + rewrite <- Ad, top_add. apply sitems_item; [exact S'|].
      apply (sitem_call _ _ _ _ _ b); [exact S|].
      intros Ec. rewrite Ec in Hn. now apply negb_false_iff, Nat.eqb_eq in Hn.
    + rewrite <- !app_assoc. cbn [app]. rewrite <- ?app_assoc; reflexivity.
  - assert (Nm : m <> MFn) by (intros ->; discriminate).
    assert (Ns : m <> MStart) by (intros ->; discriminate).
    assert (Ne : forall s, m <> MEq s) by (intros ? ->; discriminate).
    destruct (zt_elim _ _ _ _ Nm Z) as (pre & its & O & T & ->).
    destruct (tail_content _ _ _ Nm Ne T) as (b & S & N).
    assert (z' = (content (frs, root, m), MComma)) as -> by (destruct m; try easy; now injection A as <-).
    unfold content. cbn [fst snd].
    destruct (add (frs, root) (pending m)) as [frs2 root2] eqn:Ad.
    apply zt_intro with (pre := pre) (its := its ++ [(TComma, s)]).
    + easy.
    + change (opened (fst (frs2, root2)) (snd (frs2, root2)) pre). rewrite <- Ad.
      now apply opened_add.
    + rewrite <- Ad, top_add. split; [now apply N|]. apply (sitems_comma _ b); auto.
    + now rewrite <- app_assoc.
Qed.

Lemma run_zt z ts' z' ts : zt z ts -> run z ts' = Some z' -> zt z' (ts ++ ts').
Proof.
  revert z ts. induction ts' as [|x ts' IH]; intros z ts Z R; cbn [run] in R.
  - injection R as <-. now rewrite app_nil_r.
  - destruct (astep z x) as [z1|] eqn:A; [|discriminate].
    replace (ts ++ x :: ts') with ((ts ++ [x]) ++ ts') by now rewrite <- app_assoc.
    apply (IH z1); [|exact R]. now apply (astep_zt z).
Qed.

(** A text is complete when no call is open and no value is missing. *)
Definition final (z : zip) (l : list ptree) : Prop :=
  fst (fst z) = [] /\ (forall s, snd z <> MEq s) /\ snd z <> MFn /\ l = snd (content z).

Lemma run_sitems ts z l : run init ts = Some z -> final z l -> exists b, sitems l b ts.
Proof.
  intros R F. assert (Z0 : zt init []).
  { apply zt_intro with (pre := []) (its := []); try easy. }
  apply (run_zt init ts z []) in R; [|exact Z0]. cbn [app] in R.
  destruct z as [[frs root] m]. destruct F as (E1 & E2 & E3 & ->). cbn [fst snd] in *. subst frs.
  destruct (zt_elim _ _ _ _ E3 R) as (pre & its & -> & T & ->). cbn [app].
  destruct (tail_content _ _ _ E3 E2 T) as (b & S & _). exists b. exact S.
Qed.

(** ** From derivations to runs *)

Definition ready (z : zip) : Prop := snd z = MStart \/ snd z = MComma.
Definition after (z : zip) : Prop :=
  match snd z with MItem | MKey _ _ | MVal _ _ _ => True | _ => False end.

Lemma add_nil x : add x [] = x.
Proof. destruct x as [[|[c sp o it] r] rt]; cbn; now rewrite app_nil_r. Qed.
Lemma add_add x a b : add (add x a) b = add x (a ++ b).
Proof. destruct x as [[|[c sp o it] r] rt]; cbn; now rewrite app_assoc. Qed.

Lemma ready_content z : ready z -> content z = fst z.
Proof. destruct z as [ls m]. intros [E|E]; cbn in E; subst m; apply add_nil. Qed.

Lemma callee_token_of f : callee_of (callee_token f) = f.
Proof. now destruct f. Qed.
Lemma astep_callee ls m f s :
  m = MStart \/ m = MComma ->
  astep (ls, m) (callee_token f, s) = Some ((mkFrame f s 0 [] :: fst ls, snd ls), MFn).
Proof. intros [->| ->]; now destruct f. Qed.

Lemma derivation_runs :
  (forall x its, sitem x its -> forall z, ready z ->
     exists z', run z its = Some z' /\ after z' /\ content z' = add (fst z) [x]) /\
  (forall l b its, sitems l b its -> forall z, snd z = MStart ->
     exists z', run z its = Some z' /\ (if b then after z' else ready z') /\
       (l <> [] -> b = false -> snd z' = MComma) /\
       content z' = add (fst z) l).
Proof.
  apply sitem_sitems_ind.
  - intros k s [ls m] [E|E]; cbn in E; subst m; (eexists; split; [reflexivity|]); now split.
  - intros k s e v sv [ls m] [E|E]; cbn in E; subst m; (eexists; split; [reflexivity|]); now split.
  - intros f sf so sc args b ts S IH Hn [[frs root] m] Rd.
    cbn [run]. rewrite astep_callee by exact Rd. cbn [astep fst snd]. cbn [fr_callee fr_span fr_items].
    rewrite run_app.
    destruct (IH ((mkFrame f sf (fst so) [] :: frs, root), MStart) eq_refl) as (z1 & R & A & _ & C).
    rewrite R. cbn [fst add app fr_callee fr_span fr_open fr_items snd] in C.
    exists (add (frs, root) [PCall f args], MItem). split; [|split; [exact I|]].
    + cbn [run]. destruct z1 as [ls1 m1].
      assert (A1 : astep (ls1, m1) (TClose, sc) = Some (add (frs, root) [PCall f args], MItem)).
      { cbn [astep]. rewrite C. cbn [fst fr_callee fr_items].
        assert (snd ls1 = root) as ->.
        { assert (snd (content (ls1, m1)) = root) by now rewrite C.
          unfold content in H. destruct ls1 as [[|fr1 r1] rt1].
          - apply (f_equal fst) in C. discriminate C.
          - exact H. }
        assert (Bad : (match f with CNot => negb (pcount8 args =? 1) | _ => false end) = false).
        { destruct f; try reflexivity. now rewrite Hn. }
        rewrite Bad. destruct b; [|destruct A as [A|A]; cbn in A; subst m1; reflexivity].
        destruct m1; try destruct A; reflexivity. }
      now rewrite A1.
    + cbn [content]. apply add_nil.
  - intros [ls m] E. cbn in E. subst m. eexists. split; [reflexivity|].
    split; [now left|]. split; [easy|]. reflexivity.
  - intros l ts x its S IHs I' IHi z E.
    destruct (IHs z E) as (z1 & R1 & Rd & _ & C1).
    destruct (IHi z1 Rd) as (z2 & R2 & A & C2).
    exists z2. rewrite run_app, R1, R2. split; [reflexivity|]. split; [exact A|]. split; [easy|].
    rewrite C2, <- (ready_content z1 Rd), C1. apply add_add.
  - intros l b ts s N S IH z E. destruct (IH z E) as (z1 & R & A & M & C).
    exists (content z1, MComma). rewrite run_app, R. cbn [run].
    assert (A1 : astep z1 (TComma, s) = Some (content z1, MComma)).
    { destruct z1 as [ls1 m1]. destruct b.
      - destruct m1; try destruct A; reflexivity.
      - specialize (M N eq_refl). cbn in M. subst m1. reflexivity. }
    rewrite A1. split; [reflexivity|]. split; [now right|]. split; [reflexivity|].
    unfold content at 1. cbn [fst snd pending]. now rewrite add_nil.
Qed.

Lemma sitems_run l b ts : sitems l b ts -> exists z, run init ts = Some z /\ final z l.
Proof.
  intros S. destruct (proj2 derivation_runs l b ts S init eq_refl) as (z & R & A & _ & C).
  exists z. split; [exact R|]. destruct z as [[frs root] m]. cbn [fst init add app] in C.
  split; [|split; [|split]]; cbn [fst snd].
  - unfold content in C. cbn [fst] in C. destruct frs; [reflexivity|]. discriminate C.
  - intros s ->. now destruct b; [|destruct A].
  - intros ->. now destruct b; [|destruct A].
  - now rewrite C.
Qed.

(** ** The end of the text *)

Lemma pfinish_spec original z n :
  zok n z -> n <= length original ->
  match pfinish original (conc z) with
  | Ok e => exists l, final z l /\ l <> [] /\ length (pleaves l) <= 1 /\
              e = mkExpression (flat_map compile l) original
  | Err e => err_ok original e /\
      ~ (exists l, final z l /\ l <> [] /\ length (pleaves l) <= 1)
  | Panic _ => False
  end.
Proof.
  destruct z as [[frs root] m]. intros (F & Hm & Hs) Hn. cbn [fst snd] in *. unfold pfinish.
  assert (Fin : forall l, final (frs, root, m) l <->
    frs = [] /\ (forall s, m <> MEq s) /\ m <> MFn /\ l = snd (content (frs, root, m))).
  { reflexivity. }
  assert (MEqCase : (exists s, m = MEq s) \/ (forall s, m <> MEq s)).
  { destruct m; try (right; easy). left. eauto. }
  destruct MEqCase as [[s ->]|Ne].
  { cbn. split; [split; [reflexivity|cbn; lia]|]. intros (l & Fl & _). apply Fin in Fl. now apply (proj1 (proj2 Fl) s). }
  assert (Last : match ps_last (conc (frs, root, m)) with Some TEquals => False | _ => True end).
  { destruct m; cbn; auto; [destruct frs; exact I|now apply (Ne s)|].
    destruct frs as [|fr rest]; [exact I|]. now destruct (fr_callee fr). }
  assert (Skip : forall A (a b : A),
     match ps_last (conc (frs, root, m)) with Some TEquals => a | _ => b end = b).
  { intros A a b. destruct (ps_last (conc (frs, root, m))) as [[]|]; try reflexivity. destruct Last. }
  rewrite Skip. clear Skip Last.
  destruct frs as [|fr rest].
  - cbn [conc ps_stack fst conc_stack].
    assert (Nf : m <> MFn) by (intros E; destruct (Hm E) as (? & ? & ? & _); discriminate).
    cbn [ps_queue ps_roots ps_key ps_val snd conc].
    rewrite <- (pending_preds m Nf Ne). rewrite <- pending_queue.
    cbn [fst snd]. rewrite conc_root_queue.
    set (l := root ++ pending m).
    assert (Cl : snd (content ([], root, m)) = l) by reflexivity.
    assert (Q : conc_queue (add ([], root) (pending m)) = flat_map compile l).
    { unfold conc_queue. cbn. now rewrite app_nil_r. }
    rewrite Q. clear Q.
    assert (Ln : length (pleaves root) + length (pleaves (pending m)) = length (pleaves l)).
    { unfold l. now rewrite pleaves_app, app_length. }
    rewrite Ln.
    assert (Nl : flat_map compile l = [] <-> l = []).
    { destruct l as [|x l']; [easy|]. cbn [flat_map]. split; [|easy].
      intros E. apply app_eq_nil in E as [E _]. now apply compile_not_nil in E. }
    destruct (flat_map compile l) as [|y q] eqn:Eq.
    + split; [split; [reflexivity|cbn; lia]|]. intros (l2 & Fl & N & _).
      apply Fin in Fl as (_ & _ & _ & ->). rewrite Cl in N. now apply N, Nl.
    + destruct (Nat.ltb_spec 1 (length (pleaves l))).
      * split; [split; [reflexivity|cbn; lia]|]. intros (l2 & Fl & _ & Le).
        apply Fin in Fl as (_ & _ & _ & ->). rewrite Cl in Le. lia.
      * exists l. split; [apply Fin; auto|]. split; [|split; [lia|now rewrite Eq]].
        intros E. now apply Nl in E.
  - cbn [conc ps_stack fst conc_stack].
    assert (Nof : ~ (exists l, final (fr :: rest, root, m) l /\ l <> [] /\ length (pleaves l) <= 1)).
    { intros (l & (E & _) & _). discriminate E. }
    inversion F as [|? ? Fr Frest]; subst. unfold frame_ok in Fr.
    cbn [conc_frame fs_parens_index fs_span].
    destruct (fr_open fr =? 0); (split; [|exact Nof]); (split; [reflexivity|cbn; lia]).
Qed.

(** ** The whole loop *)

Lemma zok_le n m z : n <= m -> zok n z -> zok m z.
Proof.
  intros L (F & H). split; [|exact H]. eapply Forall_impl; [|exact F]. intros fr. now apply frame_ok_le.
Qed.


(** The calls begun so far and still open weigh at most [n]. *)
Definition weight (z : zip) : nat :=
  list_sum (map (fun fr => S (ncalls (fr_items fr)))
    (match snd z with MFn => tl (fst (fst z)) | _ => fst (fst z) end)).

Definition is_open (t : token) : nat := match t with TOpen => 1 | _ => 0 end.

Lemma weight_add ls m l : m <> MFn ->
  weight (add ls l, m) = weight (ls, m) + match fst ls with [] => 0 | _ => ncalls l end.
Proof.
  intros N. destruct ls as [[|fr rest] root].
  - destruct m; try easy; reflexivity.
  - destruct m; try easy; cbn [weight add fst snd map list_sum fold_right fr_items];
      unfold weight; cbn [fst snd map list_sum fold_right fr_items];
      rewrite ncalls_app; lia.
Qed.

Lemma weight_mode ls m m' : m <> MFn -> m' <> MFn -> weight (ls, m) = weight (ls, m').
Proof. intros N N'. destruct m, m'; try easy; reflexivity. Qed.

Lemma weight_cons fr rest root m : m <> MFn ->
  weight (fr :: rest, root, m) = S (ncalls (fr_items fr)) + weight (rest, root, m).
Proof. intros N. destruct m; try easy; reflexivity. Qed.

Lemma astep_weight n z x z' :
  zok n z -> astep z x = Some z' -> weight z' <= weight z + is_open (fst x).
Proof.
  destruct z as [[frs root] m], x as [t s]. intros (_ & Hm & _) A. cbn [fst snd] in *.
  assert (Fn : t = TAll \/ t = TAny \/ t = TNot -> weight z' <= weight (frs, root, m) + is_open t).
  { intros Ht. assert (E : astep (frs, root, m) (t, s) =
      match m with MStart | MComma => Some ((mkFrame (callee_of t) s 0 [] :: frs, root), MFn) | _ => None end)
    by (destruct Ht as [->|[->| ->]]; reflexivity).
    rewrite E in A. destruct m; try discriminate A; injection A as <-; unfold weight; cbn [fst snd tl]; lia. }
  destruct t; try (apply Fn; auto; fail); clear Fn; cbn [astep is_open] in *.
  - destruct m; try discriminate A; injection A as <-; unfold weight; cbn [fst snd]; lia.
  - destruct m; try discriminate A; injection A as <-; unfold weight; cbn [fst snd]; lia.
  - destruct m; try discriminate A; injection A as <-; unfold weight; cbn [fst snd]; lia.
  - destruct m; try discriminate A. destruct frs as [|fr rest]; [discriminate A|]. injection A as <-.
    destruct (Hm eq_refl) as (fr' & rest' & [= <- <-] & It).
    unfold weight. cbn [fst snd map list_sum fold_right fr_items tl]. rewrite It. cbn [ncalls]. lia.
  - assert (Nm : m <> MFn) by (intros ->; discriminate).
    unfold content in A. cbn [fst snd] in A.
    destruct frs as [|fr rest].
    { cbn [add fst] in A. destruct m; discriminate A. }
    cbn [add fst fr_callee fr_items] in A.
    assert (z' = (add (rest, root) [PCall (fr_callee fr) (fr_items fr ++ pending m)], MItem)) as ->.
    { destruct m; try discriminate A;
      match type of A with (if ?c then _ else _) = _ => destruct c end; try discriminate A;
      now injection A as <-. }
    rewrite weight_add by easy. rewrite weight_cons by assumption.
    rewrite (weight_mode _ m MItem) by easy. cbn [fst ncalls]. destruct rest; lia.
  - assert (Nm : m <> MFn) by (intros ->; discriminate).
    assert (z' = (content (frs, root, m), MComma)) as -> by (destruct m; try easy; now injection A as <-).
    unfold content. cbn [fst snd]. rewrite weight_add by easy.
    rewrite (weight_mode _ MComma m) by easy. rewrite pending_calls. destruct frs; cbn [fst]; lia.
Qed.

Lemma spelled_opens t w : spelled t w -> is_open t <= opens w.
Proof. intros []; cbn; lia. Qed.

Lemma opens_app a b : opens (a ++ b) = opens a + opens b.
Proof. apply count_occ_app. Qed.

Definition loop_spec (pr : profile) (original inner : str) (off : nat) (z : zip)
  (r : res parse_error pstate) : Prop :=
  match r with
  | Ok s => exists sts z', lexed off inner sts /\ run z sts = Some z' /\ s = conc z' /\
              zok (length original) z'
  | Err e => err_ok original e /\ ~ (exists sts z', lexed off inner sts /\ run z sts = Some z')
  | Panic p =>
      p = POverflow /\ overflow_checks pr = true /\ 256 <= weight z + opens inner
  end.

Lemma ploop_spec pr original : forall fuel inner off z,
  length inner < fuel -> utf8_valid inner = true -> off + length inner = length original ->
  zok off z -> loop_spec pr original inner off z (ploop fuel pr original inner off (conc z)).
Proof.
  induction fuel as [|fuel IH]; intros inner off z Lf V El Z; [lia|]. cbn [ploop].
  destruct (lex_next_stuck original inner off V)
    as [Hb|[(b & t & w & rest & E & Hb & Sp & M)|(b & e & Hb & Lb & R & St)]].
  - rewrite lex_next_blank by assumption. cbn [bind loop_spec].
    exists [], z. split; [now constructor|]. split; [reflexivity|]. split; [reflexivity|].
    apply (zok_le off); [lia|assumption].
  - subst inner. rewrite (lex_next_token original b t w rest off) by assumption. cbn [bind].
    set (s := (off + length b, off + length b + length w)).
    assert (Uniq : forall sts, lexed off (b ++ w ++ rest) sts ->
              exists sts', sts = (t, s) :: sts' /\ lexed (off + length b + length w) rest sts').
    { intros sts L. assert (Q := lex_next_token original b t w rest off Hb Sp M V).
      remember (b ++ w ++ rest) as inner eqn:Ei. destruct L as [o s' Hb'|o b' w' rest' t' ts Hb' Sp' M' L].
      - rewrite lex_next_blank in Q by assumption. discriminate.
      - rewrite (lex_next_token original b' t' w' rest' o) in Q by assumption.
        injection Q as <- E1 E2 -> E3. exists ts. split; [|now rewrite <- E2].
        unfold s. now rewrite E2, E1. }
    assert (Lw : 1 <= length w).
    { destruct (spelled_head t w Sp) as (c & r & -> & _). cbn. lia. }
    rewrite !app_length in *.
    assert (Ps := pstep_spec pr original z (t, s) off Z). cbn [fst snd s] in Ps.
    specialize (Ps ltac:(lia) ltac:(lia)). unfold step_spec in Ps. cbn [fst snd] in Ps. fold s in Ps.
    destruct (pstep pr original (conc z) t s) as [s'|e|p] eqn:Es; cbn [bind].
    + destruct Ps as (z1 & A & -> & Z1).
      assert (V' : utf8_valid rest = true).
      { rewrite valid_blank in V by assumption. exact (spelled_valid t w rest Sp V). }
      assert (I := IH rest (off + length b + length w) z1 ltac:(lia) V' ltac:(lia) Z1).
      destruct (ploop fuel pr original rest (off + length b + length w) (conc z1)) as [s2|e|p];
        cbn [loop_spec] in *.
      * destruct I as (sts & z2 & L & R & -> & Z2). exists ((t, s) :: sts), z2.
        split; [now constructor|]. cbn [run]. rewrite A. auto.
      * destruct I as [Ok' No]. split; [exact Ok'|]. intros (sts & z2 & L & R).
        destruct (Uniq sts L) as (sts' & -> & L'). cbn [run] in R. rewrite A in R.
        apply No. eauto.
      * destruct I as (-> & O & W). repeat split; auto. rewrite !opens_app.
        assert (Aw := astep_weight off z (t, s) z1 Z A). cbn [fst] in Aw.
        assert (So := spelled_opens t w Sp). lia.
    + destruct Ps as [A Ok']. cbn [loop_spec]. split; [exact Ok'|].
      intros (sts & z2 & L & R). destruct (Uniq sts L) as (sts' & -> & L'). cbn [run] in R.
      rewrite A in R. discriminate.
    + destruct Ps as (-> & O & fr & frs & E & Nc). cbn [loop_spec]. repeat split; auto.
      assert (255 <= ncalls (fr_items fr)).
      { rewrite <- Nc. apply Nat.mod_le. lia. }
      destruct z as [[frs0 root] m]. cbn [fst] in E. subst frs0.
      assert (Nm : m <> MFn).
      { intros ->. destruct Z as (_ & Hm & _). destruct (Hm eq_refl) as (fr' & r' & [= <- <-] & It).
        rewrite It in H. cbn in H. lia. }
      rewrite weight_cons by assumption. lia.
  - rewrite R. cbn [bind loop_spec]. split.
    + destruct St as [Eo [Sq|Sq]]; split; try exact Eo; rewrite Sq; cbn [fst snd]; lia.
    + intros (sts & z2 & L & _). destruct L as [o s' Hb'|o b' w' rest' t' ts Hb' Sp' M' L].
      * rewrite lex_next_blank in R by assumption. discriminate.
      * rewrite (lex_next_token original b' t' w' rest' o) in R by assumption. discriminate.
Qed.
