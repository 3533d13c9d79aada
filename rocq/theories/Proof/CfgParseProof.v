(** The parser of [cfg(...)] expressions, as a machine that builds trees. *)
From Verif.Model Require Import Base Str Error CfgExpr.
From Verif.Spec Require Import StrSpec CfgSpec.
From Verif.Proof Require Import StrFacts Utf8Proof CfgLexProof.

(** ** Trees over places in the text, and their postfix form *)

Inductive ptree :=
| PLeaf (p : inner_pred)
| PCall (f : callee) (args : list ptree).

Definition pleaf (x : ptree) : list inner_pred :=
  match x with PLeaf p => [p] | PCall _ _ => [] end.
Definition pleaves (l : list ptree) : list inner_pred := flat_map pleaf l.
Fixpoint ncalls (l : list ptree) : nat :=
  match l with
  | [] => 0
  | PLeaf _ :: l' => ncalls l'
  | PCall _ _ :: l' => S (ncalls l')
  end.
Definition pcount8 (l : list ptree) : nat := length (pleaves l) + ncalls l mod 256.

Definition func_of (f : callee) (n : nat) : func :=
  match f with CAll => FAll n | CAny => FAny n | CNot => FNot end.

Fixpoint compile (x : ptree) : list expr_node :=
  match x with
  | PLeaf p => [NPred p]
  | PCall f args =>
      flat_map (fun y => match y with PLeaf _ => [] | PCall _ _ => compile y end) args
      ++ map NPred (pleaves args) ++ [NFn (func_of f (pcount8 args))]
  end.
Definition compile_call (y : ptree) : list expr_node :=
  match y with PLeaf _ => [] | PCall _ _ => compile y end.

Lemma compile_call_eq f args :
  compile (PCall f args) =
  flat_map compile_call args ++ map NPred (pleaves args) ++ [NFn (func_of f (pcount8 args))].
Proof. reflexivity. Qed.

Lemma compile_not_nil x : compile x <> [].
Proof. destruct x; [easy|]. rewrite compile_call_eq, app_assoc. intros H. now apply app_eq_nil in H. Qed.

Lemma pleaves_app a b : pleaves (a ++ b) = pleaves a ++ pleaves b.
Proof. apply flat_map_app. Qed.
Lemma ncalls_app a b : ncalls (a ++ b) = ncalls a + ncalls b.
Proof. induction a as [|[|] a IH]; cbn [app ncalls]; lia. Qed.

(** ** Token lists over places *)

Notation stok := (token * span)%type.

Inductive sitem : ptree -> list stok -> Prop :=
| sitem_flag k s : sitem (PLeaf (mkPred s None)) [(TKey k, s)]
| sitem_pair k s e v sv :
    sitem (PLeaf (mkPred s (Some (fst sv + 1, snd sv - 1))))
      [(TKey k, s); (TEquals, e); (TValue v, sv)]
| sitem_call f sf so sc args b ts :
    sitems args b ts -> (f = CNot -> pcount8 args = 1) ->
    sitem (PCall f args) ((callee_token f, sf) :: (TOpen, so) :: ts ++ [(TClose, sc)])
with sitems : list ptree -> bool -> list stok -> Prop :=
| sitems_nil : sitems [] false []
| sitems_item l ts x its : sitems l false ts -> sitem x its -> sitems (l ++ [x]) true (ts ++ its)
| sitems_comma l b ts s : l <> [] -> sitems l b ts -> sitems l false (ts ++ [(TComma, s)]).

Scheme sitem_mut := Induction for sitem Sort Prop
with sitems_mut := Induction for sitems Sort Prop.
Combined Scheme sitem_sitems_ind from sitem_mut, sitems_mut.

(** ** The machine *)

Record frame := mkFrame {
  fr_callee : callee;
  fr_span : span;
  fr_open : nat;
  fr_items : list ptree
}.

(** The open calls, innermost first, and the finished items outside any call. *)
Notation lists := (list frame * list ptree)%type.

Definition top_items (x : lists) : list ptree :=
  match fst x with fr :: _ => fr_items fr | [] => snd x end.
Definition add (x : lists) (l : list ptree) : lists :=
  match fst x with
  | fr :: rest =>
      (mkFrame (fr_callee fr) (fr_span fr) (fr_open fr) (fr_items fr ++ l) :: rest, snd x)
  | [] => ([], snd x ++ l)
  end.

Inductive mode :=
| MStart
| MComma
| MItem
| MKey (k : str) (s : span)
| MEq (s : span)
| MVal (v : str) (s : span) (sv : span)
| MFn.

Definition pending (m : mode) : list ptree :=
  match m with
  | MKey _ s => [PLeaf (mkPred s None)]
  | MVal _ s sv => [PLeaf (mkPred s (Some sv))]
  | _ => []
  end.

Notation zip := (lists * mode)%type.
Definition content (z : zip) : lists := add (fst z) (pending (snd z)).

Definition callee_of (t : token) : callee :=
  match t with TAll => CAll | TAny => CAny | _ => CNot end.

Definition astep (z : zip) (x : stok) : option zip :=
  let '(ls, m) := z in
  let '(t, s) := x in
  match t with
  | TKey k => match m with MStart | MComma => Some (ls, MKey k s) | _ => None end
  | TEquals => match m with MKey _ ks => Some (ls, MEq ks) | _ => None end
  | TValue v => match m with MEq ks => Some (ls, MVal v ks (fst s + 1, snd s - 1)) | _ => None end
  | TAll | TAny | TNot =>
      match m with
      | MStart | MComma => Some ((mkFrame (callee_of t) s 0 [] :: fst ls, snd ls), MFn)
      | _ => None
      end
  | TOpen =>
      match m, fst ls with
      | MFn, fr :: rest =>
          Some ((mkFrame (fr_callee fr) (fr_span fr) (fst s) (fr_items fr) :: rest, snd ls), MStart)
      | _, _ => None
      end
  | TClose =>
      match m with
      | MFn | MEq _ => None
      | _ =>
          match fst (content z) with
          | fr :: rest =>
              let bad := match fr_callee fr with
                         | CNot => negb (Nat.eqb (pcount8 (fr_items fr)) 1)
                         | _ => false
                         end in
              if bad then None
              else Some (add (rest, snd ls) [PCall (fr_callee fr) (fr_items fr)], MItem)
          | [] => None
          end
      end
  | TComma =>
      match m with
      | MStart | MFn | MEq _ => None
      | _ => Some (content z, MComma)
      end
  end.

Fixpoint run (z : zip) (ts : list stok) : option zip :=
  match ts with
  | [] => Some z
  | x :: ts' => match astep z x with Some z' => run z' ts' | None => None end
  end.

Lemma run_app z a b :
  run z (a ++ b) = match run z a with Some z' => run z' b | None => None end.
Proof. revert z. induction a as [|x a IH]; intros z; cbn; [reflexivity|]. destruct (astep z x); auto. Qed.

(** ** The parser's state *)

Definition conc_frame (extra : nat) (fr : frame) : func_and_span :=
  mkFs (func_of (fr_callee fr) 0) (fr_open fr) (fr_span fr) (pleaves (fr_items fr))
    ((ncalls (fr_items fr) + extra) mod 256).
Definition conc_stack (frs : list frame) : list func_and_span :=
  match frs with [] => [] | fr :: rest => conc_frame 0 fr :: map (conc_frame 1) rest end.
Definition frame_queue (fr : frame) : list expr_node := flat_map compile_call (fr_items fr).
Definition conc_queue (ls : lists) : list expr_node :=
  flat_map compile (snd ls) ++ flat_map frame_queue (rev (fst ls)).

Definition conc_last (z : zip) : option token :=
  match snd z with
  | MStart => match fst (fst z) with [] => None | _ => Some TOpen end
  | MComma => Some TComma
  | MItem => Some TClose
  | MKey k _ => Some (TKey k)
  | MEq _ => Some TEquals
  | MVal v _ _ => Some (TValue v)
  | MFn => match fst (fst z) with [] => None | fr :: _ => Some (callee_token (fr_callee fr)) end
  end.
Definition conc_key (m : mode) : option span :=
  match m with MKey _ s | MEq s | MVal _ s _ => Some s | _ => None end.
Definition conc_val (m : mode) : option span :=
  match m with MVal _ _ sv => Some sv | _ => None end.

Definition conc (z : zip) : pstate :=
  mkPs (conc_stack (fst (fst z))) (conc_queue (fst z)) (conc_last z)
    (conc_key (snd z)) (conc_val (snd z)) (length (pleaves (snd (fst z)))).

Definition init : zip := (([], []), MStart).
Lemma conc_init : conc init = ps_init.
Proof. reflexivity. Qed.

(** Well-formed states, at place [n] of the text. *)
Definition frame_ok (n : nat) (fr : frame) : Prop :=
  fst (fr_span fr) <= snd (fr_span fr) <= n /\ fr_open fr <= n.
Definition zok (n : nat) (z : zip) : Prop :=
  Forall (frame_ok n) (fst (fst z)) /\
  (snd z = MFn -> exists fr rest, fst (fst z) = fr :: rest /\ fr_items fr = []) /\
  (snd z = MStart -> top_items (fst z) = []).

Lemma frame_ok_le n m fr : n <= m -> frame_ok n fr -> frame_ok m fr.
Proof. unfold frame_ok. lia. Qed.

(** Error values inside the text. *)
Lemma conc_top_queue frs root l fr rest :
  frs = fr :: rest ->
  conc_queue (frs, root) ++ flat_map compile_call l = conc_queue (add (frs, root) l).
Proof.
  intros ->. unfold conc_queue, add. cbn [fst snd rev]. rewrite !flat_map_app. cbn [flat_map].
  unfold frame_queue. cbn [fr_items]. rewrite !flat_map_app. now rewrite !app_nil_r, !app_assoc.
Qed.

Lemma conc_root_queue root l : conc_queue ([], root) ++ flat_map compile l = conc_queue (add ([], root) l).
Proof. unfold conc_queue, add. cbn. now rewrite flat_map_app, !app_nil_r. Qed.

Lemma conc_frame_add fr l k :
  ncalls l = 0 ->
  conc_frame k (mkFrame (fr_callee fr) (fr_span fr) (fr_open fr) (fr_items fr ++ l)) =
  mkFs (func_of (fr_callee fr) 0) (fr_open fr) (fr_span fr) (pleaves (fr_items fr) ++ pleaves l)
    ((ncalls (fr_items fr) + k) mod 256).
Proof.
  intros E. unfold conc_frame. cbn [fr_callee fr_span fr_open fr_items].
  now rewrite pleaves_app, ncalls_app, E, Nat.add_0_r.
Qed.

Lemma mod_succ n : (n + 1) mod 256 = if n mod 256 <? 255 then S (n mod 256) else 0.
Proof.
  rewrite <- Nat.add_mod_idemp_l by lia. assert (n mod 256 < 256) by (apply Nat.mod_upper_bound; lia).
  destruct (Nat.ltb_spec (n mod 256) 255).
  - rewrite Nat.mod_small by lia. lia.
  - replace (n mod 256) with 255 by lia. reflexivity.
Qed.

Lemma conc_frame_1 fr :
  conc_frame 1 fr = mkFs (func_of (fr_callee fr) 0) (fr_open fr) (fr_span fr) (pleaves (fr_items fr))
    (if ncalls (fr_items fr) mod 256 <? 255 then S (ncalls (fr_items fr) mod 256) else 0).
Proof. unfold conc_frame. now rewrite mod_succ. Qed.

(** A step of the parser is a step of the machine, unless the counter overflows. *)
Definition step_spec (pr : profile) (original : str) (z : zip) (x : stok) : Prop :=
  match pstep pr original (conc z) (fst x) (snd x) with
  | Ok s => exists z', astep z x = Some z' /\ s = conc z' /\ zok (snd (snd x)) z'
  | Err e => astep z x = None /\ err_ok original e
  | Panic p =>
      p = POverflow /\ overflow_checks pr = true /\
      exists fr rest, fst (fst z) = fr :: rest /\ ncalls (fr_items fr) mod 256 = 255
  end.


Ltac bad Hx := cbn; split; [reflexivity|split; [reflexivity|exact Hx]].
Ltac no_fn Hm := let fr := fresh "fr" in let rest := fresh "rest" in let It := fresh "It" in
  let E := fresh "E" in
  destruct (Hm eq_refl) as (fr & rest & E & It); cbn [fst] in E.

Lemma queue_new fr frs root : fr_items fr = [] -> conc_queue (fr :: frs, root) = conc_queue (frs, root).
Proof.
  intros E. unfold conc_queue. cbn [fst snd rev]. rewrite flat_map_app. cbn [flat_map].
  unfold frame_queue at 2. rewrite E. cbn. now rewrite app_nil_r.
Qed.

Lemma zok_other n ls m : Forall (frame_ok n) (fst ls) -> m <> MFn -> m <> MStart -> zok n (ls, m).
Proof. intros F N1 N2. split; [exact F|]. split; cbn; intros ->; easy. Qed.

Lemma add_frames n ls l : Forall (frame_ok n) (fst ls) -> Forall (frame_ok n) (fst (add ls l)).
Proof.
  destruct ls as [[|fr rest] root]; cbn [add fst snd]; [auto|]. inversion 1; subst.
  constructor; assumption.
Qed.

Lemma pending_calls m : ncalls (pending m) = 0.
Proof. now destruct m. Qed.
Lemma pending_preds m : m <> MFn -> (forall s, m <> MEq s) ->
  pleaves (pending m) = preds_of (conc_key m) (conc_val m).
Proof. intros _ N. destruct m; try reflexivity. now destruct (N s). Qed.
Lemma pending_queue m : flat_map compile (pending m) = map NPred (pleaves (pending m)).
Proof. now destruct m. Qed.
Lemma pending_call_queue m : flat_map compile_call (pending m) = [].
Proof. now destruct m. Qed.

Lemma pstep_fn pr (original : str) (z : zip) (t : token) (s : span) n :
  zok n z -> n <= fst s -> fst s <= snd s <= length original ->
  t = TAll \/ t = TAny \/ t = TNot -> step_spec pr original z (t, s).
Proof.
  destruct z as [[frs root] m]. intros (F & Hm & Hs) Hn Hx Ht. cbn [fst snd] in *.
  assert (F' : Forall (frame_ok (snd s)) frs).
  { eapply Forall_impl; [|exact F]. intros fr. apply frame_ok_le. lia. }
  assert (K : m = MStart \/ m = MComma ->
     match (stack <- match conc_stack frs with
                   | [] => Ok []
                   | fs :: rest =>
                       n <- incr_u8 pr (fs_nest_level fs) ;;
                       Ok (mkFs (fs_func fs) (fs_parens_index fs) (fs_span fs)
                             (fs_predicates fs) n :: rest)
                   end ;;
          Ok (mkPs (mkFs (func_of (callee_of t) 0) 0 s [] 0 :: stack) (conc_queue (frs, root)) (Some t)
                (conc_key m) (conc_val m) (length (pleaves root)))) with
     | Ok st => exists z', Some ((mkFrame (callee_of t) s 0 [] :: frs, root), MFn) = Some z' /\
                  st = conc z' /\ zok (snd s) z'
     | Err e => Some ((mkFrame (callee_of t) s 0 [] :: frs, root), MFn) = None /\ err_ok original e
     | Panic p => p = POverflow /\ overflow_checks pr = true /\
         exists fr rest, frs = fr :: rest /\ ncalls (fr_items fr) mod 256 = 255
     end).
  { intros Hm'.
    assert (Z : zok (snd s) ((mkFrame (callee_of t) s 0 [] :: frs, root), MFn)).
    { split; cbn [fst snd].
      - constructor; [|assumption]. unfold frame_ok. cbn. lia.
      - split; [|easy]. intros _. eexists _, _. split; reflexivity. }
    assert (Kv : conc_key m = None /\ conc_val m = None) by (destruct Hm' as [->| ->]; auto).
    assert (Ct : callee_token (callee_of t) = t) by (destruct Ht as [->|[->| ->]]; reflexivity).
    destruct Kv as [-> ->].
    destruct frs as [|fr rest]; cbn [conc_stack bind].
    - eexists. split; [reflexivity|]. split; [|exact Z].
      unfold conc. cbn [fst snd conc_stack conc_last fr_callee map conc_key conc_val].
      rewrite Ct, (queue_new (mkFrame (callee_of t) s 0 [])) by reflexivity. reflexivity.
    - unfold incr_u8. cbn [conc_frame fs_nest_level fs_func fs_parens_index fs_span fs_predicates].
      rewrite Nat.add_0_r. destruct (Nat.ltb_spec (ncalls (fr_items fr) mod 256) 255) as [L|L]; cbn [bind].
      + eexists. split; [reflexivity|]. split; [|exact Z].
        unfold conc. cbn [fst snd conc_stack conc_last fr_callee map conc_key conc_val].
        rewrite Ct, (queue_new (mkFrame (callee_of t) s 0 [])) by reflexivity. rewrite (conc_frame_1 fr).
        apply Nat.ltb_lt in L. rewrite L. reflexivity.
      + destruct (overflow_checks pr) eqn:O; cbn [bind].
        * split; [reflexivity|]. split; [reflexivity|]. exists fr, rest. split; [reflexivity|].
          assert (ncalls (fr_items fr) mod 256 < 256) by (apply Nat.mod_upper_bound; lia). lia.
        * eexists. split; [reflexivity|]. split; [|exact Z].
          unfold conc. cbn [fst snd conc_stack conc_last fr_callee map conc_key conc_val].
          rewrite Ct, (queue_new (mkFrame (callee_of t) s 0 [])) by reflexivity. rewrite (conc_frame_1 fr).
          apply Nat.ltb_ge in L. rewrite L. reflexivity. }
  unfold step_spec. cbn [fst snd].
  assert (P : pstep pr original (conc (frs, root, m)) t s =
     match conc_last (frs, root, m) with
     | None | Some TOpen | Some TComma =>
        (stack <- match conc_stack frs with
                   | [] => Ok []
                   | fs :: rest =>
                       n <- incr_u8 pr (fs_nest_level fs) ;;
                       Ok (mkFs (fs_func fs) (fs_parens_index fs) (fs_span fs)
                             (fs_predicates fs) n :: rest)
                   end ;;
          Ok (mkPs (mkFs (func_of (callee_of t) 0) 0 s [] 0 :: stack) (conc_queue (frs, root)) (Some t)
                (conc_key m) (conc_val m) (length (pleaves root))))
     | _ => token_err original (conc_last (frs, root, m)) s
     end) by (destruct Ht as [->|[->| ->]]; reflexivity).
  rewrite P. clear P.
  assert (A : astep (frs, root, m) (t, s) =
      match m with MStart | MComma => Some ((mkFrame (callee_of t) s 0 [] :: frs, root), MFn) | _ => None end)
    by (destruct Ht as [->|[->| ->]]; reflexivity).
  rewrite A. clear A.
  destruct m; cbn [conc_last fst snd].
  - destruct frs; apply K; auto.
  - apply K; auto.
  - bad Hx.
  - bad Hx.
  - bad Hx.
  - bad Hx.
  - no_fn Hm. rewrite E. destruct (fr_callee fr); bad Hx.
Qed.

Lemma pstep_close pr (original : str) (z : zip) (s : span) n :
  zok n z -> n <= fst s -> fst s <= snd s <= length original ->
  step_spec pr original z (TClose, s).
Proof.
  destruct z as [[frs root] m]. intros (F & Hm & Hs) Hn Hx. cbn [fst snd] in *.
  assert (F' : Forall (frame_ok (snd s)) frs).
  { eapply Forall_impl; [|exact F]. intros fr. apply frame_ok_le. lia. }
  unfold step_spec. cbn [fst snd pstep conc ps_last ps_stack].
  assert (K : m <> MFn -> (forall s, m <> MEq s) ->
    match
      (match conc_stack frs with
          | top :: rest =>
              let num := length (fs_predicates top)
                         + (if conc_key m then 1 else 0) + fs_nest_level top in
              f <- match fs_func top with
                   | FAll _ => Ok (FAll num)
                   | FAny _ => Ok (FAny num)
                   | FNot =>
                       if negb (Nat.eqb num 1)
                       then Err (mkParseError original (fst (fs_span top), snd s)
                                   (InvalidNot num))
                       else Ok FNot
                   end ;;
              Ok (mkPs rest
                    (conc_queue (frs, root) ++ map NPred (fs_predicates top)
                       ++ map NPred (preds_of (conc_key m) (conc_val m)) ++ [NFn f])
                    (Some TClose) None None (length (pleaves root)))
          | [] => Err (mkParseError original s UnopenedParens)
          end)
    with
    | Ok st => exists z',
       (match fst (content (frs, root, m)) with
          | fr :: rest =>
              let bad := match fr_callee fr with
                         | CNot => negb (Nat.eqb (pcount8 (fr_items fr)) 1)
                         | _ => false
                         end in
              if bad then None
              else Some (add (rest, root) [PCall (fr_callee fr) (fr_items fr)], MItem)
          | [] => None
          end) = Some z' /\ st = conc z' /\ zok (snd s) z'
    | Err e => (match fst (content (frs, root, m)) with
          | fr :: rest =>
              let bad := match fr_callee fr with
                         | CNot => negb (Nat.eqb (pcount8 (fr_items fr)) 1)
                         | _ => false
                         end in
              if bad then None
              else Some (add (rest, root) [PCall (fr_callee fr) (fr_items fr)], MItem)
          | [] => None
          end) = None /\ err_ok original e
    | Panic p => False
    end).
  { intros N1 N2. destruct frs as [|fr rest]; cbn [conc_stack content add fst snd].
    { bad Hx. }
    cbn [fr_callee fr_items conc_frame fs_predicates fs_nest_level fs_func fs_span].
    rewrite Nat.add_0_r.
    assert (C : length (pleaves (fr_items fr)) + (if conc_key m then 1 else 0)
                 + ncalls (fr_items fr) mod 256 = pcount8 (fr_items fr ++ pending m)).
    { unfold pcount8. rewrite pleaves_app, ncalls_app, pending_calls, Nat.add_0_r, app_length.
      rewrite pending_preds by assumption. f_equal. f_equal. now destruct (conc_key m). }
    rewrite C. cbn zeta.
    assert (Fr : frame_ok (snd s) fr) by (now inversion F').
    assert (Frest : Forall (frame_ok (snd s)) rest) by (now inversion F').
    assert (Done : forall g, g = func_of (fr_callee fr) (pcount8 (fr_items fr ++ pending m)) ->
        exists z', Some (add (rest, root) [PCall (fr_callee fr) (fr_items fr ++ pending m)], MItem) = Some z' /\
          mkPs (map (conc_frame 1) rest)
            (conc_queue (fr :: rest, root) ++ map NPred (pleaves (fr_items fr))
               ++ map NPred (preds_of (conc_key m) (conc_val m)) ++ [NFn g])
            (Some TClose) None None (length (pleaves root)) = conc z' /\ zok (snd s) z').
    { intros g Hg. eexists. split; [reflexivity|]. split.
      - rewrite <- pending_preds by assumption.
        assert (Q : conc_queue (fr :: rest, root) ++ map NPred (pleaves (fr_items fr))
               ++ map NPred (pleaves (pending m)) ++ [NFn g] =
               conc_queue (rest, root) ++ compile (PCall (fr_callee fr) (fr_items fr ++ pending m))).
        { rewrite compile_call_eq, <- Hg, flat_map_app, pending_call_queue, app_nil_r, pleaves_app, map_app.
          unfold conc_queue. cbn [fst snd rev]. rewrite flat_map_app. cbn [flat_map].
          unfold frame_queue at 2. now rewrite app_nil_r, <- !app_assoc. }
        rewrite Q. clear Q. unfold conc. cbn [fst snd conc_last conc_key conc_val].
        destruct rest as [|fr2 rest2].
        + rewrite <- (conc_root_queue root). cbn [flat_map map add conc_stack fst snd].
          rewrite app_nil_r. f_equal. rewrite pleaves_app. cbn. now rewrite app_nil_r.
        + rewrite <- (conc_top_queue _ _ _ _ _ eq_refl). cbn [flat_map compile_call].
          rewrite app_nil_r. f_equal. cbn [add fst snd conc_stack map]. f_equal.
          unfold conc_frame. cbn [fr_callee fr_span fr_open fr_items].
          rewrite pleaves_app, ncalls_app. cbn [ncalls pleaves flat_map pleaf app].
          now rewrite app_nil_r, Nat.add_0_r.
      - apply zok_other; [|easy|easy]. now apply add_frames. }
    destruct (fr_callee fr) eqn:Ec; cbn [func_of bind].
    - now apply Done.
    - now apply Done.
    - destruct (pcount8 (fr_items fr ++ pending m) =? 1) eqn:E1; cbn [negb bind].
      + now apply Done.
      + split; [reflexivity|]. split; [reflexivity|]. cbn [pe_span fst snd].
        unfold frame_ok in Fr. rewrite Forall_forall in F.
        assert (frame_ok n fr) as Fn by (apply F; now left). unfold frame_ok in Fn. lia. }
  assert (K' : m <> MFn -> (forall s, m <> MEq s) -> m <> MStart \/ frs <> [] ->
     step_spec pr original (frs, root, m) (TClose, s)).
  { intros N1 N2 N3. specialize (K N1 N2). unfold step_spec. cbn [fst snd].
    assert (P : pstep pr original (conc (frs, root, m)) TClose s =
      match conc_stack frs with
          | top :: rest =>
              let num := length (fs_predicates top)
                         + (if conc_key m then 1 else 0) + fs_nest_level top in
              f <- match fs_func top with
                   | FAll _ => Ok (FAll num)
                   | FAny _ => Ok (FAny num)
                   | FNot =>
                       if negb (Nat.eqb num 1)
                       then Err (mkParseError original (fst (fs_span top), snd s)
                                   (InvalidNot num))
                       else Ok FNot
                   end ;;
              Ok (mkPs rest
                    (conc_queue (frs, root) ++ map NPred (fs_predicates top)
                       ++ map NPred (preds_of (conc_key m) (conc_val m)) ++ [NFn f])
                    (Some TClose) None None (length (pleaves root)))
          | [] => Err (mkParseError original s UnopenedParens)
          end).
    { destruct m; try reflexivity.
      - destruct frs; [destruct N3; easy|reflexivity].
      - now destruct (N2 s0).
      - easy. }
    rewrite P. clear P.
    assert (A : astep (frs, root, m) (TClose, s) =
       match fst (content (frs, root, m)) with
          | fr :: rest =>
              let bad := match fr_callee fr with
                         | CNot => negb (Nat.eqb (pcount8 (fr_items fr)) 1)
                         | _ => false
                         end in
              if bad then None
              else Some (add (rest, root) [PCall (fr_callee fr) (fr_items fr)], MItem)
          | [] => None
          end).
    { destruct m; try reflexivity; [now destruct (N2 s0)|easy]. }
    rewrite A. clear A.
    match goal with |- match ?a with _ => _ end => destruct a end; [exact K|exact K|destruct K]. }
  unfold step_spec in K'. cbn [fst snd] in K'.
  destruct m; try (apply K'; [easy|easy|left; easy]).
  - destruct frs as [|fr rest]; [bad Hx|]. apply K'; [easy|easy|now right].
  - bad Hx.
  - no_fn Hm. cbn [conc_last fst snd]. rewrite E. destruct (fr_callee fr); bad Hx.
Qed.

Lemma pstep_comma pr (original : str) (z : zip) (s : span) n :
  zok n z -> n <= fst s -> fst s <= snd s <= length original ->
  step_spec pr original z (TComma, s).
Proof.
  destruct z as [[frs root] m]. intros (F & Hm & Hs) Hn Hx. cbn [fst snd] in *.
  assert (F' : Forall (frame_ok (snd s)) frs).
  { eapply Forall_impl; [|exact F]. intros fr. apply frame_ok_le. lia. }
  unfold step_spec. cbn [fst snd].
  assert (Z : zok (snd s) (content (frs, root, m), MComma)).
  { apply zok_other; [|easy|easy]. now apply add_frames. }
  assert (Nil : forall x : lists, add x [] = x).
  { intros [[|[c sp o it] r] rt]; cbn; now rewrite app_nil_r. }
  destruct m; cbn [pstep conc ps_last conc_last fst snd].
  - destruct frs; bad Hx.
  - eexists. split; [reflexivity|]. split; [|exact Z]. unfold content; cbn [fst snd pending].
    rewrite Nil. reflexivity.
  - eexists. split; [reflexivity|]. split; [|exact Z]. unfold content; cbn [fst snd pending].
    rewrite Nil. reflexivity.
  - cbn [conc_key ps_key conc_val ps_val ps_stack ps_roots ps_queue snd]. destruct frs as [|fr rest]; cbn [conc_stack].
    + eexists. split; [reflexivity|]. split; [|exact Z]. unfold conc. unfold content; cbn [fst snd pending].
      rewrite <- conc_root_queue. f_equal. cbn [add fst snd]. rewrite pleaves_app, app_length. cbn. lia.
    + eexists. split; [reflexivity|]. split; [|exact Z]. unfold conc. unfold content; cbn [fst snd pending].
      rewrite <- (conc_top_queue _ _ _ _ _ eq_refl). cbn [flat_map compile_call]. rewrite app_nil_r.
      cbn [add fst snd conc_stack map]. rewrite conc_frame_add by reflexivity. reflexivity.
  - bad Hx.
  - cbn [conc_key ps_key conc_val ps_val ps_stack ps_roots ps_queue snd]. destruct frs as [|fr rest]; cbn [conc_stack].
    + eexists. split; [reflexivity|]. split; [|exact Z]. unfold conc. unfold content; cbn [fst snd pending].
      rewrite <- conc_root_queue. f_equal. cbn [add fst snd]. rewrite pleaves_app, app_length. cbn. lia.
    + eexists. split; [reflexivity|]. split; [|exact Z]. unfold conc. unfold content; cbn [fst snd pending].
      rewrite <- (conc_top_queue _ _ _ _ _ eq_refl). cbn [flat_map compile_call]. rewrite app_nil_r.
      cbn [add fst snd conc_stack map]. rewrite conc_frame_add by reflexivity. reflexivity.
  - no_fn Hm. rewrite E. destruct (fr_callee fr); bad Hx.
Qed.

Lemma pstep_spec pr (original : str) (z : zip) (x : stok) n :
  zok n z -> n <= fst (snd x) -> fst (snd x) <= snd (snd x) <= length original ->
  step_spec pr original z x.
Proof.
  destruct x as [t s]. cbn [fst snd]. intros Z Hn Hx.
  destruct t; [| | |eapply pstep_fn; eauto|eapply pstep_fn; eauto|eapply pstep_fn; eauto|
               |eapply pstep_close; eauto|eapply pstep_comma; eauto];
    destruct z as [[frs root] m]; destruct Z as (F & Hm & Hs); cbn [fst snd] in *;
    (assert (F' : Forall (frame_ok (snd s)) frs);
     [eapply Forall_impl; [|exact F]; intros fr; apply frame_ok_le; lia|]);
    unfold step_spec; cbn [fst snd].
  - (* key *)
    destruct m; cbn [pstep conc ps_last conc_last fst snd]; try (bad Hx).
    + destruct frs; (eexists; split; [reflexivity|]; split; [reflexivity|]; now apply zok_other).
    + eexists; split; [reflexivity|]; split; [reflexivity|]; now apply zok_other.
    + no_fn Hm. rewrite E. destruct (fr_callee fr); bad Hx.
  - (* value *)
    destruct m; cbn [pstep conc ps_last conc_last fst snd]; try (bad Hx).
    + destruct frs; bad Hx.
    + eexists; split; [reflexivity|]; split; [reflexivity|]; now apply zok_other.
    + no_fn Hm. rewrite E. destruct (fr_callee fr); bad Hx.
  - (* equals *)
    destruct m; cbn [pstep conc ps_last conc_last fst snd]; try (bad Hx).
    + destruct frs; bad Hx.
    + eexists; split; [reflexivity|]; split; [reflexivity|]; now apply zok_other.
    + no_fn Hm. rewrite E. destruct (fr_callee fr); bad Hx.
  - (* open *)
    destruct m; cbn [pstep conc ps_last conc_last fst snd]; try (bad Hx).
    + destruct frs; bad Hx.
    + no_fn Hm. rewrite E in *. cbn [conc_stack ps_stack map].
      destruct fr as [c sp o it]. cbn [fr_items] in It. subst it.
      assert (Z : zok (snd s) ((mkFrame c sp (fst s) [] :: rest, root), MStart)).
      { split; [|split; [easy|reflexivity]]. cbn [fst]. inversion F'; subst. constructor; [|assumption].
        unfold frame_ok in *. cbn in *. lia. }
      destruct c; (eexists; split; [reflexivity|]; split; [|exact Z]); unfold conc;
        cbn [fst snd ps_stack ps_queue ps_key ps_val ps_roots fr_callee fr_span fr_open fr_items];
        rewrite !queue_new by reflexivity; reflexivity.
Qed.
