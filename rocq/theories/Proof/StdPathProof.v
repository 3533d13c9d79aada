(** The machine of [Model.StdPath] in closed form. *)
From Verif.Model Require Import Base Str Path StdPath.
From Verif.Proof Require Import StrFacts.

(** What is needed of a system. *)
Record sane (os : system) : Prop := {
  sane_dot : os_sep os "." = false;
  sane_dot_verbatim : os_verbatim_sep os "." = false;
  sane_len : forall p x, os_prefix os p = Some x -> px_len x <= length p
}.

Definition nosep (f : ascii -> bool) (w : str) : Prop := Forall (fun c => f c = false) w.
Definition tail (r : list (ascii * str)) : str := flat_map (fun t => fst t :: snd t) r.
Definition body (w : str) (r : list (ascii * str)) : str := w ++ tail r.
Definition seps (f : ascii -> bool) (r : list (ascii * str)) : Prop :=
  Forall (fun t => f (fst t) = true /\ nosep f (snd t)) r.

Lemma split_body f s : exists w r, s = body w r /\ nosep f w /\ seps f r.
Proof.
  induction s as [|c s (w & r & -> & Hw & Hr)].
  - exists [], []. repeat constructor.
  - destruct (f c) eqn:E.
    + exists [], ((c, w) :: r). repeat split; [constructor|]. constructor; auto.
    + exists (c :: w), r. repeat split; auto. constructor; auto.
Qed.
Lemma tail_app a b : tail (a ++ b) = tail a ++ tail b.
Proof. apply flat_map_app. Qed.
Lemma body_snoc w r c x : body w (r ++ [(c, x)]) = body w r ++ c :: x.
Proof. unfold body. rewrite tail_app, app_assoc. cbn. now rewrite app_nil_r. Qed.

Lemma position_none f s : nosep f s -> position f s = None.
Proof. induction 1 as [|c s H _ IH]; cbn; [easy|]. now rewrite H, IH. Qed.
Lemma position_app f a c b : nosep f a -> f c = true -> position f (a ++ c :: b) = Some (length a).
Proof. intros H E. induction H as [|d a H _ IH]; cbn; [now rewrite E|]. now rewrite H, IH. Qed.
Lemma rposition_none f s : nosep f s -> rposition f s = None.
Proof. induction 1 as [|c s H _ IH]; cbn; [easy|]. now rewrite IH, H. Qed.
Lemma rposition_app f a c b : nosep f b -> f c = true -> rposition f (a ++ c :: b) = Some (length a).
Proof.
  intros H E. induction a as [|d a IH]; cbn; [now rewrite (rposition_none f b H), E|]. now rewrite IH.
Qed.
Lemma skipn_app_len {A} (a b : list A) n : n = length a -> skipn n (a ++ b) = b.
Proof. intros ->. induction a; cbn; auto. Qed.
Lemma firstn_app_len {A} (a b : list A) n : n = length a -> firstn n (a ++ b) = a.
Proof. intros ->. induction a; cbn; auto. now f_equal. Qed.

Section Machine.
Context (os : system) (Sane : sane os).

(** Pieces that are no part. *)
Definition sing (v : bool) (w : str) : option part :=
  if is_empty w then None
  else if str_eqb w (B ".") then (if v then Some Cur else None)
  else if str_eqb w (B "..") then Some Up
  else Some (Name w).
Lemma single_sing c w : single c w = sing (prefix_verbatim c) w.
Proof. reflexivity. Qed.
Definition idle (v : bool) (w : str) : bool := is_none (sing v w).

Fixpoint drop_idle (v : bool) (q : list (ascii * str)) : list (ascii * str) :=
  match q with (c, x) :: t => if idle v x then drop_idle v t else q | [] => [] end.
(** The body without the pieces at its end that are no parts. *)
Definition trimmed (v : bool) (w : str) (r : list (ascii * str)) : str :=
  match drop_idle v (rev r) with
  | [] => if idle v w then [] else w
  | q => body w (rev q)
  end.

(** The length of the head does not change while the body gets shorter. *)
Definition stable (c : comps) (head w : str) : Prop :=
  len_before_body os (with_path c head) = length head
  /\ forall r, seps (cs_sep os c) r -> len_before_body os (with_path c (head ++ body w r)) = length head.

Lemma with_path_same c p q : with_path (with_path c p) q = with_path c q.
Proof. reflexivity. Qed.
Lemma firstn_minus {A} (a b : list A) : firstn (length (a ++ b) - length b) (a ++ b) = a.
Proof. rewrite app_length. apply firstn_app_len. lia. Qed.

Lemma back_last c head a k b : len_before_body os c = length head -> cs_path c = head ++ a ++ k :: b ->
  cs_sep os c k = true -> nosep (cs_sep os c) b ->
  parse_next_back os c = (S (length b), single c b) /\ drop_back c (S (length b)) = with_path c (head ++ a).
Proof.
  intros L E K N. unfold parse_next_back. rewrite L, E, (skipn_app_len head _ _ eq_refl).
  rewrite (rposition_app _ a k b N K).
  replace (head ++ a ++ k :: b) with ((head ++ a ++ [k]) ++ b) by now rewrite <- !app_assoc.
  rewrite (skipn_app_len (head ++ a ++ [k])) by (rewrite !app_length; cbn; lia).
  split; [reflexivity|]. unfold drop_back. rewrite E. f_equal.
  replace (head ++ a ++ k :: b) with ((head ++ a) ++ k :: b) by now rewrite <- app_assoc.
  apply (firstn_minus (head ++ a) (k :: b)).
Qed.
Lemma back_only c head s : len_before_body os c = length head -> cs_path c = head ++ s -> nosep (cs_sep os c) s ->
  parse_next_back os c = (length s, single c s) /\ drop_back c (length s) = with_path c head.
Proof.
  intros L E N. unfold parse_next_back. rewrite L, E, (skipn_app_len head _ _ eq_refl), (rposition_none _ s N).
  split; [reflexivity|]. unfold drop_back. rewrite E. f_equal. apply firstn_minus.
Qed.
Lemma seps_snoc f r c x : seps f (r ++ [(c, x)]) -> seps f r /\ f c = true /\ nosep f x.
Proof. intros H. apply Forall_app in H as [H H']. inversion H' as [|? ? [K N] _]; subst. auto. Qed.
Lemma ltb_body (head s : str) : Nat.ltb (length head) (length (head ++ s)) = negb (is_empty s).
Proof.
  rewrite app_length. destruct s; cbn.
  - rewrite Nat.add_0_r. apply Nat.ltb_irrefl.
  - apply Nat.ltb_lt. lia.
Qed.

Lemma idle_empty v : idle v [] = true.
Proof. reflexivity. Qed.
Lemma is_empty_app_cons (a : str) k (b : str) : is_empty (a ++ k :: b) = false.
Proof. destruct a; reflexivity. Qed.

Lemma trim_right_body c head w r n : stable c head w -> seps (cs_sep os c) r -> nosep (cs_sep os c) w ->
  length (body w r) <= n ->
  trim_right_fuel os n (with_path c (head ++ body w r)) = with_path c (head ++ trimmed (prefix_verbatim c) w r).
Proof.
  intros [S0 S]. revert n. induction r as [|[k x] r IH] using rev_ind; intros n Hr Hw Hn.
  - unfold trimmed. cbn [rev drop_idle]. unfold body in *. cbn [tail flat_map] in *. rewrite app_nil_r in *.
    assert (L : len_before_body os (with_path c (head ++ w)) = length head).
    { specialize (S [] (Forall_nil _)). unfold body in S. cbn in S. now rewrite app_nil_r in S. }
    destruct n as [|n].
    { destruct w; [|cbn in Hn; lia]. cbn. reflexivity. }
    cbn [trim_right_fuel]. rewrite L. change (cs_path (with_path c (head ++ w))) with (head ++ w). rewrite ltb_body.
    destruct (is_empty w) eqn:Ew; cbn [negb].
    { apply is_empty_true in Ew. subst. reflexivity. }
    destruct (back_only (with_path c (head ++ w)) head w L eq_refl Hw) as [-> D].
    rewrite single_sing. change (prefix_verbatim (with_path c (head ++ w))) with (prefix_verbatim c).
    unfold idle. destruct (sing (prefix_verbatim c) w) eqn:Es; cbn [is_none]; [reflexivity|].
    rewrite D, with_path_same, app_nil_r. destruct n; cbn [trim_right_fuel]; [reflexivity|].
    rewrite S0. change (cs_path (with_path c head)) with head. now rewrite Nat.ltb_irrefl.
  - apply seps_snoc in Hr as (Hr & K & N). specialize (S (r ++ [(k, x)])) as L.
    rewrite body_snoc in *. assert (L' : len_before_body os (with_path c (head ++ body w r ++ k :: x)) = length head).
    { apply L. apply Forall_app. split; auto. }
    clear L. destruct n as [|n]; [rewrite app_length in Hn; cbn in Hn; lia|].
    cbn [trim_right_fuel]. rewrite L'. change (cs_path (with_path c (head ++ body w r ++ k :: x))) with (head ++ body w r ++ k :: x).
    rewrite ltb_body, is_empty_app_cons. cbn [negb].
    destruct (back_last (with_path c (head ++ body w r ++ k :: x)) head (body w r) k x L' eq_refl K N) as [-> D].
    rewrite single_sing. change (prefix_verbatim (with_path c (head ++ body w r ++ k :: x))) with (prefix_verbatim c).
    unfold trimmed. rewrite rev_app_distr. cbn [rev app drop_idle]. unfold idle at 1.
    destruct (sing (prefix_verbatim c) x) eqn:Es; cbn [is_none].
    + cbn [rev]. rewrite rev_involutive, body_snoc. reflexivity.
    + rewrite D, with_path_same. apply IH; auto. rewrite app_length in Hn. cbn in Hn. lia.
Qed.

(** One call of [next_back] in the body. *)
Lemma loop_body c head w r n : cs_front c = AtPrefix -> cs_back c = AtBody ->
  stable c head w -> seps (cs_sep os c) r -> nosep (cs_sep os c) w -> length (body w r) < n ->
  exists m, n - length (body w r) - 1 <= m /\
  loop (back_turn os) n (with_path c (head ++ body w r))
  = match drop_idle (prefix_verbatim c) (rev r) with
    | (_, x) :: q => (sing (prefix_verbatim c) x, with_path c (head ++ body w (rev q)))
    | [] => if idle (prefix_verbatim c) w then loop (back_turn os) m (with_back (with_path c head) AtStart)
            else (sing (prefix_verbatim c) w, with_path c head)
    end.
Proof.
  intros F Bk [S0 S]. revert n. induction r as [|[k x] r IH] using rev_ind; intros n Hr Hw Hn.
  - cbn [rev drop_idle]. unfold body in *. cbn [tail flat_map] in *. rewrite app_nil_r in *.
    assert (L : len_before_body os (with_path c (head ++ w)) = length head).
    { specialize (S [] (Forall_nil _)). unfold body in S. cbn in S. now rewrite app_nil_r in S. }
    assert (Fin : forall p, finished (with_path c p) = false) by (intros p; unfold finished; cbn; rewrite F, Bk; reflexivity).
    assert (Stop : forall m, loop (back_turn os) (Datatypes.S m) (with_path c head)
                             = loop (back_turn os) m (with_back (with_path c head) AtStart)).
    { intros m. cbn [loop]. rewrite Fin. unfold back_turn at 1. change (cs_back (with_path c head)) with (cs_back c).
      rewrite Bk, S0. change (cs_path (with_path c head)) with head. now rewrite Nat.ltb_irrefl. }
    destruct n as [|n]; [lia|]. destruct (is_empty w) eqn:Ew.
    { apply is_empty_true in Ew. subst. rewrite app_nil_r. exists n. split; [cbn; lia|]. cbn [idle is_none sing is_empty].
      apply Stop. }
    cbn [loop]. rewrite Fin. unfold back_turn at 1. change (cs_back (with_path c (head ++ w))) with (cs_back c). rewrite Bk, L.
    change (cs_path (with_path c (head ++ w))) with (head ++ w). rewrite ltb_body, Ew. cbn [negb].
    destruct (back_only (with_path c (head ++ w)) head w L eq_refl Hw) as [-> D].
    rewrite single_sing. change (prefix_verbatim (with_path c (head ++ w))) with (prefix_verbatim c). rewrite D, with_path_same.
    unfold idle. destruct (sing (prefix_verbatim c) w) eqn:Es; cbn [is_none]; [exists n; split; [lia|reflexivity]|].
    destruct w as [|d w]; [discriminate Ew|]. cbn [length] in *. destruct n as [|n]; [lia|].
    exists n. split; [lia|]. apply Stop.
  - apply seps_snoc in Hr as (Hr & K & N). specialize (S (r ++ [(k, x)])) as L.
    rewrite body_snoc in *. assert (L' : len_before_body os (with_path c (head ++ body w r ++ k :: x)) = length head).
    { apply L. apply Forall_app. split; auto. }
    clear L. destruct n as [|n]; [lia|].
    cbn [loop]. replace (finished (with_path c (head ++ body w r ++ k :: x))) with false
      by (unfold finished; cbn; rewrite F, Bk; reflexivity).
    unfold back_turn at 1. change (cs_back (with_path c (head ++ body w r ++ k :: x))) with (cs_back c). rewrite Bk, L'.
    change (cs_path (with_path c (head ++ body w r ++ k :: x))) with (head ++ body w r ++ k :: x).
    rewrite ltb_body, is_empty_app_cons. cbn [negb].
    destruct (back_last (with_path c (head ++ body w r ++ k :: x)) head (body w r) k x L' eq_refl K N) as [-> D].
    rewrite single_sing. change (prefix_verbatim (with_path c (head ++ body w r ++ k :: x))) with (prefix_verbatim c).
    rewrite rev_app_distr. cbn [rev app drop_idle]. unfold idle at 1. rewrite D, with_path_same.
    destruct (sing (prefix_verbatim c) x) eqn:Es; cbn [is_none].
    + exists n. split; [lia|]. rewrite rev_involutive. now rewrite Es.
    + destruct (IH n Hr Hw) as (m & Hm & E). { rewrite app_length in Hn. cbn in Hn. lia. }
      exists m. split; [rewrite app_length; cbn [length]; lia|]. exact E.
Qed.

(** ** Heads *)
Inductive start_kind := ByRoot (k : ascii) | ByPrefix | ByDot | Plainly.
Definition start_text (st : start_kind) : str :=
  match st with ByRoot k => [k] | ByDot => B "." | ByPrefix | Plainly => [] end.
Definition start_ok (c : comps) (st : start_kind) : Prop :=
  match st with
  | ByRoot k => cs_root c = true /\ os_sep os k = true
  | ByPrefix => cs_root c = false /\ exists x, cs_prefix c = Some x /\ px_implicit_root x = true
  | ByDot | Plainly => cs_root c = false /\ forall x, cs_prefix c = Some x -> px_implicit_root x = false
  end.
(** What follows the start. *)
Definition body_ok (c : comps) (st : start_kind) (w : str) : Prop :=
  match st with ByDot => w = [] | Plainly => w <> B "." | _ => True end.

Lemma sep_dot c : cs_sep os c "." = false.
Proof. unfold cs_sep. destruct (prefix_verbatim c); [apply (sane_dot_verbatim os Sane)|apply (sane_dot os Sane)]. Qed.
Definition pre_text (p : str) : str := firstn (prefix_len (comps_of os p)) p.
Lemma pre_len p : length (pre_text p) = prefix_len (comps_of os p).
Proof.
  unfold pre_text. apply firstn_length_le. unfold prefix_len. cbn. destruct (os_prefix os p) as [x|] eqn:E; [|lia].
  now apply (sane_len os Sane).
Qed.
Definition dotted (c : comps) (s : str) : bool :=
  match s with
  | [d] => Ascii.eqb d "."
  | d :: b :: _ => (Ascii.eqb d "." && cs_sep os c b)%bool
  | [] => false
  end.
Lemma no_cur c w r : nosep (cs_sep os c) w -> seps (cs_sep os c) r -> w <> B "." -> dotted c (body w r) = false.
Proof.
  intros Nw Sr H. unfold body, dotted. destruct w as [|d w].
  - cbn [app]. destruct Sr as [|[k x] r [K N] Sr]; [reflexivity|]. cbn [tail flat_map fst snd app].
    cbn [fst] in K. assert (E : Ascii.eqb k "." = false).
    { apply Ascii.eqb_neq. intros ->. now rewrite sep_dot in K. }
    rewrite E. now destruct (x ++ _).
  - cbn [app]. inversion Nw as [|? ? Hd Nw']; subst. destruct w as [|b w].
    + cbn [app]. destruct (tail r) eqn:T.
      * apply Ascii.eqb_neq. intros ->. now apply H.
      * assert (Ascii.eqb d "." = false) as ->; [|reflexivity]. apply Ascii.eqb_neq. intros ->. now apply H.
    + cbn [app]. inversion Nw' as [|? ? Hb _]; subst. rewrite Hb. apply andb_false_r.
Qed.
Lemma cur_empty c r : seps (cs_sep os c) r -> dotted c ("."%char :: tail r) = true.
Proof. intros Sr. destruct Sr as [|[k x] r [K N] Sr]; [reflexivity|]. cbn. exact K. Qed.

Lemma dissect p : exists st w r, p = pre_text p ++ start_text st ++ body w r
  /\ start_ok (comps_of os p) st /\ body_ok (comps_of os p) st w
  /\ nosep (cs_sep os (comps_of os p)) w /\ seps (cs_sep os (comps_of os p)) r
  /\ stable (comps_of os p) (pre_text p ++ start_text st) w.
Proof.
  set (c := comps_of os p). assert (L := pre_len p). fold c in L.
  assert (P : p = pre_text p ++ skipn (prefix_len c) p) by (symmetry; apply firstn_skipn).
  assert (Lbb : forall q, len_before_body os (with_path c q)
    = prefix_len c + (if cs_root c then 1 else 0) + (if include_cur_dir os (with_path c q) then 1 else 0)) by reflexivity.
  assert (Inc : forall s, include_cur_dir os (with_path c (pre_text p ++ s))
    = if cs_has_root c then false else dotted c s).
  { intros s. unfold include_cur_dir. change (cs_has_root (with_path c (pre_text p ++ s))) with (cs_has_root c).
    change (prefix_remaining (with_path c (pre_text p ++ s))) with (prefix_len c).
    change (cs_path (with_path c (pre_text p ++ s))) with (pre_text p ++ s).
    rewrite skipn_app_len by auto. reflexivity. }
  assert (Inc0 : include_cur_dir os c = if cs_has_root c then false else dotted c (skipn (prefix_len c) p)) by reflexivity.
  destruct (cs_root c) eqn:R.
  { assert (HR : cs_has_root c = true) by (unfold cs_has_root; now rewrite R).
    assert (R' := R). unfold c, comps_of in R'. cbn in R'. unfold physical_root in R'. change (match os_prefix os p with Some x => px_len x | None => 0 end) with (prefix_len c) in R'.
    destruct (skipn (prefix_len c) p) as [|k s] eqn:Es; [discriminate R'|].
    destruct (split_body (cs_sep os c) s) as (w & r & E & Nw & Sr). exists (ByRoot k), w, r.
    cbn [start_text start_ok body_ok]. repeat split; auto.
    - rewrite P at 1. cbn [app]. now rewrite E.
    - rewrite Lbb, Inc, HR, app_length. cbn. lia.
    - intros r' _. rewrite Lbb, <- app_assoc, Inc, HR, app_length. cbn. lia. }
  destruct (cs_has_root c) eqn:HR.
  { destruct (split_body (cs_sep os c) (skipn (prefix_len c) p)) as (w & r & E & Nw & Sr). exists ByPrefix, w, r.
    cbn [start_text start_ok body_ok app]. repeat split; auto.
    - rewrite P at 1. now rewrite E.
    - unfold cs_has_root in HR. rewrite R in HR. destruct (cs_prefix c) as [x|]; [|discriminate HR]. exists x. auto.
    - specialize (Inc []). rewrite app_nil_r in *. rewrite Lbb, Inc. lia.
    - intros r' _. rewrite app_nil_r, Lbb, Inc. lia. }
  assert (Imp : forall x, cs_prefix c = Some x -> px_implicit_root x = false).
  { intros x E. unfold cs_has_root in HR. now rewrite R, E in HR. }
  destruct (include_cur_dir os c) eqn:Ic.
  - assert (Ic' := Inc0). try rewrite HR in Ic'. try rewrite Ic in Ic'. symmetry in Ic'. unfold dotted in Ic'.
    assert (exists r, skipn (prefix_len c) p = B "." ++ tail r /\ seps (cs_sep os c) r) as (r & Er & Sr).
    { destruct (skipn (prefix_len c) p) as [|d [|b s]]; [discriminate Ic'| |].
      - apply Ascii.eqb_eq in Ic'. subst. exists []. split; [reflexivity|constructor].
      - apply andb_true_iff in Ic' as [Ed Eb]. apply Ascii.eqb_eq in Ed. subst.
        destruct (split_body (cs_sep os c) s) as (w & r & -> & Nw & Sr). exists ((b, w) :: r). split; [reflexivity|].
        constructor; auto. }
    exists ByDot, [], r. cbn [start_text start_ok body_ok]. repeat split; auto.
    + rewrite P at 1. now rewrite Er.
    + constructor.
    + rewrite Lbb, Inc, app_length. cbn. lia.
    + intros r' Sr'. rewrite Lbb, <- app_assoc, Inc. change (B "." ++ body [] r') with ("."%char :: tail r').
      rewrite (cur_empty c r' Sr'), app_length. cbn. lia.
  - destruct (split_body (cs_sep os c) (skipn (prefix_len c) p)) as (w & r & E & Nw & Sr).
    assert (W : w <> B ".").
    { intros ->. try rewrite HR in Inc0. try rewrite Ic in Inc0. rewrite E in Inc0.
      change (body (B ".") r) with ("."%char :: tail r) in Inc0. now rewrite (cur_empty c r Sr) in Inc0. }
    exists Plainly, w, r. cbn [start_text start_ok body_ok app]. repeat split; auto.
    + rewrite P at 1. now rewrite E.
    + specialize (Inc []). rewrite app_nil_r in *. rewrite Lbb, Inc. cbn [dotted]. lia.
    + intros r' Sr'. rewrite app_nil_r, Lbb, Inc, (no_cur c w r' Nw Sr' W). lia.
Qed.

(** ** [parent] *)
(** A path without its last part. *)
Definition up (v : bool) (head w : str) (r : list (ascii * str)) (st : start_kind) (no_prefix : bool) : option str :=
  match drop_idle v (rev r) with
  | _ :: q => Some (head ++ trimmed v w (rev q))
  | [] => if idle v w then match st with ByDot => if no_prefix then Some [] else None | _ => None end else Some head
  end.
Lemma drop_idle_incl v q x : In x (drop_idle v q) -> In x q.
Proof. induction q as [|[c y] q IH]; cbn; [auto|]. destruct (idle v y); cbn; auto. Qed.
Lemma drop_idle_head v q c x t : drop_idle v q = (c, x) :: t -> idle v x = false.
Proof. induction q as [|[d y] q IH]; cbn; [discriminate|]. destruct (idle v y) eqn:E; [auto|]. now intros [= <- <- <-]. Qed.
Lemma seps_drop f v r c x q : seps f r -> drop_idle v (rev r) = (c, x) :: q -> seps f (rev q) /\ f c = true /\ nosep f x.
Proof.
  intros S E. assert (I : forall t, In t ((c, x) :: q) -> In t r).
  { intros t I. apply in_rev. apply (drop_idle_incl v). now rewrite E. }
  unfold seps in *. rewrite Forall_forall in S. split; [|apply (S (c, x)), I; now left].
  apply Forall_forall. intros t Ht. apply S, I. right. now apply in_rev.
Qed.
Lemma parent_closed p st w r : p = pre_text p ++ start_text st ++ body w r ->
  start_ok (comps_of os p) st ->
  nosep (cs_sep os (comps_of os p)) w -> seps (cs_sep os (comps_of os p)) r ->
  stable (comps_of os p) (pre_text p ++ start_text st) w ->
  std_parent os p = up (prefix_verbatim (comps_of os p)) (pre_text p ++ start_text st) w r st (is_none (os_prefix os p)).
Proof.
  set (c := comps_of os p). intros P So Nw Sr St. unfold std_parent, next_back. fold c.
  set (head := pre_text p ++ start_text st) in *.
  assert (Ec : c = with_path c (head ++ body w r)).
  { unfold c, comps_of, with_path. cbn. unfold head. now rewrite <- app_assoc, <- P. }
  destruct (loop_body c head w r (fuel c) eq_refl eq_refl St Sr Nw) as (m & Hm & E).
  { unfold fuel. rewrite Ec. cbn [cs_path with_path]. rewrite app_length. lia. }
  rewrite <- Ec in E. rewrite E. clear E. unfold up.
  assert (Trim : forall r', seps (cs_sep os c) r' ->
    as_path os (with_path c (head ++ body w r')) = head ++ trimmed (prefix_verbatim c) w r').
  { intros r' Sr'. unfold as_path. cbn [cs_front cs_back with_path c comps_of]. unfold trim_right.
    rewrite (trim_right_body c head w r'); auto. cbn [cs_path with_path]. rewrite app_length. lia. }
  destruct (drop_idle (prefix_verbatim c) (rev r)) as [|[k x] q] eqn:D.
  - destruct (idle (prefix_verbatim c) w) eqn:I.
    + (* no part in the body *)
      assert (5 <= S m) by (unfold fuel in Hm; rewrite Ec in Hm; cbn [cs_path with_path] in Hm; rewrite app_length in Hm; lia).
      do 2 (destruct m as [|m]; [lia|]). cbn [loop]. unfold finished at 1. cbn [cs_front cs_back with_back with_path c comps_of stage_rank Nat.ltb].
      change (Nat.ltb 1 0) with false. cbv iota.
      unfold back_turn at 1. cbn [cs_back with_back]. unfold start_part.
      change (cs_root (with_back (with_back (with_path c head) AtStart) AtPrefix)) with (cs_root c).
      change (cs_prefix (with_back (with_back (with_path c head) AtStart) AtPrefix)) with (cs_prefix c).
      destruct st; cbn [start_ok] in So.
      * destruct So as [-> _]. reflexivity.
      * destruct So as [-> (y & Ep & Im)]. rewrite Ep, Im. cbn [andb]. destruct (px_verbatim y) eqn:V; cbn [negb]; [|reflexivity].
        cbn [loop]. unfold finished. cbn [cs_front cs_back with_back with_path c comps_of stage_rank Nat.ltb].
        unfold back_turn. cbn [cs_back with_back with_path]. change (cs_prefix (with_back (with_back (with_path c head) AtStart) AtPrefix)) with (cs_prefix c).
        rewrite Ep. now destruct (Nat.ltb 0 (px_len y)).
      * destruct So as [-> Im]. destruct (cs_prefix c) as [y|] eqn:Ep.
        { rewrite (Im y eq_refl). cbn [andb]. change (cs_prefix c) with (os_prefix os p) in Ep. rewrite Ep. cbn [is_none].
          cbn [loop]. unfold finished. cbn [cs_front cs_back with_back with_path c comps_of stage_rank Nat.ltb].
          unfold back_turn. cbn [cs_back with_back with_path]. change (cs_prefix (with_back (with_back (with_path c head) AtStart) AtPrefix)) with (os_prefix os p).
          rewrite Ep. now destruct (Nat.ltb 0 (px_len y)). }
        assert (Pl : prefix_len c = 0) by (unfold prefix_len; now rewrite Ep).
        assert (Hh : head = B ".") by (unfold head, pre_text; fold c; rewrite Pl; reflexivity).
        assert (HR : cs_has_root c = false).
        { unfold cs_has_root. rewrite Ep. destruct (cs_root c) eqn:R; [|reflexivity]. exfalso.
          unfold c, comps_of in R. cbn in R. change (cs_prefix c) with (os_prefix os p) in Ep. rewrite Ep in R.
          unfold physical_root in R. cbn in R. fold c in P. unfold pre_text in P. fold c in P. rewrite Pl in P. cbn in P.
          rewrite P in R. change (os_sep os "." = true) in R. now rewrite (sane_dot os Sane) in R. }
        assert (Ic : include_cur_dir os (with_back (with_back (with_path c head) AtStart) AtPrefix) = true).
        { unfold include_cur_dir. change (cs_has_root (with_back (with_back (with_path c head) AtStart) AtPrefix)) with (cs_has_root c).
          rewrite HR. change (prefix_remaining (with_back (with_back (with_path c head) AtStart) AtPrefix)) with (prefix_len c).
          rewrite Pl. cbn [cs_path with_back with_path skipn]. now rewrite Hh. }
        rewrite Ic. change (cs_prefix c) with (os_prefix os p) in Ep. rewrite Ep. cbn [is_none].
        unfold as_path, drop_back. cbn [cs_front cs_back with_back with_path c comps_of cs_path]. now rewrite Hh.
      * destruct So as [-> Im]. destruct (cs_prefix c) as [y|] eqn:Ep.
        { rewrite (Im y eq_refl). cbn [andb].
          cbn [loop]. unfold finished. cbn [cs_front cs_back with_back with_path c comps_of stage_rank Nat.ltb].
          unfold back_turn. cbn [cs_back with_back with_path]. change (cs_prefix (with_back (with_back (with_path c head) AtStart) AtPrefix)) with (cs_prefix c).
          rewrite Ep. now destruct (Nat.ltb 0 (px_len y)). }
        assert (Ic : include_cur_dir os (with_back (with_back (with_path c head) AtStart) AtPrefix) = false).
        { assert (L := proj1 St). unfold len_before_body in L. change (prefix_remaining (with_path c head)) with (prefix_len c) in L.
          change (include_cur_dir os (with_path c head)) with (include_cur_dir os (with_back (with_back (with_path c head) AtStart) AtPrefix)) in L.
          destruct (include_cur_dir os _); [|reflexivity]. exfalso. cbn [before_body cs_front with_path c comps_of andb] in L.
          unfold head in L. cbn [start_text] in L. rewrite app_nil_r, pre_len in L. fold c in L. lia. }
        rewrite Ic. cbn [loop]. unfold finished. cbn [cs_front cs_back with_back with_path c comps_of stage_rank Nat.ltb].
        unfold back_turn. cbn [cs_back with_back with_path]. change (cs_prefix (with_back (with_back (with_path c head) AtStart) AtPrefix)) with (cs_prefix c).
        now rewrite Ep.
    + assert (as_path os (with_path c head) = head) as A.
      { unfold as_path. cbn [cs_front cs_back with_path c comps_of]. unfold trim_right. cbn [cs_path with_path].
        destruct (length head) eqn:Lh; cbn [trim_right_fuel]; [reflexivity|].
        rewrite (proj1 St). cbn [cs_path with_path]. now rewrite Nat.ltb_irrefl. }
      unfold idle in I. destruct (sing (prefix_verbatim c) w) as [y|] eqn:Y; [|discriminate I].
      assert (Z : match y with Name _ | Cur | Up => True | _ => False end).
      { unfold sing in Y. repeat match type of Y with context [if ?b then _ else _] => destruct b end; inversion Y; exact Logic.I. }
      destruct y; try contradiction; now rewrite A.
  - assert (I := drop_idle_head _ _ _ _ _ D). destruct (seps_drop _ _ _ _ _ _ Sr D) as (Sq & _).
    unfold idle in I. destruct (sing (prefix_verbatim c) x) as [y|] eqn:Y; [|discriminate I].
    assert (Z : match y with Name _ | Cur | Up => True | _ => False end).
    { unfold sing in Y. repeat match type of Y with context [if ?b then _ else _] => destruct b end; inversion Y; exact Logic.I. }
    destruct y; try contradiction; now rewrite Trim.
Qed.

(** ** All parts *)
Definition singles (v : bool) (l : list str) : list part :=
  flat_map (fun w => match sing v w with Some q => [q] | None => [] end) l.
Definition bare (q : part) : part := match q with Pre _ x => Pre [] x | _ => q end.
Definition pre_parts (c : comps) : list part := match cs_prefix c with Some x => [Pre [] x] | None => [] end.
Definition start_parts (c : comps) (st : start_kind) : list part :=
  match st with
  | ByRoot _ => [Root]
  | ByPrefix => if prefix_verbatim c then [] else [Root]
  | ByDot => match cs_prefix c with None => [Cur] | Some _ => [] end
  | Plainly => []
  end.
Lemma px_len_pos x : Nat.ltb 0 (px_len x) = true.
Proof. destruct x; reflexivity. Qed.

Lemma back_at_prefix c n : cs_front c = AtPrefix -> cs_back c = AtPrefix -> 1 <= n ->
  map bare (collect (next_back os) n c) = pre_parts c.
Proof.
  intros F Bk Hn. destruct n as [|n]; [lia|]. cbn [collect].
  assert (N : next_back os c = match cs_prefix c with Some x => (Some (Pre (cs_path c) x), with_back c AtDone) | None => (None, with_back c AtDone) end).
  { unfold next_back, fuel. rewrite Nat.add_comm. cbn [Nat.add loop]. unfold finished at 1. rewrite F, Bk. change (Nat.ltb (stage_rank AtPrefix) (stage_rank AtPrefix)) with false.
    unfold back_turn. rewrite Bk. destruct (cs_prefix c) as [x|]; [rewrite px_len_pos|]; reflexivity. }
  rewrite N. unfold pre_parts. destruct (cs_prefix c) as [x|]; [|reflexivity]. cbn [map bare]. f_equal.
  destruct n as [|n]; [reflexivity|]. cbn [collect]. unfold next_back, fuel. rewrite Nat.add_comm. cbn [Nat.add loop].
  unfold finished. cbn [cs_front cs_back with_back]. now rewrite F.
Qed.

Section Parts.
Context (p : str) (st : start_kind) (w : str) (r : list (ascii * str)).
Let c := comps_of os p.
Let head := pre_text p ++ start_text st.
Hypothesis P : p = pre_text p ++ start_text st ++ body w r.
Hypothesis So : start_ok c st.
Hypothesis Nw : nosep (cs_sep os c) w.
Hypothesis Sr : seps (cs_sep os c) r.
Hypothesis St : stable c head w.

Lemma head_cur : include_cur_dir os (with_path c head) = match st with ByDot => true | _ => false end.
Proof.
  assert (L := proj1 St). unfold len_before_body in L. change (prefix_remaining (with_path c head)) with (prefix_len c) in L.
  cbn [before_body cs_front with_path c comps_of andb] in L.
  change (cs_root (with_path c head)) with (cs_root c) in L. unfold head at 2 in L. rewrite app_length, pre_len in L. fold c in L.
  destruct st; cbn [start_ok] in So; destruct So as [R _]; rewrite R in L; cbn [start_text length] in L;
    try (destruct (include_cur_dir os (with_path c head)); [cbn in L; lia|reflexivity]).
  destruct (include_cur_dir os (with_path c head)); [reflexivity|cbn in L; lia].
Qed.
Lemma loop_head m : loop (back_turn os) (S m) (with_path c head) = loop (back_turn os) m (with_back (with_path c head) AtStart).
Proof.
  cbn [loop]. unfold finished at 1. cbn [cs_front cs_back with_path c comps_of]. change (Nat.ltb (stage_rank AtBody) (stage_rank AtPrefix)) with false. cbv iota.
  unfold back_turn at 1. change (cs_back (with_path c head)) with AtBody. cbv iota. rewrite (proj1 St).
  change (cs_path (with_path c head)) with head. now rewrite Nat.ltb_irrefl.
Qed.
(** At the start. *)
Lemma collect_start m n : 1 <= m -> 2 <= n ->
  map bare (match loop (back_turn os) (S m) (with_back (with_path c head) AtStart) with
            | (Some q, c') => q :: collect (next_back os) n c' | (None, _) => [] end)
  = rev (pre_parts c ++ start_parts c st).
Proof.
  intros Hm Hn. cbn [loop]. unfold finished at 1. cbn [cs_front cs_back with_back with_path c comps_of].
  change (Nat.ltb (stage_rank AtStart) (stage_rank AtPrefix)) with false. cbv iota.
  unfold back_turn at 1. cbn [cs_back with_back]. unfold start_part.
  change (include_cur_dir os (with_back (with_back (with_path c head) AtStart) AtPrefix)) with (include_cur_dir os (with_path c head)).
  rewrite head_cur.
  change (cs_root (with_back (with_back (with_path c head) AtStart) AtPrefix)) with (cs_root c).
  change (cs_prefix (with_back (with_back (with_path c head) AtStart) AtPrefix)) with (cs_prefix c).
  set (c1 := with_back (with_back (with_path c head) AtStart) AtPrefix).
  assert (Pp : forall k, map bare (collect (next_back os) n (drop_back c1 k)) = pre_parts c).
  { intros k. now rewrite (back_at_prefix (drop_back c1 k) n eq_refl eq_refl) by lia. }
  assert (Q : map bare (match loop (back_turn os) m c1 with (Some q, c') => q :: collect (next_back os) n c' | (None, _) => [] end) = pre_parts c).
  { destruct m as [|m]; [lia|]. cbn [loop]. unfold finished at 1. cbn [cs_front cs_back c1 with_back with_path c comps_of].
    change (Nat.ltb (stage_rank AtPrefix) (stage_rank AtPrefix)) with false. cbv iota.
    unfold back_turn at 1. cbn [cs_back c1 with_back]. change (cs_prefix c1) with (cs_prefix c). unfold pre_parts.
    destruct (cs_prefix c) as [x|]; [|reflexivity]. rewrite px_len_pos. cbn [map bare]. f_equal.
    destruct n as [|n]; [reflexivity|]. cbn [collect]. unfold next_back, fuel. rewrite Nat.add_comm. reflexivity. }
  assert (One : forall k q, map bare (q :: collect (next_back os) n (drop_back c1 k)) = bare q :: pre_parts c)
    by (intros k q; cbn [map]; now rewrite Pp).
  assert (RevP : forall l, rev (pre_parts c ++ l) = rev l ++ pre_parts c).
  { intros l. rewrite rev_app_distr. f_equal. unfold pre_parts. now destruct (cs_prefix c). }
  destruct st; cbn [start_ok] in So.
  - destruct So as [-> _]. rewrite One, RevP. reflexivity.
  - destruct So as [-> (y & Ep & Im)]. unfold start_parts, prefix_verbatim. rewrite Ep, Im. cbn [andb].
    destruct (px_verbatim y); cbn [negb]; [rewrite Q, RevP|rewrite One, RevP]; reflexivity.
  - destruct So as [-> Im]. unfold start_parts. destruct (cs_prefix c) as [y|] eqn:Ep.
    + rewrite (Im y eq_refl). cbn [andb]. rewrite Q, RevP. reflexivity.
    + rewrite One, RevP. reflexivity.
  - destruct So as [-> Im]. unfold start_parts. destruct (cs_prefix c) as [y|] eqn:Ep.
    + rewrite (Im y eq_refl). cbn [andb]. rewrite Q, RevP. reflexivity.
    + rewrite Q, RevP. reflexivity.
Qed.
Lemma singles_app v a b : singles v (a ++ b) = singles v a ++ singles v b.
Proof. apply flat_map_app. Qed.
Lemma singles_drop v q : singles v (map snd q) = singles v (map snd (drop_idle v q)).
Proof.
  induction q as [|[k x] q IH]; [reflexivity|]. cbn [map drop_idle snd]. unfold idle.
  destruct (sing v x) eqn:E; cbn [is_none]; [reflexivity|]. rewrite <- IH. cbn. now rewrite E.
Qed.
Lemma singles_rev v l : singles v (rev l) = rev (singles v l).
Proof.
  induction l as [|x l IH]; [reflexivity|]. cbn [rev]. rewrite singles_app, IH. cbn. rewrite app_nil_r.
  destruct (sing v x); cbn; [reflexivity|now rewrite app_nil_r].
Qed.
Lemma bare_singles v l : map bare (singles v l) = singles v l.
Proof.
  induction l as [|x l IH]; [reflexivity|]. unfold singles in *. cbn [flat_map]. rewrite map_app, IH. f_equal.
  unfold sing. repeat match goal with |- context [if ?b then _ else _] => destruct b end; reflexivity.
Qed.
Lemma collect_head n : 3 <= n ->
  map bare (collect (next_back os) n (with_path c head)) = rev (pre_parts c ++ start_parts c st).
Proof.
  intros Hn. destruct n as [|n]; [lia|]. cbn [collect]. unfold next_back at 1, fuel at 1. cbn [cs_path with_path].
  replace (length head + 5) with (S (S (length head + 3))) by lia. rewrite loop_head.
  apply (collect_start (length head + 3) n); lia.
Qed.
Lemma collect_body q n : seps (cs_sep os c) q -> length q + 4 <= n ->
  map bare (collect (next_back os) n (with_path c (head ++ body w q)))
  = rev (pre_parts c ++ start_parts c st ++ singles (prefix_verbatim c) (w :: map snd q)).
Proof.
  revert q. induction n as [|n IH]; intros q Sq Hn; [lia|]. cbn [collect]. unfold next_back at 1.
  set (k := fuel (with_path c (head ++ body w q))).
  assert (Hk : k = length head + length (body w q) + 5) by (unfold k, fuel; cbn [cs_path with_path]; now rewrite app_length).
  destruct (loop_body c head w q k eq_refl eq_refl St Sq Nw) as (m & Hm & ->); [lia|].
  set (v := prefix_verbatim c) in *.
  assert (E : singles v (w :: map snd q) = rev (singles v (map snd (drop_idle v (rev q))) ++ singles v [w])).
  { change (w :: map snd q) with ([w] ++ map snd q). rewrite singles_app, rev_app_distr.
    rewrite <- singles_drop, map_rev, singles_rev, rev_involutive. f_equal.
    unfold singles. cbn. now destruct (sing v w). }
  rewrite E, app_assoc, (rev_app_distr (pre_parts c ++ start_parts c st)), rev_involutive. clear E.
  destruct (drop_idle v (rev q)) as [|[d x] t] eqn:D.
  - cbn [map]. change (singles v []) with (@nil part). cbn [app]. unfold singles. cbn [flat_map]. unfold idle.
    destruct (sing v w) as [y|] eqn:Y; cbn [is_none app].
    + cbn [map]. rewrite collect_head by lia. f_equal.
      unfold sing in Y. repeat match type of Y with context [if ?b then _ else _] => destruct b end; inversion Y; reflexivity.
    + destruct m as [|m]; [lia|]. assert (1 <= m) by lia.
      apply collect_start; lia.
  - assert (I := drop_idle_head _ _ _ _ _ D). destruct (seps_drop _ _ _ _ _ _ Sq D) as (St' & _).
    unfold idle in I. destruct (sing v x) as [y|] eqn:Y; [|discriminate I].
    cbn [map]. rewrite IH; auto.
    + cbn [map snd]. unfold singles at 2. cbn [flat_map]. rewrite Y. cbn [app].
      replace (bare y) with y.
      * f_equal. change (flat_map (fun w0 => match sing v w0 with Some q0 => [q0] | None => [] end) (map snd t)) with (singles v (map snd t)).
        change (w :: map snd (rev t)) with ([w] ++ map snd (rev t)).
        rewrite singles_app, map_rev, singles_rev, app_assoc, rev_app_distr, rev_app_distr, rev_involutive. do 2 f_equal.
        unfold singles. cbn. now destruct (sing v w).
      * unfold sing in Y. repeat match type of Y with context [if ?b then _ else _] => destruct b end; inversion Y; reflexivity.
    + rewrite rev_length. assert (length ((d, x) :: t) <= length q).
      { rewrite <- D, <- (rev_length q). clear. induction (rev q) as [|[a b] l IH]; cbn; [lia|]. destruct (idle v b); cbn; lia. }
      cbn in H. lia.
Qed.

(** ** From the front *)
Lemma sing_plain v x q : sing v x = Some q -> bare q = q.
Proof.
  unfold sing. repeat match goal with |- context [if ?b then _ else _] => destruct b end; intros [= <-]; reflexivity.
Qed.
Lemma front_first d a k b : cs_path d = a ++ k :: b -> cs_sep os d k = true -> nosep (cs_sep os d) a ->
  parse_next os d = (S (length a), single d a) /\ drop_front d (S (length a)) = with_path d b.
Proof.
  intros E K N. unfold parse_next. rewrite E, (position_app _ a k b N K), (firstn_app_len a _ _ eq_refl).
  split; [reflexivity|]. unfold drop_front. rewrite E. f_equal.
  replace (a ++ k :: b) with ((a ++ [k]) ++ b) by now rewrite <- app_assoc.
  apply skipn_app_len. rewrite app_length. cbn. lia.
Qed.
Lemma front_only d a : cs_path d = a -> nosep (cs_sep os d) a ->
  parse_next os d = (length a, single d a) /\ drop_front d (length a) = with_path d [].
Proof.
  intros E N. unfold parse_next. rewrite E, (position_none _ a N). split; [reflexivity|].
  unfold drop_front. rewrite E. f_equal. apply skipn_all.
Qed.
Lemma loop_front d : cs_front d = AtBody -> cs_back d = AtBody -> forall y x k,
  seps (cs_sep os d) y -> nosep (cs_sep os d) x -> length (body x y) + 2 <= k ->
  match loop (next_turn os) k (with_path d (body x y)) with
  | (Some q, d') => exists x' y', d' = with_path d (body x' y') /\ seps (cs_sep os d) y' /\ nosep (cs_sep os d) x'
                      /\ singles (prefix_verbatim d) (x :: map snd y) = q :: singles (prefix_verbatim d) (x' :: map snd y')
  | (None, _) => singles (prefix_verbatim d) (x :: map snd y) = []
  end.
Proof.
  intros F Bk. set (v := prefix_verbatim d).
  assert (Fin : forall s, finished (with_path d s) = false) by (intros s; unfold finished; cbn; now rewrite F, Bk).
  assert (End : forall k, 2 <= k -> exists d', loop (next_turn os) k (with_path d []) = (None, d')).
  { intros k Hk. do 2 (destruct k as [|k]; [lia|]). cbn [loop]. rewrite Fin. unfold next_turn at 1.
    change (cs_front (with_path d [])) with (cs_front d). rewrite F. cbn [is_empty cs_path with_path].
    cbn [finished cs_front with_front]. eexists. reflexivity. }
  assert (Tk : forall s k, is_empty s = false -> 1 <= k -> loop (next_turn os) k (with_path d s)
    = match parse_next os (with_path d s) with
      | (size, Some q) => (Some q, drop_front (with_path d s) size)
      | (size, None) => loop (next_turn os) (k - 1) (drop_front (with_path d s) size) end).
  { intros s k E Hk. destruct k as [|k]; [lia|]. cbn [loop]. rewrite Fin. unfold next_turn at 1.
    change (cs_front (with_path d s)) with (cs_front d). rewrite F. change (cs_path (with_path d s)) with s. rewrite E.
    destruct (parse_next os (with_path d s)) as [size [q|]]; [reflexivity|]. replace (S k - 1) with k by lia. reflexivity. }
  induction y as [|[k0 z] y IH]; intros x k Sy Nx Hk.
  - unfold body in *. cbn [tail flat_map map] in *. rewrite app_nil_r in *. destruct (is_empty x) eqn:Ex.
    + apply is_empty_true in Ex. subst. destruct (End k) as [d' ->]; [cbn in Hk; lia|]. reflexivity.
    + rewrite (Tk x k Ex) by lia.
      destruct (front_only (with_path d x) x eq_refl Nx) as [-> ->]. rewrite single_sing, with_path_same.
      change (prefix_verbatim (with_path d x)) with v. unfold singles. cbn [flat_map].
      destruct (sing v x) as [q|] eqn:Q.
      * exists [], []. repeat split; constructor.
      * destruct x as [|a x]; [discriminate Ex|]. destruct (End (k - 1)) as [d' ->]; [cbn in Hk; lia|]. reflexivity.
  - inversion Sy as [|? ? [K Nz] Sy']; subst. cbn [fst snd] in *.
    assert (Eb : body x ((k0, z) :: y) = x ++ k0 :: body z y) by reflexivity. rewrite Eb in *.
    rewrite (Tk _ k (is_empty_app_cons x k0 _)) by lia.
    destruct (front_first (with_path d (x ++ k0 :: body z y)) x k0 (body z y) eq_refl K Nx) as [-> ->].
    rewrite single_sing, with_path_same. change (prefix_verbatim (with_path d (x ++ k0 :: body z y))) with v.
    change (singles v (x :: map snd ((k0, z) :: y))) with (match sing v x with Some q => [q] | None => [] end ++ singles v (z :: map snd y)).
    destruct (sing v x) as [q|] eqn:Q.
    + exists z, y. repeat split; auto.
    + cbn [app]. apply IH; auto. rewrite app_length in Hk. cbn [length] in Hk. lia.
Qed.
Lemma collect_front d : cs_front d = AtBody -> cs_back d = AtBody -> forall n x y,
  seps (cs_sep os d) y -> nosep (cs_sep os d) x -> length (singles (prefix_verbatim d) (x :: map snd y)) < n ->
  collect (next os) n (with_path d (body x y)) = singles (prefix_verbatim d) (x :: map snd y).
Proof.
  intros F Bk. induction n as [|n IH]; intros x y Sy Nx Hn; [lia|]. cbn [collect]. unfold next at 1.
  assert (L := loop_front d F Bk y x (fuel (with_path d (body x y))) Sy Nx). unfold fuel in *. cbn [cs_path with_path] in *.
  specialize (L ltac:(lia)). destruct (loop _ _ _) as [[q|] d'].
  - destruct L as (x' & y' & -> & Sy' & Nx' & E). rewrite E in *. f_equal. apply IH; auto. cbn [length] in Hn. lia.
  - now rewrite L.
Qed.
Lemma singles_length v x y : length (singles v (x :: map snd y)) <= length (body x y).
Proof.
  assert (A : forall z, length (match sing v z with Some q => [q] | None => [] end) <= length z).
  { intros z. destruct z; [cbn; lia|]. destruct (sing v (a :: z)); cbn; lia. }
  unfold body, singles. cbn [flat_map]. rewrite !app_length. specialize (A x) as Ax.
  assert (length (flat_map (fun z => match sing v z with Some q => [q] | None => [] end) (map snd y)) <= length (tail y)).
  { clear Ax. induction y as [|[k z] y IH]; [cbn; lia|]. cbn [map flat_map tail fst snd]. cbn [app length]. rewrite !app_length.
    specialize (A z). fold (tail y). lia. }
  lia.
Qed.

Hypothesis Bo : body_ok c st w.
Definition pre_parts_raw : list part := match cs_prefix c with Some x => [Pre (pre_text p) x] | None => [] end.
Lemma front_at_start d n : d = mkComps (start_text st ++ body w r) (cs_prefix c) (cs_root c) AtStart AtBody -> length d.(cs_path) + 2 <= n ->
  collect (next os) n d = start_parts c st ++ singles (prefix_verbatim c) (w :: map snd r)
  /\ forall m, m = length (cs_path d) + 4 ->
     match loop (next_turn os) m d with (Some q, d') => q :: collect (next os) (n - 1) d' | (None, _) => [] end
     = start_parts c st ++ singles (prefix_verbatim c) (w :: map snd r).
Proof.
  clear St. intros Ed Hn.
  assert (X : forall m, length (cs_path d) + 4 <= m ->
     match loop (next_turn os) m d with (Some q, d') => q :: collect (next os) (n - 1) d' | (None, _) => [] end
     = start_parts c st ++ singles (prefix_verbatim c) (w :: map snd r)).
  { intros m Hm. destruct m as [|m]; [lia|].
    set (d0 := mkComps (start_text st ++ body w r) (cs_prefix c) (cs_root c) AtBody AtBody).
    assert (Go : forall x y k, seps (cs_sep os c) y -> nosep (cs_sep os c) x -> length (body x y) + 2 <= k -> length (body x y) < n ->
      match loop (next_turn os) k (with_path d0 (body x y)) with (Some q, d') => q :: collect (next os) (n - 1) d' | (None, _) => [] end
      = singles (prefix_verbatim c) (x :: map snd y)).
    { intros x y k Sy Nx Hk Hn'. assert (L := loop_front d0 eq_refl eq_refl y x k Sy Nx Hk). assert (SL := singles_length (prefix_verbatim c) x y).
      destruct (loop _ _ _) as [[q|] d'].
      - destruct L as (x' & y' & -> & Sy' & Nx' & E). change (prefix_verbatim d0) with (prefix_verbatim c) in E. rewrite E in *. f_equal.
        apply (collect_front d0 eq_refl eq_refl); auto. change (prefix_verbatim d0) with (prefix_verbatim c). cbn [length] in SL. lia.
      - now rewrite <- L. }
    assert (Co : forall x y, seps (cs_sep os c) y -> nosep (cs_sep os c) x -> length (body x y) + 1 < n ->
      collect (next os) (n - 1) (with_path d0 (body x y)) = singles (prefix_verbatim c) (x :: map snd y)).
    { intros x y Sy Nx Hn'. assert (SL := singles_length (prefix_verbatim c) x y).
      apply (collect_front d0 eq_refl eq_refl); auto. change (prefix_verbatim d0) with (prefix_verbatim c). lia. }
    subst d. cbn [cs_path] in *. cbn [loop]. unfold finished at 1. cbn [cs_front cs_back]. change (Nat.ltb (stage_rank AtBody) (stage_rank AtStart)) with false.
    unfold next_turn at 1. cbn [cs_front]. change (with_front (mkComps (start_text st ++ body w r) (cs_prefix c) (cs_root c) AtStart AtBody) AtBody) with d0.
    unfold start_part. change (cs_root d0) with (cs_root c). change (cs_prefix d0) with (cs_prefix c).
    rewrite app_length in *. destruct st; cbn [start_ok body_ok start_text] in *.
    - destruct So as [-> _]. cbn [start_parts app]. f_equal. change (drop_front d0 1) with (with_path d0 (body w r)).
      apply Co; auto. try change (length (B ".")) with 1 in *. cbn [length] in *. lia.
    - destruct So as [-> (z & Ep & Im)]. unfold start_parts. unfold prefix_verbatim at 1. rewrite Ep, Im. cbn [andb]. destruct (px_verbatim z) eqn:V; cbn [negb app].
      + apply (Go w r); auto; cbn [length] in *; lia.
      + f_equal. change (drop_front d0 0) with (with_path d0 (body w r)). apply Co; auto. try change (length (B ".")) with 1 in *. cbn [length] in *. lia.
    - destruct So as [-> Im]. subst w. unfold start_parts. destruct (cs_prefix c) as [z|] eqn:Ep.
      + rewrite (Im z eq_refl). cbn [andb app].
        assert (V : prefix_verbatim c = false).
        { unfold prefix_verbatim. rewrite Ep. specialize (Im z eq_refl). destruct z; try discriminate Im; reflexivity. }
        assert (G := Go (B ".") r m Sr). change (with_path d0 (body (B ".") r)) with d0 in G.
        rewrite V in *. change (singles false (B "." :: map snd r)) with (singles false ([] :: map snd r)) in G.
        apply G; [constructor; [apply sep_dot|constructor]| |]; change (body (B ".") r) with ("."%char :: body [] r); cbn [length] in *; lia.
      + assert (Ic : include_cur_dir os d0 = true).
        { unfold include_cur_dir, cs_has_root. cbn [cs_root cs_prefix d0]. rewrite (proj1 So). cbn [orb].
          change (prefix_remaining d0) with 0. cbn [skipn]. change (cs_path d0) with ("."%char :: tail r).
          apply (cur_empty d0 r). unfold cs_sep, prefix_verbatim in *. cbn [cs_prefix d0]. now rewrite Ep in Sr. }
        rewrite Ic. cbn [app]. f_equal. change (drop_front d0 1) with (with_path d0 (body [] r)). apply Co; auto. try change (length (B ".")) with 1 in *. cbn [length] in *. lia.
    - destruct So as [-> Im]. unfold start_parts. cbn [app] in *. destruct (cs_prefix c) as [z|] eqn:Ep.
      + rewrite (Im z eq_refl). cbn [andb app]. apply (Go w r); auto; cbn [length] in *; lia.
      + assert (Ic : include_cur_dir os d0 = false).
        { unfold include_cur_dir. destruct (cs_has_root d0); [reflexivity|]. change (prefix_remaining d0) with 0. cbn [skipn].
          apply (no_cur d0 w r); [| |exact Bo]; unfold cs_sep, prefix_verbatim in *; cbn [cs_prefix d0]; now rewrite Ep in *. }
        rewrite Ic. apply (Go w r); auto; cbn [length] in *; lia. }
  split; [|intros m ->; apply X; lia].
  destruct n as [|n]; [lia|]. cbn [collect]. replace (S n - 1) with n in X by lia. apply X. unfold fuel. lia.
Qed.
Lemma parts_front : parts os p = pre_parts_raw ++ start_parts c st ++ singles (prefix_verbatim c) (w :: map snd r).
Proof.
  clear St. unfold parts. fold c. set (d := mkComps (start_text st ++ body w r) (cs_prefix c) (cs_root c) AtStart AtBody).
  assert (Lp : length p = length (pre_text p) + length (cs_path d)) by (rewrite P at 1; now rewrite app_length).
  assert (Sk : forall x, cs_prefix c = Some x -> skipn (px_len x) p = start_text st ++ body w r /\ firstn (px_len x) p = pre_text p).
  { intros x E. assert (L := pre_len p). fold c in L. unfold prefix_len in L. rewrite E in L. split.
    - rewrite P at 1. apply skipn_app_len. now rewrite L.
    - unfold pre_text, prefix_len. fold c. now rewrite E. }
  replace (length p + 4) with (S (length p + 3)) at 1 by lia. cbn [collect]. unfold next at 1, fuel at 1. change (cs_path c) with p.
  replace (length p + 5) with (S (length p + 4)) by lia. cbn [loop]. unfold finished at 1.
  cbn [cs_front cs_back c comps_of]. change (Nat.ltb (stage_rank AtBody) (stage_rank AtPrefix)) with false. cbv iota.
  unfold next_turn at 1. change (cs_front c) with AtPrefix. cbv iota. unfold pre_parts_raw.
  destruct (cs_prefix c) as [x|] eqn:Ep.
  - rewrite px_len_pos. change (cs_path c) with p. destruct (Sk x eq_refl) as [S1 S2]. rewrite S2. cbn [app]. f_equal.
    replace (drop_front (with_front c AtStart) (px_len x)) with d.
    + apply front_at_start; [unfold d; now rewrite Ep|]. lia.
    + unfold d, drop_front, with_path, with_front. cbn [cs_path cs_prefix cs_root cs_front cs_back]. change (cs_path c) with p. rewrite S1, Ep. reflexivity.
  - cbn [app]. assert (E0 : pre_text p = []) by (unfold pre_text, prefix_len; fold c; rewrite Ep; reflexivity).
    replace (with_front c AtStart) with d.
    + assert (F := front_at_start d (length p + 4)). rewrite Ep in *. fold d in F. specialize (F eq_refl ltac:(lia)) as [_ F].
      replace (length p + 3) with (length p + 4 - 1) by lia. apply F. rewrite E0 in Lp. cbn [length Nat.add] in Lp. lia.
    + unfold d, with_front. change (cs_path c) with p. rewrite P, E0 at 1. rewrite Ep. reflexivity.
Qed.
Lemma parts_both : map bare (parts_back os p) = rev (map bare (parts os p)).
Proof.
  unfold parts_back. fold c. assert (E : c = with_path c (head ++ body w r)).
  { unfold c, comps_of, with_path. cbn. unfold head. now rewrite <- app_assoc, <- P. }
  rewrite E at 1. rewrite (collect_body r); auto.
  - rewrite parts_front, !map_app, bare_singles. f_equal. f_equal; [unfold pre_parts, pre_parts_raw; now destruct (cs_prefix c)|].
    f_equal. unfold start_parts. destruct st; try reflexivity; [destruct (prefix_verbatim c)|destruct (cs_prefix c)]; reflexivity.
  - assert (length r <= length p); [|lia]. rewrite P, !app_length. unfold body. rewrite app_length.
    assert (length r <= length (tail r)); [|lia].
    clear. induction r as [|[k x] y IH]; [cbn; lia|]. cbn [tail flat_map fst snd app length]. rewrite app_length. fold (tail y). lia.
Qed.
End Parts.
End Machine.
