(** Lemmas about Debug output on several lines. *)
From Verif.Model Require Import Base Str Error JsonText DebugText PrettyText.
From Verif.Spec Require Import StrSpec Utf8Spec JsonSpec DebugTextSpec DebugLayoutSpec PrettySpec.
From Verif.Proof Require Import StrFacts Utf8Proof LossyProof JsonProof DebugTextProof DebugTreeProof DebugLayoutProof.

#[local] Arguments B : simpl never.

(** ** The adapter *)
Definition after (on : bool) (s : str) : bool := fold_left (fun _ c => Ascii.eqb c line_feed) s on.
Lemma pad_app on a b : pad on (a ++ b) = pad on a ++ pad (after on a) b.
Proof. revert on. induction a as [|c a IH]; intros on; cbn [app pad after fold_left]; [reflexivity|]. rewrite <- app_assoc. cbn [app]. now rewrite IH. Qed.
Lemma after_app on a b : after on (a ++ b) = after (after on a) b.
Proof. apply fold_left_app. Qed.
Lemma pad_on s : s <> [] -> pad true s = B "    " ++ pad false s.
Proof. now destruct s. Qed.
Definition one_line (s : str) : Prop := ~ In line_feed s.
Lemma pad_line s : one_line s -> pad false s = s /\ after false s = false.
Proof.
  unfold one_line. induction s as [|c s IH]; intros H; [now split|]. cbn [pad after fold_left app].
  destruct (Ascii.eqb_spec c line_feed) as [->|N]; [now destruct H; left|]. destruct IH as [-> IH]; [intros K; apply H; now right|]. now split.
Qed.
Lemma line_of s : in_line s -> one_line s.
Proof. unfold in_line. rewrite Forall_forall. intros F I. apply F in I as [L _]. now apply L. Qed.
Lemma margin_S d : margin (S d) = B "    " ++ margin d.
Proof. unfold margin. rewrite Nat.mul_succ_r, Nat.add_comm. reflexivity. Qed.
Lemma margin_end d : margin (S d) = margin d ++ B "    ".
Proof. unfold margin. rewrite Nat.mul_succ_r, repeat_app. reflexivity. Qed.
Lemma margin_line d : one_line (margin d).
Proof. intros I. apply repeat_spec in I. discriminate I. Qed.

(** [s'] is [s] one level deeper. *)
Definition shifts (s s' : str) : Prop := pad false s = s' /\ after false s = false.
Lemma shifts_app a a' b b' : shifts a a' -> shifts b b' -> shifts (a ++ b) (a' ++ b').
Proof. intros [A1 A2] [B1 B2]. split; [now rewrite pad_app, A2, A1, B1|now rewrite after_app, A2]. Qed.
Lemma shifts_line s : one_line s -> shifts s s.
Proof. exact (pad_line s). Qed.
Lemma shifts_lit s : forallb (fun c => negb (Ascii.eqb c line_feed)) s = true -> shifts s s.
Proof.
  intros H. apply shifts_line. intros I. rewrite forallb_forall in H. apply H in I. now rewrite Ascii.eqb_refl in I.
Qed.
(** The same from the start of a line to the start of another. *)
Lemma entry_shifts d t t' : shifts t t' -> pad true (entry_at d t) = entry_at (S d) t' /\ after true (entry_at d t) = true.
Proof.
  intros T. unfold entry_at.
  assert (S : shifts (margin d ++ t ++ B ",") (margin d ++ t' ++ B ",")).
  { apply shifts_app; [apply shifts_line, margin_line|]. apply shifts_app; [exact T|now apply shifts_lit]. }
  replace (margin d ++ t ++ B "," ++ newline) with ((margin d ++ t ++ B ",") ++ newline) by now rewrite <- !app_assoc.
  assert (N : (margin d ++ t ++ B ",") ++ newline <> []) by (intros E; apply app_eq_nil in E as [_ E]; discriminate E).
  destruct S as [S1 S2]. split.
  - rewrite pad_on by exact N. rewrite pad_app, S1, S2, margin_S, <- !app_assoc. reflexivity.
  - rewrite after_app. reflexivity.
Qed.
Lemma entries_shift d ts ts' : Forall2 shifts ts ts' ->
  pad true (concat (map (entry_at d) ts)) = concat (map (entry_at (S d)) ts') /\ after true (concat (map (entry_at d) ts)) = true.
Proof.
  induction 1 as [|t t' ts ts' T F [IH1 IH2]]; [now split|]. cbn [map concat]. destruct (entry_shifts d t t' T) as [E1 E2]. split.
  - now rewrite pad_app, E1, E2, IH1.
  - now rewrite after_app, E2.
Qed.
Lemma body_shifts d ts ts' c : c <> line_feed -> Forall2 shifts ts ts' -> shifts (body d ts ++ [c]) (body (S d) ts' ++ [c]).
Proof.
  intros N F. assert (C : one_line [c]) by (intros [->|[]]; now apply N).
  destruct F as [|t t' ts ts' T F].
  { now apply shifts_line. }
  unfold body. assert (F' : Forall2 shifts (t :: ts) (t' :: ts')) by now constructor.
  destruct (entries_shift (S d) _ _ F') as [E1 E2]. rewrite <- !app_assoc.
  assert (M : pad true (margin d ++ [c]) = margin (S d) ++ [c] /\ after true (margin d ++ [c]) = false).
  { assert (L : shifts (margin d ++ [c]) (margin d ++ [c])) by (apply shifts_app; [apply shifts_line, margin_line|now apply shifts_line]).
    destruct L as [L1 L2]. assert (X : margin d ++ [c] <> []) by (intros E; apply app_eq_nil in E as [_ E]; discriminate E). split.
    - rewrite pad_on by exact X. now rewrite L1, margin_S, <- app_assoc.
    - rewrite <- L2. destruct (margin d ++ [c]); [congruence|reflexivity]. }
  split.
  - rewrite !pad_app. change (pad false newline) with newline. change (after false newline) with true. rewrite E1, E2. f_equal. f_equal.
    rewrite <- pad_app. apply M.
  - rewrite !after_app. change (after false newline) with true. rewrite E2, <- after_app. apply M.
Qed.

(** ** The layout as a function of the depth *)
Section Text.
Variable plain : N -> bool.
Variable quote : bool.
Notation text := (debug_text plain quote).
Notation pretty := (pretty_text plain quote).

Fixpoint lay (d : nat) (t : dbg) : str :=
  match t with
  | DTuple n l => B n ++ match l with [] => [] | _ => B "(" ++ body d (map (lay (S d)) l) ++ B ")" end
  | DStruct n l =>
      B n ++ match l with [] => [] | _ => B " {" ++ body d (map (fun kv => B (fst kv) ++ B ": " ++ lay (S d) (snd kv)) l) ++ B "}" end
  | DList l => B "[" ++ body d (map (lay (S d)) l) ++ B "]"
  | DMap l => B "{" ++ body d (map (fun kv => lay (S d) (fst kv) ++ B ": " ++ lay (S d) (snd kv)) l) ++ B "}"
  | DSet l => B "{" ++ body d (map (lay (S d)) l) ++ B "}"
  | _ => text t
  end.
Definition lay_field (d : nat) (kv : string * dbg) : str := B (fst kv) ++ B ": " ++ lay d (snd kv).
Definition lay_pair (d : nat) (kv : dbg * dbg) : str := lay d (fst kv) ++ B ": " ++ lay d (snd kv).

Definition named_in_line (t : dbg) : Prop := Forall (fun n => one_line (B n)) (names t).
Lemma names_list l : Forall (fun n => one_line (B n)) (flat_map names l) -> Forall named_in_line l.
Proof. intros F. apply Forall_forall. intros t I. apply Forall_forall. intros n J. rewrite Forall_forall in F. apply F. apply in_flat_map. eauto. Qed.
Lemma names_fields (l : list (string * dbg)) : Forall (fun n => one_line (B n)) (flat_map (fun kv => fst kv :: names (snd kv)) l) ->
  Forall (fun kv => one_line (B (fst kv)) /\ named_in_line (snd kv)) l.
Proof.
  intros F. apply Forall_forall. intros t I. rewrite Forall_forall in F. split.
  - apply F, in_flat_map. exists t. split; [exact I|now left].
  - apply Forall_forall. intros n J. apply F, in_flat_map. exists t. split; [exact I|now right].
Qed.
Lemma names_pairs (l : list (dbg * dbg)) : Forall (fun n => one_line (B n)) (flat_map (fun kv => names (fst kv) ++ names (snd kv)) l) ->
  Forall (fun kv => named_in_line (fst kv) /\ named_in_line (snd kv)) l.
Proof.
  intros F. apply Forall_forall. intros t I. rewrite Forall_forall in F. split; apply Forall_forall; intros n J; apply F, in_flat_map;
    exists t; (split; [exact I|]); apply in_or_app; auto.
Qed.
Lemma forall_map2 {A} (R : str -> str -> Prop) (f g : A -> str) l : Forall (fun x => R (f x) (g x)) l -> Forall2 R (map f l) (map g l).
Proof. induction 1; cbn [map]; now constructor. Qed.

Lemma lay_shifts t : named_in_line t -> forall d, shifts (lay d t) (lay (S d) t).
Proof.
  induction t as [s|s|z|b|n|n l IH|n l IH|l IH|l IH|l IH] using dbg_tree_ind; intros N d.
  - apply shifts_line, line_of, good_str.
  - apply shifts_line, line_of, good_str.
  - apply shifts_line, line_of. exact (proj1 (good_text plain quote (DNum z) I)).
  - destruct b; now apply shifts_lit.
  - inversion_clear N as [|? ? L _]. now apply shifts_line.
  - inversion_clear N as [|? ? L F]. cbn [lay]. apply shifts_app; [now apply shifts_line|]. destruct l as [|x l]; [now apply shifts_lit|].
    apply shifts_app; [now apply shifts_lit|]. apply body_shifts; [discriminate|]. apply forall_map2. apply names_list in F.
    rewrite Forall_forall in *. auto.
  - inversion_clear N as [|? ? L F]. cbn [lay]. apply shifts_app; [now apply shifts_line|]. destruct l as [|x l]; [now apply shifts_lit|].
    apply shifts_app; [now apply shifts_lit|]. apply body_shifts; [discriminate|]. apply forall_map2. apply names_fields in F.
    rewrite Forall_forall in *. intros kv I. destruct (F kv I) as [F1 F2]. apply shifts_app; [now apply shifts_line|].
    apply shifts_app; [now apply shifts_lit|]. now apply IH.
  - cbn [lay]. apply shifts_app; [now apply shifts_lit|]. apply body_shifts; [discriminate|]. apply forall_map2. apply names_list in N.
    rewrite Forall_forall in *. auto.
  - cbn [lay]. apply shifts_app; [now apply shifts_lit|]. apply body_shifts; [discriminate|]. apply forall_map2. apply names_pairs in N.
    rewrite Forall_forall in *. intros kv I. destruct (N kv I) as [F1 F2]. destruct (IH kv I) as [I1 I2]. apply shifts_app; [now apply I1|].
    apply shifts_app; [now apply shifts_lit|]. now apply I2.
  - cbn [lay]. apply shifts_app; [now apply shifts_lit|]. apply body_shifts; [discriminate|]. apply forall_map2. apply names_list in N.
    rewrite Forall_forall in *. auto.
Qed.
Lemma padded_entry s s' : shifts s s' -> padded s = entry_at 1 s'.
Proof.
  intros [S1 S2]. unfold padded. rewrite pad_on by (intros E; apply app_eq_nil in E as [_ E]; discriminate E).
  rewrite pad_app, S1, S2. reflexivity.
Qed.
Lemma padded_all {A} (f g : A -> str) l : Forall (fun x => shifts (f x) (g x)) l ->
  concat (map (fun x => padded (f x)) l) = concat (map (entry_at 1) (map g l)).
Proof. induction 1 as [|x l S F IH]; [reflexivity|]. cbn [map concat]. now rewrite (padded_entry _ _ S), IH. Qed.
Lemma body_0 ts : ts <> [] -> body 0 ts = newline ++ concat (map (entry_at 1) ts).
Proof. destruct ts; [congruence|]. intros _. unfold body. change (margin 0) with (@nil ascii). now rewrite app_nil_r. Qed.

Lemma pretty_lay t : named_in_line t -> pretty t = lay 0 t.
Proof.
  induction t as [s|s|z|b|n|n l IH|n l IH|l IH|l IH|l IH] using dbg_tree_ind; intros N; try reflexivity.
  - inversion_clear N as [|? ? L F]. cbn [lay pretty_text]. f_equal. destruct l as [|x l]; [reflexivity|]. f_equal.
    rewrite body_0 by discriminate. rewrite <- app_assoc. f_equal. f_equal. apply names_list in F.
    rewrite (map_ext_in _ (fun x => padded (lay 0 x))) by (intros y I; f_equal; rewrite Forall_forall in IH, F; auto).
    apply padded_all. rewrite Forall_forall in F. apply Forall_forall. intros y I. now apply lay_shifts, F.
  - inversion_clear N as [|? ? L F]. cbn [lay pretty_text]. f_equal. destruct l as [|x l]; [reflexivity|]. f_equal.
    rewrite body_0 by discriminate. rewrite <- app_assoc. f_equal. f_equal. apply names_fields in F.
    rewrite (map_ext_in _ (fun kv => padded (B (fst kv) ++ B ": " ++ lay 0 (snd kv)))).
    + apply (padded_all (lay_field 0) (lay_field 1)). rewrite Forall_forall in F. apply Forall_forall. intros y I. destruct (F y I) as [F1 F2].
      apply shifts_app; [now apply shifts_line|]. apply shifts_app; [now apply shifts_lit|]. now apply lay_shifts.
    + intros [k v] I. cbn [fst snd]. do 3 f_equal. rewrite Forall_forall in IH, F. apply (IH _ I). exact (proj2 (F _ I)).
  - cbn [lay pretty_text]. f_equal. destruct l as [|x l]; [reflexivity|]. rewrite body_0 by discriminate. f_equal. f_equal. apply names_list in N.
    rewrite (map_ext_in _ (fun x => padded (lay 0 x))) by (intros y I; f_equal; rewrite Forall_forall in IH, N; auto).
    apply padded_all. rewrite Forall_forall in N. apply Forall_forall. intros y I. now apply lay_shifts, N.
  - cbn [lay pretty_text]. f_equal. destruct l as [|x l]; [reflexivity|]. rewrite body_0 by discriminate. f_equal. f_equal. apply names_pairs in N.
    rewrite (map_ext_in _ (fun kv => padded (lay 0 (fst kv) ++ B ": " ++ lay 0 (snd kv)))).
    + apply (padded_all (lay_pair 0) (lay_pair 1)). rewrite Forall_forall in N. apply Forall_forall. intros y I. destruct (N y I) as [F1 F2].
      apply shifts_app; [now apply lay_shifts|]. apply shifts_app; [now apply shifts_lit|]. now apply lay_shifts.
    + intros [k v] I. cbn [fst snd]. rewrite Forall_forall in IH, N. destruct (IH _ I) as [I1 I2]. destruct (N _ I) as [N1 N2]. cbn [fst snd] in *.
      now rewrite I1, I2.
  - cbn [lay pretty_text]. f_equal. destruct l as [|x l]; [reflexivity|]. rewrite body_0 by discriminate. f_equal. f_equal. apply names_list in N.
    rewrite (map_ext_in _ (fun x => padded (lay 0 x))) by (intros y I; f_equal; rewrite Forall_forall in IH, N; auto).
    apply padded_all. rewrite Forall_forall in N. apply Forall_forall. intros y I. now apply lay_shifts, N.
Qed.

(** ** It is the layout of the specification *)
Notation laid := (laid_out plain quote).
Lemma lay_laid t : forall d, laid d t (lay d t).
Proof.
  induction t as [s|s|z|b|n|n l IH|n l IH|l IH|l IH|l IH] using dbg_tree_ind; intros d;
    try (apply laid_atom; [exact I|apply text_tree_shown]).
  - destruct l as [|x l]; [apply laid_atom; [exact I|apply (text_tree_shown plain quote (DTuple n []))]|].
    cbn [lay]. apply laid_tuple; [discriminate|]. apply shown_all. rewrite Forall_forall in *. auto.
  - destruct l as [|x l]; [apply laid_atom; [exact I|apply (text_tree_shown plain quote (DStruct n []))]|].
    cbn [lay]. apply laid_struct; [discriminate|]. apply (shown_all _ (lay_field (S d))). rewrite Forall_forall in *.
    intros [k v] I. apply laid_field. exact (IH _ I (S d)).
  - cbn [lay]. apply laid_list. apply shown_all. rewrite Forall_forall in *. auto.
  - cbn [lay]. apply laid_map. apply (shown_all _ (lay_pair (S d))). rewrite Forall_forall in *.
    intros [k v] I. destruct (IH _ I) as [I1 I2]. now apply laid_pair.
  - cbn [lay]. apply laid_set. apply shown_all. rewrite Forall_forall in *. auto.
Qed.
Lemma laid_lay t : forall d x, laid d t x -> x = lay d t.
Proof.
  induction t as [s|s|z|b|n|n l IH|n l IH|l IH|l IH|l IH] using dbg_tree_ind; intros d x H;
    inversion H as [d0 t0 x0 At Sh|d0 n0 l0 ts Ne F|d0 n0 l0 ts Ne F|d0 l0 ts F|d0 l0 ts F|d0 l0 ts F]; subst;
    try (now apply (tree_shown_text plain quote)); try now destruct At.
  - destruct l; [|now destruct At]. now apply tree_shown_text in Sh.
  - apply (shown_only _ (lay (S d))) in F; [|rewrite Forall_forall in *; auto]. subst ts. cbn [lay]. now destruct l.
  - destruct l; [|now destruct At]. now apply tree_shown_text in Sh.
  - apply (shown_only _ (lay_field (S d))) in F.
    + subst ts. cbn [lay]. now destruct l.
    + rewrite Forall_forall in *. intros [k v] I t T. inversion T as [d1 k1 v1 t1 T1]; subst. unfold lay_field. cbn [fst snd].
      now rewrite (IH _ I _ _ T1).
  - apply (shown_only _ (lay (S d))) in F; [|rewrite Forall_forall in *; auto]. now subst ts.
  - apply (shown_only _ (lay_pair (S d))) in F.
    + now subst ts.
    + rewrite Forall_forall in *. intros [k v] I t T. inversion T as [d1 k1 v1 s1 t1 T1 T2]; subst. unfold lay_pair. cbn [fst snd].
      destruct (IH _ I) as [I1 I2]. now rewrite (I1 _ _ T1), (I2 _ _ T2).
  - apply (shown_only _ (lay (S d))) in F; [|rewrite Forall_forall in *; auto]. now subst ts.
Qed.

(** ** It can be read *)
Lemma stop_comma r : stop (B "," ++ r).
Proof. cbn. repeat split; discriminate. Qed.
Section Items.
Context {A : Type} (f : A -> str) (d : nat) (c0 : ascii) (k : str).
Context (C1 : c0 <> " "%char) (C2 : c0 <> line_feed).
Lemma entries_told l l' r r' : matched f l l' ->
  concat (map (entry_at (S d)) (map f l)) ++ margin d ++ (c0 :: k) ++ r
  = concat (map (entry_at (S d)) (map f l')) ++ margin d ++ (c0 :: k) ++ r' -> l = l' /\ r = r'.
Proof.
  assert (Ne : forall x l q q', concat (map (entry_at (S d)) (map f (x :: l))) ++ q <> margin d ++ (c0 :: k) ++ q').
  { intros x l0 q q' E. cbn [map concat] in E. unfold entry_at at 1 in E. rewrite margin_end, <- !app_assoc in E. apply app_inv_head in E.
    injection E as E _. now apply C1. }
  intros M. revert r r'. induction M as [|x l|x l|x y l l' T M IH]; intros r r' E.
  - cbn [map concat app] in E. apply app_inv_head in E. injection E as E. apply app_inv_head in E. auto.
  - now apply Ne in E.
  - symmetry in E. now apply Ne in E.
  - cbn [map concat] in E. unfold entry_at at 1 3 in E. rewrite <- !app_assoc in E. apply app_inv_head in E.
    apply T in E as [-> E]; [|apply stop_comma..]. apply app_inv_head, app_inv_head in E. apply IH in E as [-> ->]. auto.
Qed.
Lemma body_told l l' r r' : matched f l l' ->
  body d (map f l) ++ (c0 :: k) ++ r = body d (map f l') ++ (c0 :: k) ++ r' -> l = l' /\ r = r'.
Proof.
  intros M E. assert (Ne : forall x l q q', body d (map f (x :: l)) ++ q <> (c0 :: k) ++ q').
  { intros x l0 q q' K. unfold body in K. cbn [map app newline] in K. injection K as K _. symmetry in K. now apply C2. }
  destruct l as [|x l]; destruct l' as [|x' l'].
  - cbn [map body app] in E. injection E as E. apply app_inv_head in E. auto.
  - symmetry in E. now apply Ne in E.
  - now apply Ne in E.
  - change (body d (map f (x :: l))) with (newline ++ concat (map (entry_at (S d)) (map f (x :: l))) ++ margin d) in E.
    change (body d (map f (x' :: l'))) with (newline ++ concat (map (entry_at (S d)) (map f (x' :: l'))) ++ margin d) in E.
    rewrite <- !app_assoc in E. apply app_inv_head in E. now apply entries_told in E.
Qed.
End Items.

Definition lay_back (t : dbg) : Prop := forall t' d, named t -> named t' -> alike t t' -> told (lay d) t t'.
Lemma matched_in {A} (f : A -> str) l l' : (forall x y, In x l -> In y l' -> told f x y) -> matched f l l'.
Proof. revert l'. induction l as [|x l IH]; intros [|y l'] H; try constructor; [apply H; now left|]. apply IH. intros a b I J. apply H; now right. Qed.
Lemma list_laid d l l' : Forall lay_back l -> Forall named l -> Forall named l' ->
  (fix all l := match l with [] => True | x :: l => Forall (alike x) l' /\ all l end) l -> matched (lay d) l l'.
Proof.
  intros F N N' K. apply matched_in. intros x y I J. rewrite Forall_forall in F, N, N'. apply F; auto. clear - K I J.
  induction l as [|z l IH]; [destruct I|]. destruct K as [K K']. destruct I as [->|I]; [rewrite Forall_forall in K; now apply K|now apply IH].
Qed.
Lemma tuple_laid d l l' : Forall lay_back l -> Forall named l -> Forall named l' ->
  (fix both l l' := match l, l' with [], [] => True | x :: l, y :: l' => alike x y /\ both l l' | _, _ => False end) l l' -> matched (lay d) l l'.
Proof.
  intros F N N'. revert l' N'. induction l as [|x l IH]; intros [|y l'] N' K; try (now destruct K); try constructor.
  - inversion F as [|? ? Fx _]. inversion N as [|? ? Nx _]. inversion N' as [|? ? Ny _]. subst. apply Fx; auto. apply K.
  - inversion F. inversion N. inversion N'. subst. apply IH; auto. apply K.
Qed.
Lemma fields_laid d l l' : Forall (fun kv => lay_back (snd kv)) l ->
  Forall (fun kv => name_ok (fst kv) = true /\ named (snd kv)) l -> Forall (fun kv => name_ok (fst kv) = true /\ named (snd kv)) l' ->
  (fix both (l l' : list (string * dbg)) :=
     match l, l' with
     | [], [] => True
     | (k, x) :: l, (k', y) :: l' => (k = k' /\ alike x y) /\ both l l'
     | _, _ => False
     end) l l' -> matched (lay_field d) l l'.
Proof.
  intros F N N'. revert l' N'. induction l as [|[k x] l IH]; intros [|[k' y] l'] N' K; try (now destruct K); try constructor.
  - inversion F as [|? ? Fx _]. inversion N as [|? ? [_ Nx] _]. inversion N' as [|? ? [_ Ny] _]. subst. cbn [snd] in *.
    destruct K as [[-> A] _]. intros r r' R R' E. unfold lay_field in E. cbn [fst snd] in E. rewrite <- !app_assoc in E.
    apply app_inv_head, app_inv_head in E. apply (Fx y d Nx Ny A r r' R R') in E as [-> ->]. auto.
  - inversion F. inversion N. inversion N'. subst. apply IH; auto. apply K.
Qed.
Lemma pairs_laid d l l' : Forall (fun kv => lay_back (fst kv) /\ lay_back (snd kv)) l ->
  Forall (fun kv => named (fst kv) /\ named (snd kv)) l -> Forall (fun kv => named (fst kv) /\ named (snd kv)) l' ->
  (fix all (l : list (dbg * dbg)) :=
         match l with [] => True | (k, x) :: l => Forall (fun y => alike k (fst y) /\ alike x (snd y)) l' /\ all l end) l -> matched (lay_pair d) l l'.
Proof.
  intros F N N' K. apply matched_in. intros x y I J. rewrite Forall_forall in F, N, N'.
  assert (A : alike (fst x) (fst y) /\ alike (snd x) (snd y)).
  { clear - K I J. induction l as [|[k z] l IH]; [destruct I|]. destruct K as [K K']. destruct I as [<-|I]; [rewrite Forall_forall in K; now apply K|now apply IH]. }
  destruct (F x I) as [Fk Fx]. destruct (N x I) as [Nk Nx]. destruct (N' y J) as [Nk' Nx']. destruct A as [Ak Ax].
  intros r r' R R' E. unfold lay_pair in E. rewrite <- !app_assoc in E. destruct x as [k x], y as [k' y]. cbn [fst snd] in *.
  apply (Fk k' d Nk Nk' Ak _ _ (stop_colon _) (stop_colon _)) in E as [-> E]. apply app_inv_head in E.
  apply (Fx y d Nx Nx' Ax r r' R R') in E as [-> ->]. auto.
Qed.
Lemma tuple_lay d n l : l <> [] -> lay d (DTuple n l) = B n ++ B "(" ++ body d (map (lay (S d)) l) ++ B ")".
Proof. destruct l; [congruence|reflexivity]. Qed.
Lemma struct_lay d n l : l <> [] -> lay d (DStruct n l) = B n ++ B " {" ++ body d (map (lay_field (S d)) l) ++ B "}".
Proof. destruct l; [congruence|reflexivity]. Qed.
Lemma stop_brace r x : stop r -> r <> B " {" ++ x.
Proof. destruct r as [|c r]; [discriminate|]. intros (_ & _ & _ & N) E. injection E as -> ->. now apply N. Qed.

Lemma all_lay_back t : lay_back t.
Proof.
  induction t as [s|s|z|b|n|n l IH|n l IH|l IH|l IH|l IH] using dbg_tree_ind; intros t' d N N' A r r' R R' E.
  - destruct t'; try now destruct A. refine (all_read_back plain quote (DStr s) _ N N' A r r' R R' E).
  - destruct t'; try now destruct A. refine (all_read_back plain quote (DOs s) _ N N' A r r' R R' E).
  - destruct t'; try now destruct A. refine (all_read_back plain quote (DNum z) _ N N' A r r' R R' E).
  - destruct t'; try now destruct A. refine (all_read_back plain quote (DBool b) _ N N' A r r' R R' E).
  - destruct t' as [| | | |n'|n' l'|n' l'| | |]; try now destruct A.
    + refine (all_read_back plain quote (DUnit n) _ N N' A r r' R R' E).
    + destruct N' as (N1 & N2 & _). rewrite tuple_lay, <- !app_assoc in E by exact N2. cbn [lay debug_text] in E.
      apply name_stop in E as [-> E]; [now apply stop_unit_tuple in E|assumption|assumption|first [now apply stop_not_word|now apply not_word_of]..].
    + destruct N' as (N1 & N2 & _). rewrite struct_lay, <- !app_assoc in E by exact N2. cbn [lay debug_text] in E.
      apply name_stop in E as [-> E]; [now apply stop_brace in E|assumption|assumption|first [now apply stop_not_word|now apply not_word_of]..].
  - destruct N as (Nn & Nl & Ns). rewrite tuple_lay, <- !app_assoc in E by exact Nl.
    destruct t' as [| | | |n'|n' l'|n' l'| | |]; try now destruct A.
    + cbn [lay debug_text named] in *. apply name_stop in E as [-> E]; [symmetry in E; now apply stop_unit_tuple in E|assumption|assumption|first [now apply stop_not_word|now apply not_word_of]..].
    + destruct N' as (Nn' & Nl' & Ns'). rewrite tuple_lay, <- !app_assoc in E by exact Nl'.
      apply name_stop in E as [<- E]; [|assumption|assumption|now apply not_word_of|now apply not_word_of].
      apply app_inv_head in E. apply named_list in Ns, Ns'. change (B ")") with [")"%char] in E.
      apply (body_told (lay (S d)) d ")" []) in E as [-> ->]; [auto|discriminate|discriminate|].
      apply tuple_laid; auto. now apply A.
    + destruct N' as (Nn' & Nl' & Ns'). rewrite struct_lay, <- !app_assoc in E by exact Nl'.
      apply name_stop in E as [_ E]; [|assumption|assumption|now apply not_word_of|now apply not_word_of]. discriminate E.
  - destruct N as (Nn & Nl & Ns). rewrite struct_lay, <- !app_assoc in E by exact Nl.
    destruct t' as [| | | |n'|n' l'|n' l'| | |]; try now destruct A.
    + cbn [lay debug_text named] in *. apply name_stop in E as [-> E]; [symmetry in E; now apply stop_brace in E|assumption|assumption|first [now apply stop_not_word|now apply not_word_of]..].
    + destruct N' as (Nn' & Nl' & Ns'). rewrite tuple_lay, <- !app_assoc in E by exact Nl'.
      apply name_stop in E as [_ E]; [|assumption|assumption|now apply not_word_of|now apply not_word_of]. discriminate E.
    + destruct N' as (Nn' & Nl' & Ns'). rewrite struct_lay, <- !app_assoc in E by exact Nl'.
      apply name_stop in E as [<- E]; [|assumption|assumption|now apply not_word_of|now apply not_word_of].
      apply app_inv_head in E. apply named_fields in Ns, Ns'. change (B "}") with ["}"]%char in E.
      apply (body_told (lay_field (S d)) d "}" []) in E as [-> ->]; [auto|discriminate|discriminate|].
      apply fields_laid; auto. now apply A.
  - destruct t' as [| | | | | | |l'| |]; try now destruct A. cbn [lay named] in *. rewrite <- !app_assoc in E. apply app_inv_head in E.
    apply named_list in N, N'. change (B "]") with ["]"%char] in E.
    apply (body_told (lay (S d)) d "]" []) in E as [-> ->]; [auto|discriminate|discriminate|]. now apply list_laid.
  - destruct t' as [| | | | | | | |l'|]; try now destruct A. cbn [lay named] in *. rewrite <- !app_assoc in E. apply app_inv_head in E.
    apply named_pairs in N, N'. change (B "}") with ["}"%char] in E.
    apply (body_told (lay_pair (S d)) d "}" []) in E as [-> ->]; [auto|discriminate|discriminate|]. now apply pairs_laid.
  - destruct t' as [| | | | | | | | |l']; try now destruct A. cbn [lay named] in *. rewrite <- !app_assoc in E. apply app_inv_head in E.
    apply named_list in N, N'. change (B "}") with ["}"%char] in E.
    apply (body_told (lay (S d)) d "}" []) in E as [-> ->]; [auto|discriminate|discriminate|]. now apply list_laid.
Qed.

(** ** Names are words in the trees of the library *)
Lemma word_one n : name_ok n = true -> one_line (B n).
Proof. intros H. apply line_of. now apply good_name. Qed.
Lemma named_names t : named t -> named_in_line t.
Proof.
  unfold named_in_line. induction t as [s|s|z|b|n|n l IH|n l IH|l IH|l IH|l IH] using dbg_tree_ind; cbn [named names]; intros N; try constructor.
  - now apply word_one.
  - constructor.
  - now apply word_one.
  - destruct N as (_ & _ & N). apply named_list in N. apply Forall_flat_map. rewrite Forall_forall in *. auto.
  - now apply word_one.
  - destruct N as (_ & _ & N). apply named_fields in N. apply Forall_flat_map. rewrite Forall_forall in *. intros kv I.
    destruct (N kv I) as [N1 N2]. constructor; [now apply word_one|now apply IH].
  - apply named_list in N. apply Forall_flat_map. rewrite Forall_forall in *. auto.
  - apply named_pairs in N. apply Forall_flat_map. rewrite Forall_forall in *. intros kv I.
    destruct (N kv I) as [N1 N2]. destruct (IH kv I) as [I1 I2]. apply Forall_app. auto.
  - apply named_list in N. apply Forall_flat_map. rewrite Forall_forall in *. auto.
Qed.
Lemma pretty_uniform {A} (f : A -> dbg) a b : uniform f -> pretty (f a) = pretty (f b) -> f a = f b.
Proof.
  intros U E. destruct (U a) as [Na Ab]. destruct (U b) as [Nb _]. rewrite !pretty_lay in E by now apply named_names.
  apply (all_lay_back (f a) (f b) 0 Na Nb (Ab b) [] [] I I). now rewrite E.
Qed.

(** ** Lines of UTF-8 *)
Definition fine_lines (s : str) : Prop := in_lines s /\ forall t, utf8_valid (s ++ t) = utf8_valid t.
Lemma fine_app a b : fine_lines a -> fine_lines b -> fine_lines (a ++ b).
Proof. intros [A A'] [Bb B']. split; [now apply Forall_app|]. intros t. now rewrite <- app_assoc, A', B'. Qed.
Lemma fine_good s : good s -> fine_lines s.
Proof. intros [L V]. split; [|exact V]. apply (Forall_impl _ (P := fun c => 32 <= N_of_ascii c /\ N_of_ascii c <> 127)%N); [|exact L]. intros c H. now right. Qed.
Lemma fine_nil : fine_lines [].
Proof. split; [constructor|reflexivity]. Qed.
Lemma fine_newline : fine_lines newline.
Proof. split; [constructor; [now left|constructor]|]. intros t. now apply valid_ascii_app, ascii_bool. Qed.
Lemma fine_margin d : fine_lines (margin d).
Proof. unfold margin. induction (4 * d) as [|n IH]; [exact fine_nil|]. cbn [repeat]. apply (fine_app [" "%char]); [now apply fine_good, good_lit|exact IH]. Qed.
Lemma fine_body d ts : Forall fine_lines ts -> fine_lines (body d ts).
Proof.
  intros F. destruct ts as [|t ts]; [exact fine_nil|]. unfold body. apply fine_app; [exact fine_newline|]. apply fine_app; [|apply fine_margin].
  induction F as [|x l G F IH]; [exact fine_nil|]. cbn [map concat]. apply fine_app; [|exact IH]. unfold entry_at.
  apply fine_app; [apply fine_margin|]. apply fine_app; [exact G|]. apply fine_app; [now apply fine_good, good_lit|exact fine_newline].
Qed.
Lemma fine_lay t : named t -> forall d, fine_lines (lay d t).
Proof.
  induction t as [s|s|z|b|n|n l IH|n l IH|l IH|l IH|l IH] using dbg_tree_ind; intros N d; try (apply fine_good; now apply (good_text plain quote)).
  - destruct N as (N1 & N2 & N3). rewrite tuple_lay by exact N2. apply named_list in N3.
    apply fine_app; [now apply fine_good, good_name|]. apply fine_app; [now apply fine_good, good_lit|]. apply fine_app; [|now apply fine_good, good_lit].
    apply fine_body, Forall_map. rewrite Forall_forall in *. auto.
  - destruct N as (N1 & N2 & N3). rewrite struct_lay by exact N2. apply named_fields in N3.
    apply fine_app; [now apply fine_good, good_name|]. apply fine_app; [now apply fine_good, good_lit|]. apply fine_app; [|now apply fine_good, good_lit].
    apply fine_body, Forall_map. rewrite Forall_forall in *. intros kv I. destruct (N3 kv I). unfold lay_field.
    apply fine_app; [now apply fine_good, good_name|]. apply fine_app; [now apply fine_good, good_lit|]. now apply IH.
  - cbn [lay named] in *. apply named_list in N. apply fine_app; [now apply fine_good, good_lit|]. apply fine_app; [|now apply fine_good, good_lit].
    apply fine_body, Forall_map. rewrite Forall_forall in *. auto.
  - cbn [lay named] in *. apply named_pairs in N. apply fine_app; [now apply fine_good, good_lit|]. apply fine_app; [|now apply fine_good, good_lit].
    apply fine_body, Forall_map. rewrite Forall_forall in *. intros kv I. destruct (N kv I), (IH kv I).
    apply fine_app; [auto|]. apply fine_app; [now apply fine_good, good_lit|]. auto.
  - cbn [lay named] in *. apply named_list in N. apply fine_app; [now apply fine_good, good_lit|]. apply fine_app; [|now apply fine_good, good_lit].
    apply fine_body, Forall_map. rewrite Forall_forall in *. auto.
Qed.
End Text.
