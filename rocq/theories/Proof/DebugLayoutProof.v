(** Lemmas about the layout of Debug output. *)
From Verif.Model Require Import Base Str Error JsonText DebugText.
From Verif.Spec Require Import StrSpec JsonSpec DebugTextSpec DebugLayoutSpec.
From Verif.Proof Require Import StrFacts JsonProof DebugTextProof DebugTreeProof.

#[local] Arguments B : simpl never.

(** ** Numbers *)
Lemma amount_pos ds : hd 0%N ds <> 0%N -> (0 < amount ds)%N.
Proof.
  induction ds as [|d ds IH] using rev_ind; [now intros []|]. rewrite amount_snoc. destruct ds as [|e ds].
  - cbn [app hd]. unfold amount. cbn. lia.
  - cbn [app hd] in *. intros H. specialize (IH H). lia.
Qed.
Lemma dfuel_unique ds : Forall (fun d => d < 10)%N ds -> hd 0%N ds <> 0%N -> forall k, (amount ds < 2 ^ N.of_nat k)%N -> dfuel k (amount ds) = ds.
Proof.
  induction ds as [|d ds IH] using rev_ind; [now intros _ []|]. intros F H k K. apply Forall_app in F as [F D]. inversion_clear D as [|? ? L _].
  rewrite amount_snoc in *. destruct k as [|k]; [change (2 ^ N.of_nat 0)%N with 1%N in K; assert (10 * amount ds + d = 0)%N by lia; exfalso|].
  { destruct ds as [|e ds]; [cbn [app hd] in H; change (amount []) with 0%N in *; lia|]. cbn [app hd] in H. assert (0 < amount (e :: ds))%N by now apply amount_pos. lia. }
  cbn [dfuel]. assert (M : ((10 * amount ds + d) mod 10 = d)%N) by (rewrite N.add_comm, N.mul_comm, N.mod_add, N.mod_small by (exact L || discriminate); reflexivity).
  assert (V : ((10 * amount ds + d) / 10 = amount ds)%N) by (rewrite N.add_comm, N.mul_comm, N.div_add, N.div_small by (exact L || discriminate); reflexivity).
  rewrite M, V. f_equal. destruct ds as [|e ds].
  - unfold amount. cbn [fold_left]. destruct (N.ltb_spec (10 * 0 + d) 10); [reflexivity|lia].
  - cbn [app hd] in H. assert (0 < amount (e :: ds))%N by now apply amount_pos.
    destruct (N.ltb_spec (10 * amount (e :: ds) + d) 10); [lia|]. apply IH; [exact F|exact H|].
    rewrite Nat2N.inj_succ, N.pow_succ_r' in K. lia.
Qed.
Lemma digit_letter d : (d < 10)%N -> nth (N.to_nat d) (B "0123456789") " "%char = digit d.
Proof. intros H. destruct d as [|p]; [reflexivity|]. do 4 (destruct p as [p|p|]; try reflexivity; try lia). Qed.
Lemma digit_letters ds : Forall (fun d => d < 10)%N ds -> map (fun d => nth (N.to_nat d) (B "0123456789") " "%char) ds = map digit ds.
Proof. intros F. apply map_ext_in. intros d H. rewrite Forall_forall in F. now apply digit_letter, F. Qed.
Lemma decimal_Z_text z : decimal_Z z = (if Z.ltb z 0 then B "-" else []) ++ decimal_N (Z.abs_N z).
Proof.
  unfold decimal_Z. destruct (Z.ltb_spec z 0) as [L|L].
  - change (B "-" ++ ?x) with ("-"%char :: x). do 2 f_equal. rewrite Zabs2N.abs_N_spec. now rewrite Z.abs_neq by lia.
  - cbn [app]. f_equal. rewrite Zabs2N.abs_N_spec. now rewrite Z.abs_eq by lia.
Qed.
Lemma decimal_shown z : number_shown z (decimal_Z z).
Proof.
  rewrite decimal_Z_text. unfold decimal_N. set (n := Z.abs_N z). set (k := S (N.to_nat (N.log2 n))).
  exists (dfuel k n). split; [apply dfuel_small|]. split; [|split].
  - destruct (N.eq_dec n 0) as [Z0|N0]; [left; unfold k; rewrite Z0; reflexivity|right].
    assert (H : (0 < n < 2 ^ N.of_nat k)%N) by (split; [lia|apply fuel_enough]). apply dfuel_head in H.
    destruct (dfuel k n) as [|d l]; [now destruct H|]. now exists d, l.
  - change (amount (dfuel k n) = n). apply dfuel_amount, fuel_enough.
  - f_equal. rewrite digit_letters by apply dfuel_small. apply decimal_digits.
Qed.
Lemma number_shown_decimal z t : number_shown z t -> decimal_Z z = t.
Proof.
  intros (ds & F & H & V & ->). rewrite decimal_Z_text, digit_letters by exact F. f_equal.
  change (amount ds = Z.abs_N z) in V. rewrite <- V. unfold decimal_N. rewrite decimal_digits. f_equal.
  destruct H as [-> |(d & r & -> & N0)]; [reflexivity|]. apply dfuel_unique; [exact F|exact N0|apply fuel_enough].
Qed.

(** ** Trees *)
Lemma commas_shown l : with_commas l (comma_separated l).
Proof.
  destruct l as [|x l]; [constructor|].
  replace (comma_separated (x :: l)) with (x ++ concat (map (fun y => B ", " ++ y) l)); [constructor|].
  revert x. induction l as [|y l IH]; intros x; [cbn [map concat comma_separated]; apply app_nil_r|].
  change (comma_separated (x :: y :: l)) with (x ++ B ", " ++ comma_separated (y :: l)). rewrite <- IH.
  cbn [map concat]. now rewrite <- app_assoc.
Qed.
Lemma with_commas_unique l x y : with_commas l x -> with_commas l y -> x = y.
Proof. intros []; intros H; inversion H; reflexivity. Qed.
Lemma with_commas_text l x : with_commas l x -> x = comma_separated l.
Proof. intros H. exact (with_commas_unique l x _ H (commas_shown l)). Qed.

Section Shown.
Variable plain : N -> bool.
Variable quote : bool.
Notation text := (debug_text plain quote).
Notation shown := (tree_shown plain quote).

Lemma shown_all {A} (R : A -> str -> Prop) f (l : list A) : Forall (fun x => R x (f x)) l -> Forall2 R l (map f l).
Proof. induction 1; cbn [map]; constructor; assumption. Qed.
Lemma shown_only {A} (R : A -> str -> Prop) f (l : list A) ts :
  Forall (fun x => forall t, R x t -> t = f x) l -> Forall2 R l ts -> ts = map f l.
Proof.
  intros F H. revert F. induction H as [|x t l ts H _ IH]; intros F; [reflexivity|]. inversion_clear F as [|? ? E F'].
  cbn [map]. rewrite (E t H). f_equal. now apply IH.
Qed.
Definition entry_text (kv : dbg * dbg) : str := text (fst kv) ++ B ": " ++ text (snd kv).
Lemma entry_texts l : map (fun '(k, v) => text k ++ B ": " ++ text v) l = map entry_text l.
Proof. apply map_ext. now intros [k v]. Qed.

Lemma text_tree_shown t : shown t (text t).
Proof.
  induction t as [s|s|z|b|n|n l IH|n l IH|l IH|l IH|l IH] using dbg_tree_ind.
  - apply shown_str, dbytes_shown.
  - apply shown_os, dbytes_shown.
  - apply shown_num, decimal_shown.
  - destruct b; constructor.
  - constructor.
  - destruct l as [|x l].
    + cbn [debug_text]. rewrite app_nil_r. constructor.
    + rewrite tuple_text by discriminate. eapply shown_tuple; [discriminate|apply shown_all; exact IH|apply commas_shown].
  - destruct l as [|x l].
    + cbn [debug_text]. rewrite app_nil_r. constructor.
    + rewrite struct_text by discriminate. eapply shown_struct; [discriminate|apply shown_all|apply commas_shown].
      apply (Forall_impl _ (P := fun kv => shown (snd kv) (text (snd kv)))); [|exact IH]. intros [k v] H. now constructor.
  - cbn [debug_text]. eapply shown_list; [apply shown_all; exact IH|apply commas_shown].
  - cbn [debug_text]. rewrite entry_texts. eapply shown_map; [apply shown_all|apply commas_shown].
    apply (Forall_impl _ (P := fun kv => shown (fst kv) (text (fst kv)) /\ shown (snd kv) (text (snd kv)))); [|exact IH].
    intros [k v] [H1 H2]. now constructor.
  - cbn [debug_text]. eapply shown_set; [apply shown_all; exact IH|apply commas_shown].
Qed.
Lemma tree_shown_text t : forall x, shown t x -> x = text t.
Proof.
  induction t as [s|s|z|b|n|n l IH|n l IH|l IH|l IH|l IH] using dbg_tree_ind; intros x H.
  - inversion H as [s0 t T| | | | | | | | | | | |]; subst. apply shown_dbytes in T. now rewrite <- T.
  - inversion H as [|s0 t T| | | | | | | | | | |]; subst. apply shown_dbytes in T. now rewrite <- T.
  - inversion H as [| |z0 t T| | | | | | | | | |]; subst. symmetry. now apply number_shown_decimal.
  - destruct b; now inversion H.
  - now inversion H.
  - inversion H as [| | | | | |n0|n0 l0 ts x0 N F C| | | | |]; subst; [symmetry; apply app_nil_r|].
    rewrite tuple_text by exact N. apply with_commas_text in C as ->. do 3 f_equal. f_equal. exact (shown_only _ _ _ _ IH F).
  - inversion H as [| | | | | | | |n0|n0 l0 ts x0 N F C| | |]; subst; [symmetry; apply app_nil_r|].
    rewrite struct_text by exact N. apply with_commas_text in C as ->. do 3 f_equal. f_equal. apply (shown_only _ (field_text plain quote) _ _) in F; [exact F|].
    apply (Forall_impl _ (P := fun kv => forall t, shown (snd kv) t -> t = text (snd kv))); [|exact IH].
    intros [k v] E t T. inversion T as [k0 v0 t0 T']; subst. unfold field_text. cbn [fst snd] in *. now rewrite (E _ T').
  - inversion H as [| | | | | | | | | |l0 ts x0 F C| |]; subst. apply with_commas_text in C as ->. cbn [debug_text]. do 2 f_equal. f_equal. exact (shown_only _ _ _ _ IH F).
  - inversion H as [| | | | | | | | | | |l0 ts x0 F C|]; subst. apply with_commas_text in C as ->. cbn [debug_text]. rewrite entry_texts. do 2 f_equal. f_equal.
    apply (shown_only _ entry_text _ _) in F; [exact F|].
    apply (Forall_impl _ (P := fun kv => (forall t, shown (fst kv) t -> t = text (fst kv)) /\ (forall t, shown (snd kv) t -> t = text (snd kv)))); [|exact IH].
    intros [k v] [E1 E2] t T. inversion T as [k0 v0 s0 t0 T1 T2]; subst. unfold entry_text. cbn [fst snd] in *. now rewrite (E1 _ T1), (E2 _ T2).
  - inversion H as [| | | | | | | | | | | |l0 ts x0 F C]; subst. apply with_commas_text in C as ->. cbn [debug_text]. do 2 f_equal. f_equal. exact (shown_only _ _ _ _ IH F).
Qed.
End Shown.
