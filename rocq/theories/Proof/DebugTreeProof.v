(** Lemmas about the text of Debug output: trees. *)
From Verif.Model Require Import Base Str BMap Error Value De Debug EasyTypes Triple EasySerde JsonText DebugText.
From Verif.Spec Require Import StrSpec Utf8Spec SecretSpec JsonSpec DebugTextSpec.
From Verif.Proof Require Import StrFacts Utf8Proof LossyProof JsonProof DebugTextProof DebugProof.

#[local] Arguments B : simpl never.

Section Ind.
  Variable P : dbg -> Prop.
  Hypothesis Hs : forall s, P (DStr s).
  Hypothesis Ho : forall s, P (DOs s).
  Hypothesis Hn : forall z, P (DNum z).
  Hypothesis Hb : forall b, P (DBool b).
  Hypothesis Hu : forall n, P (DUnit n).
  Hypothesis Ht : forall n l, Forall P l -> P (DTuple n l).
  Hypothesis Hr : forall n l, Forall (fun kv => P (snd kv)) l -> P (DStruct n l).
  Hypothesis Hl : forall l, Forall P l -> P (DList l).
  Hypothesis Hm : forall l, Forall (fun kv => P (fst kv) /\ P (snd kv)) l -> P (DMap l).
  Hypothesis He : forall l, Forall P l -> P (DSet l).
  Fixpoint dbg_tree_ind (t : dbg) : P t :=
    let list := fix go l := match l return Forall P l with [] => Forall_nil _ | x :: r => Forall_cons _ (dbg_tree_ind x) (go r) end in
    match t with
    | DStr s => Hs s | DOs s => Ho s | DNum z => Hn z | DBool b => Hb b | DUnit n => Hu n
    | DTuple n l => Ht n l (list l)
    | DStruct n l => Hr n l ((fix go l := match l return Forall (fun kv => P (snd kv)) l with
                                          | [] => Forall_nil _ | x :: r => Forall_cons _ (dbg_tree_ind (snd x)) (go r) end) l)
    | DList l => Hl l (list l)
    | DMap l => Hm l ((fix go l := match l return Forall (fun kv => P (fst kv) /\ P (snd kv)) l with
                                   | [] => Forall_nil _
                                   | x :: r => Forall_cons _ (conj (dbg_tree_ind (fst x)) (dbg_tree_ind (snd x))) (go r) end) l)
    | DSet l => He l (list l)
    end.
End Ind.

(** ** Well formed trees *)
Definition word_char (c : ascii) : bool :=
  existsb (Ascii.eqb c) (B "_0123456789abcdefghijklmnopqrstuvwxyzABCDEFGHIJKLMNOPQRSTUVWXYZ").
Definition name_ok (n : string) : bool := match B n with [] => false | s => forallb word_char s end.
Fixpoint named (t : dbg) : Prop :=
  match t with
  | DUnit n => name_ok n = true
  | DTuple n l => name_ok n = true /\ l <> [] /\ (fix all l := match l with [] => True | x :: r => named x /\ all r end) l
  | DStruct n l => name_ok n = true /\ l <> []
      /\ (fix all (l : list (string * dbg)) := match l with [] => True | (k, x) :: r => (name_ok k = true /\ named x) /\ all r end) l
  | DList l | DSet l => (fix all l := match l with [] => True | x :: r => named x /\ all r end) l
  | DMap l => (fix all l := match l with [] => True | (k, x) :: r => (named k /\ named x) /\ all r end) l
  | _ => True
  end.
(** Trees of the same type. *)
Fixpoint alike (t t' : dbg) {struct t} : Prop :=
  match t, t' with
  | DStr _, DStr _ | DOs _, DOs _ | DNum _, DNum _ | DBool _, DBool _ => True
  | DTuple n l, DTuple n' l' =>
      n = n' -> (fix both l l' := match l, l' with [], [] => True | x :: l, y :: l' => alike x y /\ both l l' | _, _ => False end) l l'
  | DStruct n l, DStruct n' l' =>
      n = n' -> (fix both (l l' : list (string * dbg)) :=
                   match l, l' with
                   | [], [] => True
                   | (k, x) :: l, (k', y) :: l' => (k = k' /\ alike x y) /\ both l l'
                   | _, _ => False
                   end) l l'
  | DUnit _, (DUnit _ | DTuple _ _ | DStruct _ _) | DTuple _ _, (DUnit _ | DStruct _ _) | DStruct _ _, (DUnit _ | DTuple _ _) => True
  | DList l, DList l' | DSet l, DSet l' => (fix all l := match l with [] => True | x :: l => Forall (alike x) l' /\ all l end) l
  | DMap l, DMap l' =>
      (fix all (l : list (dbg * dbg)) :=
         match l with [] => True | (k, x) :: l => Forall (fun y => alike k (fst y) /\ alike x (snd y)) l' /\ all l end) l
  | _, _ => False
  end.

(** ** Where a text can end *)
Definition stop (r : str) : Prop :=
  match r with
  | [] => True
  | c :: r => word_char c = false /\ c <> "("%char /\ c <> "."%char /\ (c = " "%char -> hd_error r <> Some "{"%char)
  end.
Lemma stop_number r : stop r -> number_ends r.
Proof.
  destruct r as [|c r]; [easy|]. intros (W & _ & D & _). unfold number_ends. all_bytes c; try reflexivity; try discriminate W; now destruct D.
Qed.
Lemma name_word n : name_ok n = true -> Forall (fun c => word_char c = true) (B n).
Proof. unfold name_ok. destruct (B n); [discriminate|]. intros H. now apply forallb_Forall in H || (apply Forall_forall; rewrite forallb_forall in H; exact H). Qed.
Lemma name_head n : name_ok n = true -> exists c s, B n = c :: s /\ word_char c = true.
Proof. unfold name_ok. destruct (B n) as [|c s]; [discriminate|]. cbn [forallb]. intros H. apply andb_true_iff in H as [H _]. eauto. Qed.
Lemma B_inj a b : B a = B b -> a = b.
Proof. unfold B. intros E. apply (f_equal string_of_list_ascii) in E. now rewrite !string_of_list_ascii_of_string in E. Qed.
Definition not_word (r : str) : Prop := match r with [] => True | c :: _ => word_char c = false end.
Lemma word_stop a b r r' : Forall (fun c => word_char c = true) a -> Forall (fun c => word_char c = true) b ->
  not_word r -> not_word r' -> a ++ r = b ++ r' -> a = b /\ r = r'.
Proof.
  intros F. revert b. induction F as [|c a C F IH]; intros b F' R R' E; destruct F' as [|d b D F']; cbn [app] in E; auto.
  - subst r. cbn in R. congruence.
  - subst r'. cbn in R'. congruence.
  - injection E as -> E. destruct (IH b F' R R' E) as [-> ->]. auto.
Qed.
Lemma name_stop n n' r r' : name_ok n = true -> name_ok n' = true -> not_word r -> not_word r' -> B n ++ r = B n' ++ r' -> n = n' /\ r = r'.
Proof.
  intros H H' R R' E. apply word_stop in E as [E ->]; [|now apply name_word..|assumption|assumption]. split; [now apply B_inj|reflexivity].
Qed.
Lemma stop_not_word r : stop r -> not_word r.
Proof. destruct r; [auto|]. now intros (W & _). Qed.

(** ** Lists of items *)
Section Items.
Context {A : Type} (f : A -> str).
Definition told (x y : A) : Prop := forall r r', stop r -> stop r' -> f x ++ r = f y ++ r' -> x = y /\ r = r'.
Inductive matched : list A -> list A -> Prop :=
| matched_nil : matched [] []
| matched_left x l : matched (x :: l) []
| matched_right x l : matched [] (x :: l)
| matched_cons x y l l' : told x y -> matched l l' -> matched (x :: l) (y :: l').
Definition begins (c0 : ascii) (x : A) : Prop := exists c s, f x = c :: s /\ c <> c0.
Lemma comma_cons x l : comma_separated (map f (x :: l)) = f x ++ match l with [] => [] | _ => B ", " ++ comma_separated (map f l) end.
Proof. destruct l as [|y l]; cbn [map comma_separated]; [now rewrite app_nil_r|reflexivity]. Qed.
Lemma items_told c0 k l l' r r' :
  (forall r, stop ((c0 :: k) ++ r)) -> c0 <> ","%char -> Forall (begins c0) l -> Forall (begins c0) l' -> matched l l' ->
  comma_separated (map f l) ++ (c0 :: k) ++ r = comma_separated (map f l') ++ (c0 :: k) ++ r' -> l = l' /\ r = r'.
Proof.
  intros St N F F' M. revert F F'. assert (Head : forall x l q, begins c0 x -> comma_separated (map f (x :: l)) ++ q <> (c0 :: k) ++ r /\ comma_separated (map f (x :: l)) ++ q <> (c0 :: k) ++ r').
  { intros x l0 q (c & s & E & Nc). rewrite comma_cons, E. split; cbn [app]; intros H; injection H as H _; contradiction. }
  induction M as [|x l|x l|x y l l' T M IH]; intros F F' E.
  - change ((c0 :: k) ++ r = (c0 :: k) ++ r') in E. apply app_inv_head in E. auto.
  - exfalso. inversion F as [|? ? Bx _]. exact (proj2 (Head x l _ Bx) E).
  - exfalso. inversion F' as [|? ? Bx _]. exact (proj1 (Head x l _ Bx) (eq_sym E)).
  - rewrite !comma_cons, <- !app_assoc in E. apply T in E as [-> E].
    + inversion F as [|? ? _ F1]. inversion F' as [|? ? _ F1']. subst. destruct l as [|z l]; destruct l' as [|z' l'].
      * change ((c0 :: k) ++ r = (c0 :: k) ++ r') in E. apply app_inv_head in E. subst. auto.
      * exfalso. cbn in E. injection E as E _. contradiction.
      * exfalso. cbn in E. injection E as E _. now symmetry in E.
      * rewrite <- !app_assoc in E. apply app_inv_head in E. destruct (IH F1 F1' E) as [-> ->]. auto.
    + destruct l; [apply St|]. cbn. repeat split; discriminate.
    + destruct l'; [apply St|]. cbn. repeat split; discriminate.
Qed.
End Items.

(** ** Texts of trees *)
Section Text.
Variable plain : N -> bool.
Variable quote : bool.
Notation text := (debug_text plain quote).

Definition opening (c : ascii) : bool := (word_char c || existsb (Ascii.eqb c) (B """-[{"))%bool.
Lemma text_opens t : named t -> exists c s, text t = c :: s /\ opening c = true.
Proof.
  destruct t as [s|s|z|b|n|n l|n l|l|l|l]; cbn [named debug_text]; intros H; try (do 2 eexists; split; [reflexivity|reflexivity]).
  - unfold decimal_Z. destruct (Z.ltb z 0); [do 2 eexists; split; reflexivity|].
    destruct (decimal_N_head (Z.to_N z)) as (d & u & -> & D). exists (digit d), u. split; [reflexivity|].
    revert D. clear. intros D. assert (L : (d < 16)%N) by lia. revert d L D. apply (sixteen (fun d => (d < 10)%N -> opening (digit d) = true)); intros; (reflexivity || lia).
  - destruct b; do 2 eexists; split; reflexivity.
  - destruct (name_head n H) as (c & s & -> & W). exists c, s. split; [reflexivity|]. unfold opening. now rewrite W.
  - destruct H as [H _]. destruct (name_head n H) as (c & s & -> & W). do 2 eexists. split; [reflexivity|]. unfold opening. now rewrite W.
  - destruct H as [H _]. destruct (name_head n H) as (c & s & -> & W). do 2 eexists. split; [reflexivity|]. unfold opening. now rewrite W.
Qed.
Definition pair_text (kv : dbg * dbg) : str := text (fst kv) ++ B ": " ++ text (snd kv).
Definition field_text (kv : string * dbg) : str := B (fst kv) ++ B ": " ++ text (snd kv).
Lemma pair_texts l : map (fun '(k, v) => text k ++ B ": " ++ text v) l = map pair_text l.
Proof. apply map_ext. now intros []. Qed.
Lemma field_texts l : map (fun '(k, v) => B k ++ B ": " ++ text v) l = map field_text l.
Proof. apply map_ext. now intros []. Qed.

Lemma named_list l : (fix all l := match l with [] => True | x :: r => named x /\ all r end) l -> Forall named l.
Proof. induction l as [|x l IH]; constructor; [apply H|apply IH, H]. Qed.
Lemma named_fields l : (fix all (l : list (string * dbg)) := match l with [] => True | (k, x) :: r => (name_ok k = true /\ named x) /\ all r end) l ->
  Forall (fun kv => name_ok (fst kv) = true /\ named (snd kv)) l.
Proof. induction l as [|[k x] l IH]; constructor; [apply H|apply IH, H]. Qed.
Lemma named_pairs l : (fix all l := match l with [] => True | (k, x) :: r => (named k /\ named x) /\ all r end) l ->
  Forall (fun kv => named (fst kv) /\ named (snd kv)) l.
Proof. induction l as [|[k x] l IH]; constructor; [apply H|apply IH, H]. Qed.
Lemma opens_not c c0 : opening c = true -> opening c0 = false -> c <> c0.
Proof. intros H H' ->. congruence. Qed.
Lemma list_begins c0 l : opening c0 = false -> Forall named l -> Forall (begins text c0) l.
Proof.
  intros O F. apply (Forall_impl (P := named)); [|exact F]. intros t N. destruct (text_opens t N) as (c & s & E & H).
  exists c, s. split; [exact E|now apply opens_not].
Qed.
Lemma fields_begin c0 l : opening c0 = false -> Forall (fun kv => name_ok (fst kv) = true /\ named (snd kv)) l -> Forall (begins field_text c0) l.
Proof.
  intros O F. refine (Forall_impl _ _ F). intros [k t] [N _]. destruct (name_head k N) as (c & s & E & W).
  exists c, (s ++ B ": " ++ text t). split; [unfold field_text; cbn [fst snd]; now rewrite E|]. apply opens_not; [unfold opening; now rewrite W|exact O].
Qed.
Lemma pairs_begin c0 l : opening c0 = false -> Forall (fun kv => named (fst kv) /\ named (snd kv)) l -> Forall (begins pair_text c0) l.
Proof.
  intros O F. refine (Forall_impl _ _ F). intros [k t] [N _]. destruct (text_opens k N) as (c & s & E & H).
  exists c, (s ++ B ": " ++ text t). split; [unfold pair_text; cbn [fst snd]; now rewrite E|now apply opens_not].
Qed.
Lemma stop_colon r : stop (B ": " ++ r).
Proof. cbn. repeat split; discriminate. Qed.

Definition read_back (t : dbg) : Prop := forall t', named t -> named t' -> alike t t' -> told text t t'.
Lemma list_matched l l' : Forall read_back l -> Forall named l -> Forall named l' ->
  (fix all l := match l with [] => True | x :: l => Forall (alike x) l' /\ all l end) l -> matched text l l'.
Proof.
  intros F N N' K.
  assert (Q : forall l', (forall x y, In x l -> In y l' -> told text x y) -> matched text l l').
  { clear. induction l as [|x l IH]; intros [|y l'] H; try constructor; [apply H; now left|]. apply IH. intros a b I J. apply H; now right. }
  apply Q. intros x y I J. rewrite Forall_forall in F, N, N'. apply F; auto. clear - K I J.
  induction l as [|z l IH]; [destruct I|]. destruct K as [K K']. destruct I as [->|I]; [rewrite Forall_forall in K; now apply K|now apply IH].
Qed.
Lemma tuple_matched l l' : Forall read_back l -> Forall named l -> Forall named l' ->
  (fix both l l' := match l, l' with [], [] => True | x :: l, y :: l' => alike x y /\ both l l' | _, _ => False end) l l' -> matched text l l'.
Proof.
  intros F N N'. revert l' N'. induction l as [|x l IH]; intros [|y l'] N' K; try (now destruct K); try constructor.
  - inversion F as [|? ? Fx _]. inversion N as [|? ? Nx _]. inversion N' as [|? ? Ny _]. subst. apply Fx; auto. apply K.
  - inversion F. inversion N. inversion N'. subst. apply IH; auto. apply K.
Qed.
Lemma fields_matched l l' : Forall (fun kv => read_back (snd kv)) l ->
  Forall (fun kv => name_ok (fst kv) = true /\ named (snd kv)) l -> Forall (fun kv => name_ok (fst kv) = true /\ named (snd kv)) l' ->
  (fix both (l l' : list (string * dbg)) :=
     match l, l' with
     | [], [] => True
     | (k, x) :: l, (k', y) :: l' => (k = k' /\ alike x y) /\ both l l'
     | _, _ => False
     end) l l' -> matched field_text l l'.
Proof.
  intros F N N'. revert l' N'. induction l as [|[k x] l IH]; intros [|[k' y] l'] N' K; try (now destruct K); try constructor.
  - inversion F as [|? ? Fx _]. inversion N as [|? ? [_ Nx] _]. inversion N' as [|? ? [_ Ny] _]. subst. cbn [snd] in *.
    destruct K as [[-> A] _]. intros r r' R R' E. unfold field_text in E. cbn [fst snd] in E. rewrite <- !app_assoc in E.
    apply app_inv_head, app_inv_head in E. apply (Fx y Nx Ny A r r' R R') in E as [-> ->]. auto.
  - inversion F. inversion N. inversion N'. subst. apply IH; auto. apply K.
Qed.
Lemma pairs_matched l l' : Forall (fun kv => read_back (fst kv) /\ read_back (snd kv)) l ->
  Forall (fun kv => named (fst kv) /\ named (snd kv)) l -> Forall (fun kv => named (fst kv) /\ named (snd kv)) l' ->
  (fix all (l : list (dbg * dbg)) :=
         match l with [] => True | (k, x) :: l => Forall (fun y => alike k (fst y) /\ alike x (snd y)) l' /\ all l end) l -> matched pair_text l l'.
Proof.
  intros F N N' K.
  assert (Q : forall l', (forall x y, In x l -> In y l' -> told pair_text x y) -> matched pair_text l l').
  { clear. induction l as [|x l IH]; intros [|y l'] H; try constructor; [apply H; now left|]. apply IH. intros a b I J. apply H; now right. }
  apply Q. intros x y I J. rewrite Forall_forall in F, N, N'.
  assert (A : alike (fst x) (fst y) /\ alike (snd x) (snd y)).
  { clear - K I J. induction l as [|[k z] l IH]; [destruct I|]. destruct K as [K K']. destruct I as [<-|I]; [rewrite Forall_forall in K; now apply K|now apply IH]. }
  destruct (F x I) as [Fk Fx]. destruct (N x I) as [Nk Nx]. destruct (N' y J) as [Nk' Nx']. destruct A as [Ak Ax].
  intros r r' R R' E. unfold pair_text in E. rewrite <- !app_assoc in E. destruct x as [k x], y as [k' y]. cbn [fst snd] in *.
  apply (Fk k' Nk Nk' Ak _ _ (stop_colon _) (stop_colon _)) in E as [-> E]. apply app_inv_head in E.
  apply (Fx y Nx Nx' Ax r r' R R') in E as [-> ->]. auto.
Qed.

Lemma stop_unit_tuple r x : stop r -> r <> B "(" ++ x.
Proof. destruct r as [|c r]; [discriminate|]. intros (_ & N & _) E. injection E as E _. contradiction. Qed.
Lemma stop_unit_struct r x : stop r -> r <> B " { " ++ x.
Proof. destruct r as [|c r]; [discriminate|]. intros (_ & _ & _ & N) E. injection E as -> ->. now apply N. Qed.
Lemma close_stop c0 k : word_char c0 = false -> c0 <> "("%char -> c0 <> "."%char -> c0 <> " "%char -> forall r, stop ((c0 :: k) ++ r).
Proof. intros. cbn. repeat split; auto. Qed.
Lemma not_word_of b r : (match b with c :: _ => word_char c = false | [] => False end) -> not_word (b ++ r).
Proof. now destruct b. Qed.
Lemma tuple_text n l : l <> [] -> text (DTuple n l) = B n ++ B "(" ++ comma_separated (map text l) ++ B ")".
Proof. destruct l; [congruence|reflexivity]. Qed.
Lemma struct_text n l : l <> [] -> text (DStruct n l) = B n ++ B " { " ++ comma_separated (map field_text l) ++ B " }".
Proof. intros H. cbn [debug_text]. rewrite field_texts. destruct l; [congruence|reflexivity]. Qed.

Lemma all_read_back t : read_back t.
Proof.
  induction t as [s|s|z|b|n|n l IH|n l IH|l IH|l IH|l IH] using dbg_tree_ind; intros t' N N' A r r' R R' E.
  - destruct t'; try now destruct A. cbn [debug_text] in E. apply debug_str_inj in E as [-> ->]. auto.
  - destruct t'; try now destruct A. cbn [debug_text] in E. apply debug_str_inj in E as [-> ->]. auto.
  - destruct t'; try now destruct A. cbn [debug_text] in E.
    apply (f_equal number) in E. rewrite !number_read in E by now apply stop_number. now injection E as -> ->.
  - destruct t' as [| | |b'| | | | | |]; try now destruct A. cbn [debug_text] in E. destruct b, b'; cbn in E; try discriminate E; injection E as ->; auto.
  - destruct t' as [| | | |n'|n' l'|n' l'| | |]; try now destruct A.
    + cbn [debug_text named] in *. apply name_stop in E as [-> ->]; auto using stop_not_word.
    + destruct N' as (N1 & N2 & _). rewrite tuple_text, <- !app_assoc in E by exact N2. cbn [debug_text] in E.
      apply name_stop in E as [-> E]; [now apply stop_unit_tuple in E|assumption|assumption|first [now apply stop_not_word|now apply not_word_of]..].
    + destruct N' as (N1 & N2 & _). rewrite struct_text, <- !app_assoc in E by exact N2. cbn [debug_text] in E.
      apply name_stop in E as [-> E]; [now apply stop_unit_struct in E|assumption|assumption|first [now apply stop_not_word|now apply not_word_of]..].
  - destruct N as (Nn & Nl & Ns). rewrite tuple_text, <- !app_assoc in E by exact Nl.
    destruct t' as [| | | |n'|n' l'|n' l'| | |]; try now destruct A.
    + cbn [debug_text named] in *. apply name_stop in E as [-> E]; [symmetry in E; now apply stop_unit_tuple in E|assumption|assumption|first [now apply stop_not_word|now apply not_word_of]..].
    + destruct N' as (Nn' & Nl' & Ns'). rewrite tuple_text, <- !app_assoc in E by exact Nl'.
      apply name_stop in E as [<- E]; [|assumption|assumption|now apply not_word_of|now apply not_word_of].
      apply app_inv_head in E. apply named_list in Ns, Ns'. change (B ")") with [")"%char] in E.
      apply (items_told text ")" []) in E as [-> ->]; [auto|now apply close_stop|discriminate|now apply list_begins..|].
      apply tuple_matched; auto. now apply A.
    + destruct N' as (Nn' & Nl' & Ns'). rewrite struct_text, <- !app_assoc in E by exact Nl'.
      apply name_stop in E as [_ E]; [|assumption|assumption|now apply not_word_of|now apply not_word_of]. discriminate E.
  - destruct N as (Nn & Nl & Ns). rewrite struct_text, <- !app_assoc in E by exact Nl.
    destruct t' as [| | | |n'|n' l'|n' l'| | |]; try now destruct A.
    + cbn [debug_text named] in *. apply name_stop in E as [-> E]; [symmetry in E; now apply stop_unit_struct in E|assumption|assumption|first [now apply stop_not_word|now apply not_word_of]..].
    + destruct N' as (Nn' & Nl' & Ns'). rewrite tuple_text, <- !app_assoc in E by exact Nl'.
      apply name_stop in E as [_ E]; [|assumption|assumption|now apply not_word_of|now apply not_word_of]. discriminate E.
    + destruct N' as (Nn' & Nl' & Ns'). rewrite struct_text, <- !app_assoc in E by exact Nl'.
      apply name_stop in E as [<- E]; [|assumption|assumption|now apply not_word_of|now apply not_word_of].
      apply app_inv_head in E. apply named_fields in Ns, Ns'. change (B " }") with [" "; "}"]%char in E.
      apply (items_told field_text " " ["}"%char]) in E as [-> ->]; [auto| |discriminate|now apply fields_begin..|].
      * intros q. cbn. repeat split; discriminate.
      * apply fields_matched; auto. now apply A.
  - destruct t' as [| | | | | | |l'| |]; try now destruct A. cbn [debug_text named] in *. rewrite <- !app_assoc in E. apply app_inv_head in E.
    apply named_list in N, N'. change (B "]") with ["]"%char] in E.
    apply (items_told text "]" []) in E as [-> ->]; [auto|now apply close_stop|discriminate|now apply list_begins..|]. now apply list_matched.
  - destruct t' as [| | | | | | | |l'|]; try now destruct A. cbn [debug_text named] in *. rewrite !pair_texts, <- !app_assoc in E. apply app_inv_head in E.
    apply named_pairs in N, N'. change (B "}") with ["}"%char] in E.
    apply (items_told pair_text "}" []) in E as [-> ->]; [auto|now apply close_stop|discriminate|now apply pairs_begin..|]. now apply pairs_matched.
  - destruct t' as [| | | | | | | | |l']; try now destruct A. cbn [debug_text named] in *. rewrite <- !app_assoc in E. apply app_inv_head in E.
    apply named_list in N, N'. change (B "}") with ["}"%char] in E.
    apply (items_told text "}" []) in E as [-> ->]; [auto|now apply close_stop|discriminate|now apply list_begins..|]. now apply list_matched.
Qed.

(** ** One line of UTF-8 *)
Lemma word_line c : word_char c = true -> (32 <= N_of_ascii c /\ N_of_ascii c <> 127)%N /\ (nb c < 128)%N.
Proof. intros H. all_bytes c; try discriminate H; split; try split; (reflexivity || discriminate || (unfold N.le; cbn; discriminate)). Qed.
Definition good (s : str) : Prop := in_line s /\ forall t, utf8_valid (s ++ t) = utf8_valid t.
Lemma good_app a b : good a -> good b -> good (a ++ b).
Proof. intros [A A'] [Bb B']. split; [now apply line_app|]. intros t. now rewrite <- app_assoc, A', B'. Qed.
Lemma good_lit s : forallb (fun c => N.leb 32 (nb c) && negb (N.eqb (nb c) 127))%bool s = true -> forallb (fun c => N.ltb (nb c) 128) s = true -> good s.
Proof. intros H H'. split; [now apply line_bool|]. intros t. now apply valid_ascii_app, ascii_bool. Qed.
Lemma good_name n : name_ok n = true -> good (B n).
Proof.
  intros H. apply name_word in H. split.
  - apply (Forall_impl (P := fun c => word_char c = true)); [|exact H]. intros c W. now apply word_line.
  - intros t. apply valid_ascii_app. apply (Forall_impl (P := fun c => word_char c = true)); [|exact H]. intros c W. now apply word_line.
Qed.
Lemma good_commas l : Forall good l -> good (comma_separated l).
Proof.
  induction 1 as [|x l G F IH]; [split; [constructor|reflexivity]|]. destruct l as [|y l]; [exact G|].
  cbn [comma_separated]. apply good_app; [exact G|]. apply good_app; [now apply good_lit|exact IH].
Qed.
Lemma good_str os s : good (debug_str plain quote os s).
Proof.
  unfold debug_str. change (""""%char :: ?x) with ([""""%char] ++ x). apply good_app; [now apply good_lit|]. apply good_app; [|now apply good_lit].
  split; [apply dbytes_line|apply dbytes_valid].
Qed.
Lemma good_decimal n : good (decimal_N n).
Proof.
  unfold decimal_N. rewrite decimal_digits. assert (K : forall d, (d < 10)%N -> good [digit d]).
  { intros d D. assert (L : (d < 16)%N) by lia. revert d L D. apply (sixteen (fun d => (d < 10)%N -> good [digit d])); intros D; (lia || now apply good_lit). }
  generalize (dfuel_small (S (N.to_nat (N.log2 n))) n). intros F. induction F as [|d l D F IH]; [split; [constructor|reflexivity]|].
  cbn [map]. change (digit d :: ?x) with ([digit d] ++ x). apply good_app; [now apply K|exact IH].
Qed.
Lemma good_text t : named t -> good (text t).
Proof.
  induction t as [s|s|z|b|n|n l IH|n l IH|l IH|l IH|l IH] using dbg_tree_ind; intros N.
  - apply good_str.
  - apply good_str.
  - cbn [debug_text]. unfold decimal_Z. destruct (Z.ltb z 0); [|apply good_decimal].
    change ("-"%char :: ?x) with (["-"%char] ++ x). apply good_app; [now apply good_lit|apply good_decimal].
  - destruct b; now apply good_lit.
  - now apply good_name.
  - destruct N as (N1 & N2 & N3). rewrite tuple_text by exact N2. apply named_list in N3.
    repeat (apply good_app; [try (now apply good_name); try (now apply good_lit)|]); [|now apply good_lit].
    apply good_commas, Forall_map. rewrite Forall_forall in *. auto.
  - destruct N as (N1 & N2 & N3). rewrite struct_text by exact N2. apply named_fields in N3.
    repeat (apply good_app; [try (now apply good_name); try (now apply good_lit)|]); [|now apply good_lit].
    apply good_commas, Forall_map. rewrite Forall_forall in *. intros kv I. destruct (N3 kv I). unfold field_text.
    apply good_app; [now apply good_name|]. apply good_app; [now apply good_lit|]. now apply IH.
  - cbn [debug_text named] in *. apply named_list in N. repeat (apply good_app; [try now apply good_lit|]); [|now apply good_lit].
    apply good_commas, Forall_map. rewrite Forall_forall in *. auto.
  - cbn [debug_text named] in *. rewrite pair_texts. apply named_pairs in N. repeat (apply good_app; [try now apply good_lit|]); [|now apply good_lit].
    apply good_commas, Forall_map. rewrite Forall_forall in *. intros kv I. destruct (N kv I), (IH kv I). unfold pair_text.
    apply good_app; [auto|]. apply good_app; [now apply good_lit|]. auto.
  - cbn [debug_text named] in *. apply named_list in N. repeat (apply good_app; [try now apply good_lit|]); [|now apply good_lit].
    apply good_commas, Forall_map. rewrite Forall_forall in *. auto.
Qed.
End Text.

(** ** The types of the library *)
Definition uniform {A} (f : A -> dbg) : Prop := forall a, named (f a) /\ forall b, alike (f a) (f b).
Lemma uniform_str : uniform DStr. Proof. intros a. split; [exact I|]. intros b. exact I. Qed.
Lemma uniform_os : uniform DOs. Proof. intros a. split; [exact I|]. intros b. exact I. Qed.
Lemma uniform_num : uniform DNum. Proof. intros a. split; [exact I|]. intros b. exact I. Qed.
Lemma uniform_n : uniform dbg_n. Proof. intros a. split; [exact I|]. intros b. exact I. Qed.
Lemma uniform_bool : uniform DBool. Proof. intros a. split; [exact I|]. intros b. exact I. Qed.
Lemma uniform_opt {A} (f : A -> dbg) : uniform f -> uniform (dbg_opt f).
Proof.
  intros U [a|]; (split; [|intros [b|]]); cbn; try exact I; try reflexivity.
  - repeat split; [discriminate|apply U].
  - intros _. split; [apply U|exact I].
Qed.
Lemma uniform_list {A} (f : A -> dbg) l : uniform f -> named (DList (map f l)) /\ forall l', alike (DList (map f l)) (DList (map f l')).
Proof.
  intros U. split.
  - cbn. induction l as [|a l IH]; cbn; [exact I|]. split; [apply U|exact IH].
  - intros l'. cbn. induction l as [|a l IH]; cbn; [exact I|]. split; [|exact IH]. apply Forall_map, Forall_forall. intros b _. apply U.
Qed.
Lemma uniform_map {V} (f : V -> dbg) : uniform f -> uniform (dbg_map f).
Proof.
  intros U m. unfold dbg_map. split.
  - cbn. induction m as [|[k v] m IH]; cbn; [exact I|]. split; [split; [exact I|apply U]|exact IH].
  - intros m'. cbn. induction m as [|[k v] m IH]; cbn; [exact I|]. split; [|exact IH]. apply Forall_map, Forall_forall. intros b _. cbn. split; [exact I|apply U].
Qed.
Ltac unit_cases := intros []; (split; [reflexivity|]); intros []; exact I.
Lemma uniform_definition : uniform dbg_definition.
Proof.
  intros [p|n|p]; (split; [cbn; repeat split; try discriminate|intros [p'|n'|p']; cbn; intros; try discriminate; repeat split]).
  - apply (uniform_opt DOs uniform_os p).
  - apply (uniform_opt DOs uniform_os p).
Qed.
(** A structure from its fields. *)
Lemma uniform_struct {A} (n : string) (fs : list (string * (A -> dbg))) :
  name_ok n = true -> fs <> [] -> forallb (fun kf => name_ok (fst kf)) fs = true -> Forall (fun kf => uniform (snd kf)) fs ->
  uniform (fun a => DStruct n (map (fun kf => (fst kf, snd kf a)) fs)).
Proof.
  intros N Ne Ns F a. split.
  - cbn. split; [exact N|]. split; [destruct fs; [congruence|discriminate]|]. clear N Ne.
    induction F as [|[k f] fs U F IH]; cbn in *; [exact I|]. apply andb_true_iff in Ns as [N1 N2]. split; [split; [exact N1|apply U]|now apply IH].
  - intros b. cbn. intros _. clear N Ne Ns. induction F as [|[k f] fs U F IH]; cbn in *; [exact I|]. split; [split; [reflexivity|apply U]|exact IH].
Qed.
Lemma uniform_pull {A X} (g : X -> A) (f : A -> dbg) : uniform f -> uniform (fun x => f (g x)).
Proof. intros U x. split; [apply U|]. intros y. apply U. Qed.
Lemma uniform_lists {A X} (f : A -> dbg) (g : X -> list A) : uniform f -> uniform (fun x => DList (map f (g x))).
Proof. intros U x. split; [now apply uniform_list|]. intros y. now apply uniform_list. Qed.
Lemma uniform_tuple {A X} (n : string) (f : A -> dbg) (g : X -> A) : name_ok n = true -> uniform f -> uniform (fun x => DTuple n [f (g x)]).
Proof. intros N U x. split; [cbn; repeat split; [exact N|discriminate|apply U]|]. intros y. cbn. intros _. split; [apply U|exact I]. Qed.
Lemma uniform_value {T} (f : T -> dbg) : uniform f -> uniform (dbg_value f).
Proof.
  intros U. apply (uniform_struct "Value" [("val"%string, fun v => f (val v)); ("definition"%string, fun v => dbg_opt dbg_definition (def v))]);
    [reflexivity|discriminate|reflexivity|]. repeat first [apply Forall_nil|apply Forall_cons; cbn [snd]].
  - exact (uniform_pull val f U).
  - exact (uniform_pull def _ (uniform_opt _ uniform_definition)).
Qed.
Definition uniform_vstr : uniform dbg_vstr := uniform_value _ uniform_str.
Definition uniform_vbool : uniform dbg_vbool := uniform_value _ uniform_bool.
Definition uniform_vn : uniform dbg_vn := uniform_value _ uniform_n.
Lemma uniform_repr : uniform dbg_repr. Proof. unit_cases. Qed.
Lemma uniform_vcs : uniform dbg_vcs. Proof. unit_cases. Qed.
Lemma uniform_protocol : uniform dbg_protocol. Proof. unit_cases. Qed.
Lemma uniform_color : uniform dbg_color. Proof. unit_cases. Qed.
Lemma uniform_when : uniform dbg_when. Proof. unit_cases. Qed.
Lemma uniform_frequency : uniform dbg_frequency. Proof. unit_cases. Qed.

Ltac structure fs :=
  match goal with |- @uniform ?A ?f =>
    match eval cbv beta delta [f] in f with
    | fun _ => DStruct ?n _ => apply (uniform_struct (A := A) n fs); [reflexivity|discriminate|reflexivity|]; repeat first [apply Forall_nil|apply Forall_cons; cbn [snd]]
    end
  end.
Lemma uniform_flags : uniform dbg_flags.
Proof.
  structure [("flags", fun f => DList (map dbg_vstr (fl_flags f))); ("deserialized_repr", fun f => dbg_repr (fl_repr f))]%string.
  - exact (uniform_lists _ fl_flags uniform_vstr).
  - exact (uniform_pull fl_repr _ uniform_repr).
Qed.
Lemma uniform_program : uniform dbg_path_and_args.
Proof.
  structure [("path", fun p => DTuple "ConfigRelativePath" [dbg_vstr (pa_path p)]); ("args", fun p => DList (map dbg_vstr (pa_args p)));
             ("deserialized_repr", fun p => dbg_repr (pa_repr p))]%string.
  - now apply (uniform_tuple "ConfigRelativePath" dbg_vstr pa_path), uniform_vstr.
  - exact (uniform_lists _ pa_args uniform_vstr).
  - exact (uniform_pull pa_repr _ uniform_repr).
Qed.
Lemma uniform_slist : uniform dbg_string_list.
Proof.
  structure [("list", fun s => DList (map dbg_vstr (sl_list s))); ("deserialized_repr", fun s => dbg_repr (sl_repr s))]%string.
  - exact (uniform_lists _ sl_list uniform_vstr).
  - exact (uniform_pull sl_repr _ uniform_repr).
Qed.
Lemma uniform_soa : uniform dbg_soa.
Proof.
  pose proof (uniform_tuple "String" dbg_vstr (fun v => v) eq_refl uniform_vstr) as U.
  pose proof (uniform_tuple "Array" (fun l => DList (map dbg_vstr l)) (fun l => l) eq_refl (uniform_lists dbg_vstr (fun l => l) uniform_vstr)) as U'.
  intros [v|l]; (split; [|intros [v'|l']]).
  - exact (proj1 (U v)).
  - exact (proj2 (U v) v').
  - intros E. discriminate E.
  - exact (proj1 (U' l)).
  - intros E. discriminate E.
  - exact (proj2 (U' l) l').
Qed.
Lemma uniform_env : uniform dbg_env_config_value.
Proof.
  pose proof (uniform_tuple "Value" dbg_vstr (fun v => v) eq_refl uniform_vstr) as U.
  assert (U' : uniform (fun x : value str * (option (value bool) * option (value bool)) =>
    DStruct "Table" [("value", dbg_vstr (fst x)); ("force", dbg_opt dbg_vbool (fst (snd x))); ("relative", dbg_opt dbg_vbool (snd (snd x)))]%string)).
  { apply (uniform_struct (A := value str * (option (value bool) * option (value bool))) "Table"
      [("value", fun x => dbg_vstr (fst x)); ("force", fun x => dbg_opt dbg_vbool (fst (snd x))); ("relative", fun x => dbg_opt dbg_vbool (snd (snd x)))]%string);
      [reflexivity|discriminate|reflexivity|]; repeat first [apply Forall_nil|apply Forall_cons; cbn [snd]].
    - exact (uniform_pull fst dbg_vstr uniform_vstr).
    - exact (uniform_pull (fun x => fst (snd x)) (dbg_opt dbg_vbool) (uniform_opt _ uniform_vbool)).
    - exact (uniform_pull (fun x => snd (snd x)) (dbg_opt dbg_vbool) (uniform_opt _ uniform_vbool)). }
  intros [v|v f r]; (split; [|intros [v'|v' f' r']]).
  - exact (proj1 (U v)).
  - exact (proj2 (U v) v').
  - exact I.
  - exact (proj1 (U' (v, (f, r)))).
  - exact I.
  - exact (proj2 (U' (v, (f, r))) (v', (f', r'))).
Qed.
Ltac leaf := first
  [ exact uniform_str | exact uniform_os | exact uniform_num | exact uniform_n | exact uniform_bool | exact uniform_vstr | exact uniform_vbool
  | exact uniform_vn | exact uniform_flags | exact uniform_program | exact uniform_soa | exact uniform_slist | exact uniform_env
  | exact uniform_repr | exact uniform_vcs | exact uniform_protocol | exact uniform_color | exact uniform_when | exact uniform_frequency
  | apply uniform_opt; leaf | apply uniform_value; leaf | apply uniform_map; leaf ].
Ltac opt p f := apply (uniform_pull p f); leaf.
Lemma uniform_build : uniform dbg_build.
Proof.
  structure [("jobs", fun b => dbg_opt (dbg_value DNum) (b_jobs b));
     ("rustc", fun b => dbg_opt dbg_vstr (b_rustc b));
     ("rustc_wrapper", fun b => dbg_opt dbg_vstr (b_rustc_wrapper b));
     ("rustc_workspace_wrapper", fun b => dbg_opt dbg_vstr (b_rustc_workspace_wrapper b));
     ("rustdoc", fun b => dbg_opt dbg_vstr (b_rustdoc b));
     ("target", fun b => dbg_opt dbg_soa (b_target b));
     ("target_dir", fun b => dbg_opt dbg_vstr (b_target_dir b));
     ("rustflags", fun b => dbg_opt dbg_flags (b_rustflags b));
     ("rustdocflags", fun b => dbg_opt dbg_flags (b_rustdocflags b));
     ("incremental", fun b => dbg_opt dbg_vbool (b_incremental b));
     ("dep_info_basedir", fun b => dbg_opt dbg_vstr (b_dep_info_basedir b));
     ("override_target_rustflags", fun b => DBool (b_override_target_rustflags b));
     ("override_target_rustdocflags", fun b => DBool (b_override_target_rustdocflags b))]%string.
  - opt b_jobs (dbg_opt (dbg_value DNum)).
  - opt b_rustc (dbg_opt dbg_vstr).
  - opt b_rustc_wrapper (dbg_opt dbg_vstr).
  - opt b_rustc_workspace_wrapper (dbg_opt dbg_vstr).
  - opt b_rustdoc (dbg_opt dbg_vstr).
  - opt b_target (dbg_opt dbg_soa).
  - opt b_target_dir (dbg_opt dbg_vstr).
  - opt b_rustflags (dbg_opt dbg_flags).
  - opt b_rustdocflags (dbg_opt dbg_flags).
  - opt b_incremental (dbg_opt dbg_vbool).
  - opt b_dep_info_basedir (dbg_opt dbg_vstr).
  - opt b_override_target_rustflags DBool.
  - opt b_override_target_rustdocflags DBool.
Qed.
Lemma uniform_target : uniform dbg_target.
Proof.
  structure [("linker", fun t => dbg_opt dbg_vstr (t_linker t)); ("runner", fun t => dbg_opt dbg_path_and_args (t_runner t));
     ("rustflags", fun t => dbg_opt dbg_flags (t_rustflags t)); ("rustdocflags", fun t => dbg_opt dbg_flags (t_rustdocflags t))]%string.
  - opt t_linker (dbg_opt dbg_vstr).
  - opt t_runner (dbg_opt dbg_path_and_args).
  - opt t_rustflags (dbg_opt dbg_flags).
  - opt t_rustdocflags (dbg_opt dbg_flags).
Qed.
Lemma uniform_doc : uniform dbg_doc.
Proof. structure [("browser", fun d => dbg_opt dbg_path_and_args (d_browser d))]%string. opt d_browser (dbg_opt dbg_path_and_args). Qed.
Lemma uniform_future : uniform dbg_future.
Proof. structure [("frequency", fun f => dbg_opt (dbg_value dbg_frequency) (f_frequency f))]%string. opt f_frequency (dbg_opt (dbg_value dbg_frequency)). Qed.
Lemma uniform_cargo_new : uniform dbg_cargo_new.
Proof. structure [("vcs", fun c => dbg_opt (dbg_value dbg_vcs) (cn_vcs c))]%string. opt cn_vcs (dbg_opt (dbg_value dbg_vcs)). Qed.
Lemma uniform_http : uniform dbg_http.
Proof.
  structure [("debug", fun h => dbg_opt dbg_vbool (h_debug h)); ("proxy", fun h => dbg_opt dbg_vstr (h_proxy h));
     ("timeout", fun h => dbg_opt dbg_vn (h_timeout h)); ("cainfo", fun h => dbg_opt dbg_vstr (h_cainfo h));
     ("check_revoke", fun h => dbg_opt dbg_vbool (h_check_revoke h)); ("low_speed_limit", fun h => dbg_opt dbg_vn (h_low_speed_limit h));
     ("multiplexing", fun h => dbg_opt dbg_vbool (h_multiplexing h)); ("user_agent", fun h => dbg_opt dbg_vstr (h_user_agent h))]%string.
  - opt h_debug (dbg_opt dbg_vbool).
  - opt h_proxy (dbg_opt dbg_vstr).
  - opt h_timeout (dbg_opt dbg_vn).
  - opt h_cainfo (dbg_opt dbg_vstr).
  - opt h_check_revoke (dbg_opt dbg_vbool).
  - opt h_low_speed_limit (dbg_opt dbg_vn).
  - opt h_multiplexing (dbg_opt dbg_vbool).
  - opt h_user_agent (dbg_opt dbg_vstr).
Qed.
Lemma uniform_net : uniform dbg_net.
Proof.
  structure [("retry", fun n => dbg_opt dbg_vn (n_retry n)); ("git_fetch_with_cli", fun n => dbg_opt dbg_vbool (n_git_fetch_with_cli n));
     ("offline", fun n => dbg_opt dbg_vbool (n_offline n))]%string.
  - opt n_retry (dbg_opt dbg_vn).
  - opt n_git_fetch_with_cli (dbg_opt dbg_vbool).
  - opt n_offline (dbg_opt dbg_vbool).
Qed.
Lemma uniform_registries : uniform dbg_registries.
Proof.
  structure [("index", fun r => dbg_opt dbg_vstr (r_index r)); ("token", fun r => dbg_opt dbg_vstr (redact (r_token r)));
     ("protocol", fun r => dbg_opt (dbg_value dbg_protocol) (r_protocol r))]%string.
  - opt r_index (dbg_opt dbg_vstr).
  - opt (fun r => redact (r_token r)) (dbg_opt dbg_vstr).
  - opt r_protocol (dbg_opt (dbg_value dbg_protocol)).
Qed.
Lemma uniform_registry : uniform dbg_registry.
Proof.
  structure [("default", fun r => dbg_opt dbg_vstr (rg_default r)); ("token", fun r => dbg_opt dbg_vstr (redact (rg_token r)))]%string.
  - opt rg_default (dbg_opt dbg_vstr).
  - opt (fun r => redact (rg_token r)) (dbg_opt dbg_vstr).
Qed.
Lemma uniform_progress : uniform dbg_progress.
Proof.
  structure [("when", fun p => dbg_opt (dbg_value dbg_when) (p_when p)); ("width", fun p => dbg_opt dbg_vn (p_width p))]%string.
  - opt p_when (dbg_opt (dbg_value dbg_when)).
  - opt p_width (dbg_opt dbg_vn).
Qed.
Lemma uniform_term : uniform dbg_term.
Proof.
  structure [("quiet", fun t => dbg_opt dbg_vbool (tm_quiet t)); ("verbose", fun t => dbg_opt dbg_vbool (tm_verbose t));
     ("color", fun t => dbg_opt (dbg_value dbg_color) (tm_color t)); ("progress", fun t => dbg_progress (tm_progress t))]%string.
  - opt tm_quiet (dbg_opt dbg_vbool).
  - opt tm_verbose (dbg_opt dbg_vbool).
  - opt tm_color (dbg_opt (dbg_value dbg_color)).
  - exact (uniform_pull tm_progress _ uniform_progress).
Qed.
Lemma uniform_config : uniform dbg_config.
Proof.
  structure [("alias", fun c => dbg_map dbg_string_list (c_alias c)); ("build", fun c => dbg_build (c_build c)); ("doc", fun c => dbg_doc (c_doc c));
     ("env", fun c => dbg_map dbg_env_config_value (c_env c)); ("future_incompat_report", fun c => dbg_future (c_future_incompat_report c));
     ("cargo_new", fun c => dbg_cargo_new (c_cargo_new c)); ("http", fun c => dbg_http (c_http c)); ("net", fun c => dbg_net (c_net c));
     ("registries", fun c => dbg_map dbg_registries (c_registries c)); ("registry", fun c => dbg_registry (c_registry c));
     ("target", fun c => dbg_map dbg_target (c_target c)); ("term", fun c => dbg_term (c_term c))]%string.
  - opt c_alias (dbg_map dbg_string_list).
  - exact (uniform_pull c_build _ uniform_build).
  - exact (uniform_pull c_doc _ uniform_doc).
  - opt c_env (dbg_map dbg_env_config_value).
  - exact (uniform_pull c_future_incompat_report _ uniform_future).
  - exact (uniform_pull c_cargo_new _ uniform_cargo_new).
  - exact (uniform_pull c_http _ uniform_http).
  - exact (uniform_pull c_net _ uniform_net).
  - apply (uniform_pull c_registries (dbg_map dbg_registries)), uniform_map, uniform_registries.
  - exact (uniform_pull c_registry _ uniform_registry).
  - apply (uniform_pull c_target (dbg_map dbg_target)), uniform_map, uniform_target.
  - exact (uniform_pull c_term _ uniform_term).
Qed.
Lemma uniform_eflags : uniform edbg_flags.
Proof. apply (uniform_struct "Flags" [("flags"%string, fun f => DList (map DStr (ef_flags f)))]); [reflexivity|discriminate|reflexivity|]. repeat first [apply Forall_nil|apply Forall_cons; cbn [snd]]. exact (uniform_lists _ ef_flags uniform_str). Qed.
Lemma uniform_epa : uniform edbg_pa.
Proof.
  structure [("path", fun p => DOs (epa_path p)); ("args", fun p => DList (map DOs (epa_args p)))]%string.
  - exact (uniform_pull epa_path _ uniform_os).
  - exact (uniform_lists _ epa_args uniform_os).
Qed.

(** ** Reading *)
Lemma told_uniform plain quote {A} (f : A -> dbg) a b r r' : uniform f -> stop r -> stop r' ->
  debug_text plain quote (f a) ++ r = debug_text plain quote (f b) ++ r' -> f a = f b /\ r = r'.
Proof. intros U R R' E. exact (all_read_back plain quote (f a) (f b) (proj1 (U a)) (proj1 (U b)) (proj2 (U a) b) r r' R R' E). Qed.
Lemma text_uniform plain quote {A} (f : A -> dbg) a b : uniform f -> debug_text plain quote (f a) = debug_text plain quote (f b) -> f a = f b.
Proof. intros U E. apply (told_uniform plain quote f a b [] [] U I I). now rewrite E. Qed.
