(** Lemmas about the text of the report of a failed merge. *)
From Verif.Model Require Import Base Str BMap Error ErrorText Value De Debug JsonText DebugText.
From Verif.Spec Require Import StrSpec Utf8Spec ReportTextSpec DebugTextSpec.
From Verif.Proof Require Import StrFacts Utf8Proof LossyProof JsonProof DebugTextProof DebugProof DebugTreeProof.

#[local] Arguments B : simpl never.

(** ** Where strings start and end *)
Inductive scan := Out | In_string | Escaped.
Definition step (st : scan) (c : ascii) : option scan :=
  match st with
  | Out => if Ascii.eqb c """" then Some In_string else if (Ascii.eqb c "\" || Ascii.eqb c "`")%bool then None else Some Out
  | In_string => if Ascii.eqb c """" then Some Out else if Ascii.eqb c "\" then Some Escaped else Some In_string
  | Escaped => if Ascii.eqb c "`" then None else Some In_string
  end.
Fixpoint run (st : scan) (s : str) : option scan :=
  match s with [] => Some st | c :: s => match step st c with Some st' => run st' s | None => None end end.
Lemma run_app st a b : run st (a ++ b) = match run st a with Some st' => run st' b | None => None end.
Proof. revert st. induction a as [|c a IH]; intros st; [reflexivity|]. cbn [app run]. destruct (step st c); [apply IH|reflexivity]. Qed.

(** Read from inside and from outside at once, strings and what is between them change places. *)
Lemma run_opposite s a b : run Out s = Some a -> run In_string s = Some b -> a = Out -> b = In_string.
Proof.
  assert (K : forall s, (forall a b, run Out s = Some a -> run In_string s = Some b -> (a = Out /\ b = In_string) \/ (a = In_string /\ b = Out))
                        /\ (forall a b, run In_string s = Some a -> run Out s = Some b -> (a = Out /\ b = In_string) \/ (a = In_string /\ b = Out))).
  { clear. induction s as [|c s [IH1 IH2]]; [split; intros a b [= <-] [= <-]; auto|]. cbn [run step].
    destruct (Ascii.eqb c """"); [split; auto|]. destruct (Ascii.eqb c "\"); cbn [orb]; [split; intros; discriminate|].
    destruct (Ascii.eqb c "`"); [split; intros; discriminate|]. split; auto. }
  intros Ra Rb ->. destruct (proj1 (K s) Out b Ra Rb) as [[_ ->]|[H _]]; [reflexivity|discriminate H].
Qed.

Section Text.
Variable plain : N -> bool.
Variable quote : bool.
Notation text := (debug_text plain quote).

Definition calm (c : ascii) : bool := negb (Ascii.eqb c """" || Ascii.eqb c "\").
Definition outside (c : ascii) : bool := (calm c && negb (Ascii.eqb c "`"))%bool.
Lemma run_calm s x : forallb calm s = true -> run In_string (s ++ x) = run In_string x.
Proof.
  induction s as [|c s IH]; [reflexivity|]. cbn [forallb app run step]. intros H. apply andb_true_iff in H as [H H'].
  unfold calm in H. apply negb_true_iff, orb_false_iff in H as [-> ->]. now apply IH.
Qed.
Lemma run_outside s x : forallb outside s = true -> run Out (s ++ x) = run Out x.
Proof.
  induction s as [|c s IH]; [reflexivity|]. cbn [forallb app run step]. intros H. apply andb_true_iff in H as [H H'].
  unfold outside, calm in H. apply andb_true_iff in H as [H H2]. apply negb_true_iff in H2. apply negb_true_iff, orb_false_iff in H as [-> ->].
  rewrite H2. now apply IH.
Qed.
Lemma hex_calm n : forallb calm (hex_N n) = true.
Proof.
  rewrite forallb_forall. pose proof (hex_N_chars n) as F. rewrite Forall_forall in F. intros c I. apply F in I. clear F.
  all_bytes c; (reflexivity || discriminate I).
Qed.
Lemma upper_calm d : (d < 16)%N -> calm (upper_hex d) = true.
Proof. revert d. apply sixteen; reflexivity. Qed.
Lemma run_way u x y : way u x -> run In_string (x ++ y) = run In_string y.
Proof.
  intros [c Sh H1 H2|c l Sh Hl|c Sh|a L].
  - apply run_calm. destruct c as [|c s]; [reflexivity|]. cbn [forallb]. apply andb_true_iff. split.
    + unfold calm. apply negb_true_iff, orb_false_iff. split; apply Ascii.eqb_neq; intros ->; [now apply H2|now apply H1].
    + rewrite forallb_forall. pose proof (shape_tail _ Sh c s eq_refl) as F. rewrite Forall_forall in F. intros b I. apply F in I. clear F.
      unfold calm. apply negb_true_iff, orb_false_iff. split; apply Ascii.eqb_neq; intros ->; cbn in I; lia.
  - cbn [app run step]. cbn [In] in Hl. repeat (destruct Hl as [Hl|Hl]; [injection Hl as _ <-; reflexivity|]). destruct Hl.
  - rewrite <- !app_assoc. change (run In_string (hex_N (code_point c) ++ B "}" ++ y) = run In_string y). rewrite run_calm by apply hex_calm. reflexivity.
  - unfold debug_byte. rewrite <- app_assoc. change (B "\x" ++ ?z) with (["\"; "x"]%char ++ z). cbn [app run].
    change (step In_string "\") with (Some Escaped). cbv iota. change (step Escaped "x") with (Some In_string). cbv iota.
    pose proof (nb_lt a). assert (D1 : (nb a / 16 < 16)%N) by (apply N.div_lt_upper_bound; [discriminate|lia]).
    assert (D2 : (nb a mod 16 < 16)%N) by now apply N.mod_lt.
    change (run In_string ([upper_hex (nb a / 16); upper_hex (nb a mod 16)] ++ y) = run In_string y). apply run_calm. cbn [forallb].
    now rewrite !upper_calm.
Qed.
Lemma run_bytes os s x : run In_string (debug_bytes plain quote os s ++ x) = run In_string x.
Proof.
  induction s as [s IH] using strong_len_ind. destruct s as [|a s0]; [reflexivity|].
  destruct (dbytes_piece plain quote os (a :: s0) ltac:(discriminate)) as (u & w & q & P & Es & Nu & D).
  rewrite D, <- app_assoc, (run_way u w) by (eapply piece_way; eassumption).
  apply IH. rewrite Es, app_length. destruct u; [now destruct Nu|cbn; lia].
Qed.
Lemma run_str os s x : run Out (debug_str plain quote os s ++ x) = run Out x.
Proof. unfold debug_str. cbn [app run step]. rewrite Ascii.eqb_refl, <- app_assoc, run_bytes. reflexivity. Qed.
Lemma run_name n x : name_ok n = true -> run Out (B n ++ x) = run Out x.
Proof.
  intros H. apply name_word in H. apply run_outside. rewrite forallb_forall. rewrite Forall_forall in H. intros c I. apply H in I.
  all_bytes c; (reflexivity || discriminate I).
Qed.
Lemma run_commas l x : Forall (fun s => forall x, run Out (s ++ x) = run Out x) l -> run Out (comma_separated l ++ x) = run Out x.
Proof.
  induction 1 as [|s l H F IH]; [reflexivity|]. destruct l as [|s' l]; [apply H|]. cbn [comma_separated]. rewrite <- !app_assoc, H, run_outside by reflexivity. exact IH.
Qed.
Lemma run_decimal n x : run Out (decimal_N n ++ x) = run Out x.
Proof.
  unfold decimal_N. rewrite decimal_digits. apply run_outside. rewrite forallb_forall. intros c I. apply in_map_iff in I as (d & <- & I).
  pose proof (dfuel_small (S (N.to_nat (N.log2 n))) n) as F. rewrite Forall_forall in F. apply F in I. clear F.
  assert (L : (d < 16)%N) by lia. revert d L I. apply (sixteen (fun d => (d < 10)%N -> outside (digit d) = true)); intros; (reflexivity || lia).
Qed.
Lemma run_text t : named t -> forall x, run Out (text t ++ x) = run Out x.
Proof.
  induction t as [s|s|z|b|n|n l IH|n l IH|l IH|l IH|l IH] using dbg_tree_ind; intros N x.
  - apply run_str.
  - apply run_str.
  - cbn [debug_text]. unfold decimal_Z. destruct (Z.ltb z 0); [|apply run_decimal]. cbn [app run step]. apply run_decimal.
  - destruct b; reflexivity.
  - now apply run_name.
  - destruct N as (N1 & N2 & N3). rewrite tuple_text by exact N2. apply named_list in N3.
    rewrite <- !app_assoc, run_name, run_outside, run_commas by (assumption || reflexivity || (apply Forall_map; rewrite Forall_forall in *; auto)). reflexivity.
  - destruct N as (N1 & N2 & N3). rewrite struct_text by exact N2. apply named_fields in N3.
    rewrite <- !app_assoc, run_name, run_outside by (assumption || reflexivity). rewrite run_commas; [reflexivity|].
    apply Forall_map. rewrite Forall_forall in *. intros kv I y. destruct (N3 kv I). unfold field_text.
    rewrite <- !app_assoc, run_name, run_outside by (assumption || reflexivity). now apply IH.
  - cbn [debug_text named] in *. apply named_list in N. rewrite <- !app_assoc, run_outside, run_commas by (reflexivity || (apply Forall_map; rewrite Forall_forall in *; auto)). reflexivity.
  - cbn [debug_text named] in *. rewrite pair_texts. apply named_pairs in N. rewrite <- !app_assoc, run_outside by reflexivity. rewrite run_commas; [reflexivity|].
    apply Forall_map. rewrite Forall_forall in *. intros kv I y. destruct (N kv I), (IH kv I). unfold pair_text.
    rewrite <- !app_assoc. rewrite H1 by assumption. rewrite run_outside by reflexivity. auto.
  - cbn [debug_text named] in *. apply named_list in N. rewrite <- !app_assoc, run_outside, run_commas by (reflexivity || (apply Forall_map; rewrite Forall_forall in *; auto)). reflexivity.
Qed.

(** The part after the key: ["` between ... and ..."]. *)
Definition after_key (a b : dbg) : str := B " between " ++ text a ++ B " and " ++ text b.
Lemma run_after a b : named a -> named b -> run Out (after_key a b) = Some Out.
Proof.
  intros Na Nb. unfold after_key. rewrite run_outside by reflexivity. rewrite run_text by exact Na. rewrite run_outside by reflexivity.
  rewrite <- (app_nil_r (text b)). now rewrite run_text.
Qed.
Lemma app_split {A} (a a' b b' : list A) : a ++ b = a' ++ b' -> length a < length a' -> exists d, d <> [] /\ a' = a ++ d /\ b = d ++ b'.
Proof.
  revert a'. induction a as [|x a IH]; intros a' E L; cbn in *.
  - exists a'. split; [now destruct a'|auto].
  - destruct a' as [|y a']; cbn in L; [lia|]. injection E as -> E. destruct (IH a' E ltac:(lia)) as (d & D & -> & ->). exists d. auto.
Qed.
Lemma app_same_length {A} (a a' b b' : list A) : a ++ b = a' ++ b' -> length a = length a' -> a = a' /\ b = b'.
Proof.
  revert a'. induction a as [|x a IH]; intros [|y a'] E L; cbn in *; try discriminate L; [auto|]. injection E as -> E.
  destruct (IH a' E ltac:(lia)) as [-> ->]. auto.
Qed.
Lemma key_not_longer k k' a b a' b' : named a -> named b -> named a' -> named b' ->
  k ++ "`"%char :: after_key a b = k' ++ "`"%char :: after_key a' b' -> ~ length k < length k'.
Proof.
  intros Na Nb Na' Nb' E L. destruct (app_split _ _ _ _ E L) as (d & D & _ & E'). destruct d as [|c d]; [now destruct D|].
  cbn [app] in E'. injection E' as _ E'. pose proof (run_after a b Na Nb) as R. rewrite E', run_app in R.
  destruct (run Out d) as [st|]; [|discriminate R]. cbn [run] in R. destruct st; cbn [step] in R; [discriminate R| |discriminate R].
  change (Ascii.eqb "`" """") with false in R. change (Ascii.eqb "`" "\") with false in R. cbv iota in R.
  pose proof (run_opposite _ Out Out (run_after a' b' Na' Nb') R eq_refl) as H. discriminate H.
Qed.
Lemma report_read k k' a b a' b' : named a -> named b -> named a' -> named b' -> alike a a' -> alike b b' ->
  k ++ "`"%char :: after_key a b = k' ++ "`"%char :: after_key a' b' -> k = k' /\ a = a' /\ b = b'.
Proof.
  intros Na Nb Na' Nb' Aa Ab E.
  assert (L : length k = length k').
  { destruct (Nat.lt_trichotomy (length k) (length k')) as [L|[L|L]]; [|exact L|]; exfalso.
    - exact (key_not_longer k k' a b a' b' Na Nb Na' Nb' E L).
    - exact (key_not_longer k' k a' b' a b Na' Nb' Na Nb (eq_sym E) L). }
  apply app_same_length in E as [-> E]; [|exact L]. apply (f_equal (@tl ascii)) in E. cbn [tl] in E. unfold after_key in E. apply app_inv_head in E.
  apply (all_read_back plain quote a a' Na Na' Aa) in E as [-> E]; [|cbn; repeat split; discriminate..].
  apply app_inv_head in E. rewrite <- (app_nil_r (text b)), <- (app_nil_r (text b')) in E.
  apply (all_read_back plain quote b b' Nb Nb' Ab) in E as [-> _]; [auto|exact I..].
Qed.
End Text.

(** ** Entries *)
Lemma uniform_entry : uniform entry_view.
Proof.
  intros [x|x|x]; (split; [|intros [y|y|y]]); cbn [entry_view].
  - apply uniform_slist.
  - apply uniform_slist.
  - destruct y; [exact I|]. intros E. discriminate E.
  - intros E. discriminate E.
  - apply uniform_env.
  - destruct x; [exact I|]. intros E. discriminate E.
  - apply uniform_env.
  - destruct x; [exact I|]. intros E. discriminate E.
  - apply uniform_target.
  - intros E. discriminate E.
  - destruct y; [exact I|]. intros E. discriminate E.
  - apply uniform_target.
Qed.
Lemma entry_inj : inj entry_view.
Proof.
  intros [x|x|x] [y|y|y]; cbn [entry_view]; intros E.
  - f_equal. now apply slist_inj.
  - destruct y; discriminate E.
  - discriminate E.
  - destruct x; discriminate E.
  - f_equal. now apply env_inj.
  - destruct x; discriminate E.
  - discriminate E.
  - destruct y; discriminate E.
  - f_equal. now apply target_inj.
Qed.
Lemma report_told io plain quote k k' x y x' y' c c' :
  error_text io (debug_text plain quote) (EWithContext (MMergeKey k (entry_view x) (entry_view y)) c)
  = error_text io (debug_text plain quote) (EWithContext (MMergeKey k' (entry_view x') (entry_view y')) c') -> k = k' /\ x = x' /\ y = y'.
Proof.
  unfold error_text, msg_text, bt. rewrite <- !app_assoc. intros E. apply app_inv_head in E. apply app_inv_head in E.
  apply (report_read plain quote) in E as (-> & E1 & E2); [|apply uniform_entry..]. apply entry_inj in E1, E2. auto.
Qed.
