(** Lemmas about the text of Debug output: strings. *)
From Verif.Model Require Import Base Str JsonText DebugText.
From Verif.Spec Require Import StrSpec Utf8Spec DebugTextSpec.
From Verif.Proof Require Import StrFacts Utf8Proof LossyProof JsonProof.

#[local] Arguments B : simpl never.

(** ** Characters and their numbers *)
Lemma code_encodes n c : encodes n c -> code_point c = n.
Proof.
  intros [m L|m a b L E Lb|m a b d L S E Lb Ld|m a b d e L E Lb Ld Le]; cbn [bytes map code_point];
    rewrite !nb_of by lia; lia.
Qed.
Lemma shape_encodes c : char_shape c -> encodes (code_point c) c.
Proof. intros Sh. apply encodes_shape in Sh as (n & E). now rewrite (code_encodes n c E). Qed.
Lemma encodes_fun n c c' : encodes n c -> encodes n c' -> c = c'.
Proof.
  intros [m L|m a b L E Lb|m a b d L S E Lb Ld|m a b d e L E Lb Ld Le] H'; inversion H'; subst; try lia; try reflexivity;
    unfold bytes; cbn [map]; repeat f_equal; lia.
Qed.
Lemma code_inj c c' : char_shape c -> char_shape c' -> code_point c = code_point c' -> c = c'.
Proof. intros Sh Sh' E. apply (encodes_fun (code_point c)); [now apply shape_encodes|]. rewrite E. now apply shape_encodes. Qed.
Lemma shape_small c : char_shape c -> (code_point c < 128)%N -> exists a, c = [a] /\ (nb a < 128)%N /\ code_point c = nb a.
Proof.
  intros Sh L. destruct Sh as [a A|a b A Bb|a b d A Bb D|a b d e A Bb D F]; [now exists a|..]; exfalso;
    cbn [code_point] in L; rewrite ?in_range_iff, ?second3_iff, ?second4_iff, ?cont_iff in *; lia.
Qed.
Lemma shape_large c : char_shape c -> (128 <= code_point c)%N -> Forall (fun a => 128 <= nb a)%N c.
Proof.
  intros Sh L. destruct Sh as [a A|a b A Bb|a b d A Bb D|a b d e A Bb D F]; [cbn in L; lia|..];
    rewrite ?in_range_iff, ?second3_iff, ?second4_iff, ?cont_iff in *; repeat constructor; lia.
Qed.

(** ** Numbers in base 16 *)
Fixpoint hfuel (k : nat) (n : N) : list N :=
  match k with O => [] | S k' => (if N.ltb n 16 then [] else hfuel k' (N.div n 16)) ++ [N.modulo n 16] end.
Lemma hex_digits k n : hex_fuel k n = map hex (hfuel k n).
Proof.
  revert n. induction k as [|k IH]; intros n; [reflexivity|]. cbn [hex_fuel hfuel]. rewrite map_app.
  destruct (N.ltb n 16); [reflexivity|]. now rewrite IH.
Qed.
Lemma hfuel_small k n : Forall (fun d => d < 16)%N (hfuel k n).
Proof.
  revert n. induction k as [|k IH]; intros n; [constructor|]. cbn [hfuel]. apply Forall_app. split.
  - destruct (N.ltb n 16); [constructor|apply IH].
  - constructor; [now apply N.mod_lt|constructor].
Qed.
Definition amount16 (ds : list N) : N := fold_left (fun a d => 16 * a + d)%N ds 0%N.
Lemma amount16_snoc l d : amount16 (l ++ [d]) = (16 * amount16 l + d)%N.
Proof. unfold amount16. now rewrite fold_left_app. Qed.
Lemma hfuel_amount k n : (n < 2 ^ N.of_nat k)%N -> amount16 (hfuel k n) = n.
Proof.
  revert n. induction k as [|k IH]; intros n H.
  - cbn in H. assert (n = 0)%N by lia. now subst n.
  - cbn [hfuel]. rewrite amount16_snoc. destruct (N.ltb_spec n 16) as [L|L].
    + unfold amount16. cbn [fold_left]. now rewrite N.mod_small.
    + rewrite IH.
      * symmetry. now apply N.div_mod.
      * apply N.div_lt_upper_bound; [discriminate|]. rewrite Nat2N.inj_succ, N.pow_succ_r' in H. lia.
Qed.
Lemma hfuel_head k n : (0 < n < 2 ^ N.of_nat k)%N -> hd 0%N (hfuel k n) <> 0%N.
Proof.
  revert n. induction k as [|k IH]; intros n H.
  - cbn in H. lia.
  - cbn [hfuel]. destruct (N.ltb_spec n 16) as [L|L].
    + cbn [app hd]. rewrite N.mod_small by exact L. lia.
    + assert (D : (0 < n / 16 < 2 ^ N.of_nat k)%N).
      { split; [apply N.div_str_pos; lia|]. apply N.div_lt_upper_bound; [discriminate|]. rewrite Nat2N.inj_succ, N.pow_succ_r' in H. lia. }
      specialize (IH _ D). destruct (hfuel k (n / 16)) as [|a l]; [cbn [hd] in IH; congruence|]. exact IH.
Qed.
Lemma amount16_pos ds : hd 0%N ds <> 0%N -> (0 < amount16 ds)%N.
Proof.
  induction ds as [|d ds IH] using rev_ind; [now intros []|]. rewrite amount16_snoc. destruct ds as [|e ds].
  - cbn [app hd]. unfold amount16. cbn. lia.
  - cbn [app hd] in *. intros H. specialize (IH H). lia.
Qed.
Lemma hfuel_unique ds : Forall (fun d => d < 16)%N ds -> hd 0%N ds <> 0%N -> forall k, (amount16 ds < 2 ^ N.of_nat k)%N -> hfuel k (amount16 ds) = ds.
Proof.
  induction ds as [|d ds IH] using rev_ind; [now intros _ []|]. intros F H k K. apply Forall_app in F as [F D]. inversion_clear D as [|? ? L _].
  rewrite amount16_snoc in *. destruct k as [|k]; [change (2 ^ N.of_nat 0)%N with 1%N in K; assert (16 * amount16 ds + d = 0)%N by lia; exfalso|].
  { destruct ds as [|e ds]; [cbn [app hd] in H; change (amount16 []) with 0%N in *; lia|]. cbn [app hd] in H. assert (0 < amount16 (e :: ds))%N by now apply amount16_pos. lia. }
  cbn [hfuel]. assert (M : ((16 * amount16 ds + d) mod 16 = d)%N) by (rewrite N.add_comm, N.mul_comm, N.mod_add, N.mod_small by (exact L || discriminate); reflexivity).
  assert (V : ((16 * amount16 ds + d) / 16 = amount16 ds)%N) by (rewrite N.add_comm, N.mul_comm, N.div_add, N.div_small by (exact L || discriminate); reflexivity).
  rewrite M, V. f_equal. destruct ds as [|e ds].
  - unfold amount16. cbn [fold_left]. destruct (N.ltb_spec (16 * 0 + d) 16); [reflexivity|lia].
  - cbn [app hd] in H. assert (0 < amount16 (e :: ds))%N by now apply amount16_pos.
    destruct (N.ltb_spec (16 * amount16 (e :: ds) + d) 16); [lia|]. apply IH; [exact F|exact H|].
    rewrite Nat2N.inj_succ, N.pow_succ_r' in K. lia.
Qed.
Lemma sixteen (P : N -> Prop) : P 0%N -> P 1%N -> P 2%N -> P 3%N -> P 4%N -> P 5%N -> P 6%N -> P 7%N -> P 8%N -> P 9%N ->
  P 10%N -> P 11%N -> P 12%N -> P 13%N -> P 14%N -> P 15%N -> forall d, (d < 16)%N -> P d.
Proof. intros. destruct d as [|p]; [assumption|]. do 4 (destruct p as [p|p|]; try assumption; try lia). Qed.
Lemma hex_letter d : (d < 16)%N -> nth (N.to_nat d) (B "0123456789abcdef") " "%char = hex d.
Proof. revert d. apply sixteen; reflexivity. Qed.
Lemma upper_letter d : (d < 16)%N -> nth (N.to_nat d) (B "0123456789ABCDEF") " "%char = upper_hex d.
Proof. revert d. apply sixteen; reflexivity. Qed.
Definition is_hex (c : ascii) : bool := existsb (Ascii.eqb c) (B "0123456789abcdef").
Lemma hex_is d : (d < 16)%N -> is_hex (hex d) = true.
Proof. revert d. apply sixteen; reflexivity. Qed.
Lemma hex_zero d : (d < 16)%N -> hex d = "0"%char -> d = 0%N.
Proof. revert d. apply (sixteen (fun d => hex d = "0"%char -> d = 0%N)); intros E; (reflexivity || discriminate E). Qed.
Definition unhex (c : ascii) : N := if N.ltb (nb c) 58 then (nb c - 48)%N else (nb c - 87)%N.
Lemma unhex_hex d : (d < 16)%N -> unhex (hex d) = d.
Proof. revert d. apply sixteen; reflexivity. Qed.
Definition unhex_upper (c : ascii) : N := if N.ltb (nb c) 58 then (nb c - 48)%N else (nb c - 55)%N.
Lemma unhex_upper_hex d : (d < 16)%N -> unhex_upper (upper_hex d) = d.
Proof. revert d. apply sixteen; reflexivity. Qed.

Lemma hex_N_numeral n : n <> 0%N -> exists d h, hex_N n = d :: h /\ d <> "0"%char /\ numeral "0123456789abcdef" (d :: h) n.
Proof.
  intros N0. unfold hex_N. set (k := S (N.to_nat (N.log2 n))). rewrite hex_digits.
  assert (H : (0 < n < 2 ^ N.of_nat k)%N) by (split; [lia|apply fuel_enough]).
  pose proof (hfuel_small k n) as F. pose proof (hfuel_head k n H) as Hd. pose proof (hfuel_amount k n (proj2 H)) as A.
  destruct (hfuel k n) as [|d l]; [now destruct Hd|]. exists (hex d), (map hex l). split; [reflexivity|]. split.
  - intros E. apply Hd. apply hex_zero; [now inversion F|exact E].
  - exists (d :: l). split; [exact F|]. split; [|exact A]. change (hex d :: map hex l) with (map hex (d :: l)).
    apply map_ext_in. intros x Hx. rewrite Forall_forall in F. symmetry. now apply hex_letter, F.
Qed.
Lemma numeral_unique d h n : numeral "0123456789abcdef" (d :: h) n -> d <> "0"%char -> hex_N n = d :: h.
Proof.
  intros (ds & F & E & V) N0. change (fold_left _ ds 0%N) with (amount16 ds) in V. subst n.
  unfold hex_N. rewrite hex_digits, hfuel_unique; [|exact F| |apply fuel_enough].
  - rewrite E. apply map_ext_in. intros x Hx. rewrite Forall_forall in F. symmetry. now apply hex_letter, F.
  - destruct ds as [|e ds]; [discriminate E|]. cbn [hd]. intros ->. now injection E as -> _.
Qed.
Lemma hex_N_chars n : Forall (fun c => is_hex c = true) (hex_N n).
Proof.
  unfold hex_N. rewrite hex_digits. apply Forall_map. apply (Forall_impl (P := fun d => (d < 16)%N)); [|apply hfuel_small].
  intros d. apply hex_is.
Qed.
Lemma hex_N_inj n n' : hex_N n = hex_N n' -> n = n'.
Proof.
  unfold hex_N. rewrite !hex_digits. intros E. apply (f_equal (map unhex)) in E. rewrite !map_map in E.
  assert (K : forall k m, map (fun x => unhex (hex x)) (hfuel k m) = hfuel k m).
  { intros k m. rewrite <- map_id. apply map_ext_in. intros x Hx. apply unhex_hex. pose proof (hfuel_small k m) as F. rewrite Forall_forall in F. now apply F. }
  rewrite !K in E. rewrite <- (hfuel_amount _ n (fuel_enough n)), <- (hfuel_amount _ n' (fuel_enough n')). now rewrite E.
Qed.

(** ** What is written for one character or byte *)
Section Text.
Variable plain : N -> bool.
Variable quote : bool.
Notation dchar := (debug_char plain quote).
Notation dbytes := (debug_bytes plain quote).

Lemma named n (t : string) : In (n, t) short_names -> forall os c, code_point c = n -> dchar os c = B t.
Proof.
  intros H os c E. unfold debug_char. rewrite E.
  repeat (destruct H as [H|H]; [injection H as <- <-; reflexivity|]). destruct H.
Qed.
Definition printed (n : N) : bool := if N.ltb n 128 then (N.leb 32 n && N.ltb n 127)%bool else plain n.
Lemma printed_iff n : printed n = true <-> visible plain n.
Proof.
  unfold printed, visible. destruct (N.ltb_spec n 128).
  - rewrite andb_true_iff, N.leb_le, N.ltb_lt. split; [auto|]. intros [K|[K _]]; lia.
  - split; [auto|]. intros [K|[_ K]]; [lia|exact K].
Qed.
Lemma dchar_cases os c :
  (exists t, In (code_point c, t) short_names /\ dchar os c = B t)
  \/ (~ has_name (code_point c)
      /\ ((code_point c = 39%N /\ os = true /\ quote = true /\ dchar os c = B "\'")
          \/ (~ (code_point c = 39%N /\ os = true /\ quote = true)
              /\ ((visible plain (code_point c) /\ dchar os c = c)
                  \/ (~ visible plain (code_point c) /\ dchar os c = B "\u{" ++ hex_N (code_point c) ++ B "}"))))).
Proof.
  rewrite <- printed_iff. unfold debug_char, printed, has_name, short_names. cbn [map fst In].
  destruct (N.eqb_spec (code_point c) 0) as [->|N0]; [left; eexists; split; [left; reflexivity|reflexivity]|].
  destruct (N.eqb_spec (code_point c) 9) as [->|N1]; [left; eexists; split; [right; left; reflexivity|reflexivity]|].
  destruct (N.eqb_spec (code_point c) 13) as [->|N2]; [left; eexists; split; [do 3 right; left; reflexivity|reflexivity]|].
  destruct (N.eqb_spec (code_point c) 10) as [->|N3]; [left; eexists; split; [do 2 right; left; reflexivity|reflexivity]|].
  destruct (N.eqb_spec (code_point c) 92) as [->|N4]; [left; eexists; split; [do 5 right; left; reflexivity|reflexivity]|].
  destruct (N.eqb_spec (code_point c) 34) as [->|N5]; [left; eexists; split; [do 4 right; left; reflexivity|reflexivity]|].
  right. split; [intuition congruence|].
  destruct (N.eqb_spec (code_point c) 39) as [->|N6].
  - destruct os, quote; cbn [andb]; [left; auto|right..]; (split; [intuition congruence|]); left; split; reflexivity.
  - cbn [andb]. right. split; [intuition congruence|]. destruct (if N.ltb (code_point c) 128 then _ else _); [left; auto|right].
    split; [discriminate|reflexivity].
Qed.

Lemma dchar_shown os n c u : encodes n c -> (dchar os c = u <-> char_shown plain quote os n c u).
Proof.
  intros E. pose proof (code_encodes n c E) as Cn. pose proof (dchar_cases os c) as D. rewrite Cn in D. split.
  - intros <-. destruct D as [(t & H & ->)|(Nn & [(-> & O & Q & ->)|(Nq & [(V & ->)|(V & ->)])])].
    + now constructor.
    + now constructor.
    + now constructor.
    + assert (N0 : n <> 0%N) by (intros ->; apply Nn; left; reflexivity).
      destruct (hex_N_numeral n N0) as (d & h & -> & Z & M). now constructor.
  - intros H. destruct H as [n c t H|c O Q|n c V Nn Nq|n c d h V Nn M Z].
    + now apply (named n).
    + destruct D as [(t & H & _)|(Nn & [(_ & _ & _ & ->)|(Nq & _)])]; [|reflexivity|now destruct Nq].
      repeat (destruct H as [H|H]; [discriminate H|]). destruct H.
    + destruct D as [(t & H & _)|(_ & [(K & O & Q & _)|(_ & [(_ & ->)|(K & _)])])]; [|now destruct Nq|reflexivity|contradiction].
      destruct Nn. exact (in_map fst _ _ H).
    + destruct D as [(t & H & _)|(_ & [(K & _ & _ & _)|(_ & [(K & _)|(_ & ->)])])]; [|subst; destruct V; left; lia|contradiction|].
      * destruct Nn. exact (in_map fst _ _ H).
      * now rewrite (numeral_unique d h n M Z).
Qed.
Lemma dbyte_shown b u : debug_byte b = u <-> byte_shown b u.
Proof.
  pose proof (nb_lt b) as L. assert (D1 : (nb b / 16 < 16)%N) by (apply N.div_lt_upper_bound; [discriminate|lia]).
  assert (D2 : (nb b mod 16 < 16)%N) by now apply N.mod_lt. unfold debug_byte. split.
  - intros <-. exists [upper_hex (nb b / 16); upper_hex (nb b mod 16)]. split; [reflexivity|]. split; [reflexivity|].
    exists [nb b / 16; nb b mod 16]%N. split; [repeat constructor; assumption|]. split.
    + cbn [map]. now rewrite !upper_letter.
    + cbn [fold_left]. change (N_of_ascii b) with (nb b). rewrite N.mul_0_r, N.add_0_l. symmetry. now apply N.div_mod.
  - intros (h & -> & Len & ds & F & -> & V). rewrite map_length in Len.
    destruct ds as [|d [|e [|]]]; try discriminate Len. inversion_clear F as [|? ? L1 F']. inversion_clear F' as [|? ? L2 _].
    cbn [fold_left] in V. change (N_of_ascii b) with (nb b) in V. rewrite <- V, N.mul_0_r, N.add_0_l.
    cbn [map]. rewrite !upper_letter by assumption.
    rewrite (N.add_comm (16 * d)), (N.mul_comm 16), N.mod_add, N.mod_small, N.div_add, N.div_small by (assumption || discriminate).
    reflexivity.
Qed.

(** ** One step *)
Lemma dbytes_char os c s : char_shape c -> dbytes os (c ++ s) = dchar os c ++ dbytes os s.
Proof.
  intros [a L|a b A Bb|a b d A Bb D|a b d e A Bb D E]; cbn [app debug_bytes].
  - apply N.ltb_lt in L. now rewrite L.
  - apply in_range_iff in A as A'. replace (nb a <? 128)%N with false by (symmetry; apply N.ltb_ge; lia).
    now rewrite A, Bb.
  - apply in_range_iff in A as A'. replace (nb a <? 128)%N with false by (symmetry; apply N.ltb_ge; lia).
    replace (in_range 194 223 (nb a)) with false by (symmetry; apply range_false; lia). now rewrite A, Bb, D.
  - apply in_range_iff in A as A'. replace (nb a <? 128)%N with false by (symmetry; apply N.ltb_ge; lia).
    replace (in_range 194 223 (nb a)) with false by (symmetry; apply range_false; lia).
    replace (in_range 224 239 (nb a)) with false by (symmetry; apply range_false; lia). now rewrite A, Bb, D, E.
Qed.
Lemma starts_dec s : (exists c r, char_shape c /\ s = c ++ r) \/ (forall c r, char_shape c -> s <> c ++ r).
Proof.
  destruct s as [|a t1]; [right; intros c r Sh E; now destruct Sh|].
  destruct (N.ltb_spec (nb a) 128) as [L|L]; [left; exists [a], t1; split; [now constructor|reflexivity]|].
  destruct (in_range 194 223 (nb a)) eqn:A2.
  { destruct t1 as [|b t2]; [right; no_char|]. destruct (cont b) eqn:Cb; [|right; no_char].
    left. exists [a; b], t2. split; [now apply cs2|reflexivity]. }
  destruct (in_range 224 239 (nb a)) eqn:A3.
  { destruct t1 as [|b [|c t3]]; [right; no_char..|]. destruct (second3 a b) eqn:Cb; [|right; no_char].
    destruct (cont c) eqn:Cc; [|right; no_char]. left. exists [a; b; c], t3. split; [now apply cs3|reflexivity]. }
  destruct (in_range 240 244 (nb a)) eqn:A4; [|right; no_char].
  destruct t1 as [|b [|c [|d t4]]]; [right; no_char..|]. destruct (second4 a b) eqn:Cb; [|right; no_char].
  destruct (cont c) eqn:Cc; [|right; no_char]. destruct (cont d) eqn:Cd; [|right; no_char].
  left. exists [a; b; c; d], t4. split; [now apply cs4|reflexivity].
Qed.
Lemma dbytes_byte os a s : (forall c r, char_shape c -> a :: s <> c ++ r) -> dbytes os (a :: s) = debug_byte a ++ dbytes os s.
Proof.
  intros H. cbn [debug_bytes]. destruct (N.ltb_spec (nb a) 128) as [L|L]; [now destruct (H [a] s ltac:(now constructor))|].
  destruct (in_range 194 223 (nb a)) eqn:A2.
  { destruct s as [|b t2]; [cbn [debug_bytes]; now rewrite app_nil_r|]. destruct (cont b) eqn:Cb; [|reflexivity].
    now destruct (H [a; b] t2 ltac:(now apply cs2)). }
  destruct (in_range 224 239 (nb a)) eqn:A3.
  { destruct s as [|b [|c t3]]; try reflexivity. destruct (second3 a b) eqn:Cb; [|reflexivity]. destruct (cont c) eqn:Cc; [|reflexivity].
    now destruct (H [a; b; c] t3 ltac:(now apply cs3)). }
  destruct (in_range 240 244 (nb a)) eqn:A4; [|reflexivity].
  destruct s as [|b [|c [|d t4]]]; try reflexivity. destruct (second4 a b) eqn:Cb; [|reflexivity]. destruct (cont c) eqn:Cc; [|reflexivity].
  destruct (cont d) eqn:Cd; [|reflexivity]. now destruct (H [a; b; c; d] t4 ltac:(now apply cs4)).
Qed.

(** ** The whole text *)
Lemma replaced_shape p s : to_replace p s -> pshape p \/ length p = 1.
Proof. intros (_ & [(C & _)|(L & _)]); [left; now apply cut_short_iff|now right]. Qed.
Lemma cont_no_char b s : cont b = true -> forall c r, char_shape c -> b :: s <> c ++ r.
Proof. intros C. apply cont_iff in C. no_char. Qed.
Lemma second3_cont a b : second3 a b = true -> cont b = true.
Proof. rewrite second3_iff, cont_iff. lia. Qed.
Lemma second4_cont a b : second4 a b = true -> cont b = true.
Proof. rewrite second4_iff, cont_iff. lia. Qed.
Lemma dbytes_replaced os p s : to_replace p s -> dbytes os (p ++ s) = flat_map debug_byte p ++ dbytes os s.
Proof.
  intros R. assert (NC : forall c r, char_shape c -> p ++ s <> c ++ r).
  { intros c r Sh E. apply (proj1 R). apply starts_iff. eauto. }
  destruct (replaced_shape p s R) as [Sh|Len].
  - destruct Sh as [a A|a b A Bb|a b A Bb|a b c A Bb Cc]; cbn [app flat_map] in *.
    + rewrite app_nil_r. now apply dbytes_byte.
    + rewrite app_nil_r, <- app_assoc, dbytes_byte by exact NC. f_equal. apply dbytes_byte, cont_no_char. now apply second3_cont in Bb.
    + rewrite app_nil_r, <- app_assoc, dbytes_byte by exact NC. f_equal. apply dbytes_byte, cont_no_char. now apply second4_cont in Bb.
    + rewrite app_nil_r, <- !app_assoc, dbytes_byte by exact NC. f_equal. rewrite dbytes_byte by (apply cont_no_char; now apply second4_cont in Bb).
      f_equal. now apply dbytes_byte, cont_no_char.
  - destruct p as [|a [|]]; try discriminate Len. cbn [app flat_map] in *. rewrite app_nil_r. now apply dbytes_byte.
Qed.
Lemma replaced_not_nil p s : to_replace p s -> p <> [].
Proof. intros (_ & [((C & _) & _)|(L & _)]); [exact C|]. now destruct p. Qed.
Lemma bytes_shown_iff p us : Forall2 byte_shown p us <-> us = map debug_byte p.
Proof.
  split.
  - induction 1 as [|b u p us H F IH]; [reflexivity|]. cbn [map]. f_equal; [|exact IH]. symmetry. now apply dbyte_shown.
  - intros ->. induction p as [|b p IH]; constructor; [now apply dbyte_shown|exact IH].
Qed.
(** Every text not starting with a character has a part to replace. *)
Lemma lossy_step s : s <> [] -> (exists c r, char_shape c /\ s = c ++ r) \/ (exists p r, to_replace p r /\ s = p ++ r).
Proof.
  intros H. pose proof (lossy_repaired s) as R. destruct R as [|n c s t E R|p s t T R]; [now destruct H| |].
  - left. exists c, s. split; [apply encodes_shape; eauto|reflexivity].
  - right. eauto.
Qed.
Lemma dbytes_shown os s : text_shown plain quote os s (dbytes os s).
Proof.
  induction s as [s IH] using strong_len_ind. destruct s as [|a s0]; [constructor|].
  destruct (lossy_step (a :: s0) ltac:(discriminate)) as [(c & r & Sh & E)|(p & r & T & E)]; rewrite E in *.
  - rewrite dbytes_char by exact Sh. pose proof (shape_encodes c Sh) as En. apply (shown_char _ _ _ (code_point c)); [exact En|now apply dchar_shown|].
    apply IH. rewrite app_length. destruct c; [now apply shape_not_nil in Sh|cbn; lia].
  - rewrite dbytes_replaced by exact T. replace (flat_map debug_byte p) with (concat (map debug_byte p)) by (symmetry; apply flat_map_concat_map).
    apply shown_bytes; [exact T|now apply bytes_shown_iff|]. apply IH. rewrite app_length. destruct p; [now apply replaced_not_nil in T|cbn; lia].
Qed.
Lemma shown_dbytes os s t : text_shown plain quote os s t -> dbytes os s = t.
Proof.
  induction 1 as [|n c u s t E C H IH|p us s t T F H IH]; [reflexivity| |].
  - rewrite dbytes_char by (apply encodes_shape; eauto). f_equal; [now apply (dchar_shown os n c u E)|exact IH].
  - rewrite dbytes_replaced by exact T. apply bytes_shown_iff in F. subst us. rewrite flat_map_concat_map. f_equal. exact IH.
Qed.

(** ** The writing can be undone *)
Definition piece (os : bool) (u x : str) : Prop :=
  (char_shape u /\ x = dchar os u) \/ (exists a, u = [a] /\ (128 <= nb a)%N /\ x = debug_byte a).
Lemma dbytes_piece os s : s <> [] -> exists u x r, piece os u x /\ s = u ++ r /\ u <> [] /\ dbytes os s = x ++ dbytes os r.
Proof.
  intros H. destruct (starts_dec s) as [(c & r & Sh & ->)|NC].
  - exists c, (dchar os c), r. repeat split; [left; auto|now apply shape_not_nil|now apply dbytes_char].
  - destruct s as [|a s]; [now destruct H|]. exists [a], (debug_byte a), s. repeat split; [right|discriminate|now apply dbytes_byte].
    exists a. repeat split. destruct (N.le_gt_cases 128 (nb a)) as [L|L]; [exact L|]. now destruct (NC [a] s ltac:(now constructor)).
Qed.

(** The four ways of writing. *)
Inductive way : str -> str -> Prop :=
| way_plain c : char_shape c -> hd_error c <> Some "\"%char -> hd_error c <> Some """"%char -> way c c
| way_letter c l : char_shape c ->
    In (code_point c, l) [(0, "0"); (9, "t"); (10, "n"); (13, "r"); (34, """"); (92, "\"); (39, "'")]%N%char -> way c ["\"%char; l]
| way_number c : char_shape c -> way c (B "\u{" ++ hex_N (code_point c) ++ B "}")
| way_byte a : (128 <= nb a)%N -> way [a] (debug_byte a).
Lemma piece_way os u x : piece os u x -> way u x.
Proof.
  intros [[Sh ->]|(a & -> & L & ->)]; [|now constructor].
  destruct (dchar_cases os u) as [(t & H & ->)|(Nn & [(E & _ & _ & ->)|(_ & [(V & ->)|(_ & ->)])])].
  - repeat (destruct H as [H|H]; [injection H as E <-; apply way_letter; [exact Sh|rewrite <- E; cbn; tauto]|]). destruct H.
  - apply (way_letter u "'"); [exact Sh|]. rewrite E. cbn. tauto.
  - assert (K : forall b n, nb b = n -> (n < 128)%N -> has_name n -> hd_error u <> Some b).
    { intros b n Nb Ln Hn E. apply Nn. destruct u as [|a u]; [discriminate E|]. injection E as ->.
      destruct (N.lt_ge_cases (code_point (b :: u)) 128) as [L|L].
      - destruct (shape_small _ Sh L) as (a & Ea & _ & Ec). injection Ea as -> ->. rewrite Ec, Nb. exact Hn.
      - pose proof (shape_large _ Sh L) as F. inversion F. lia. }
    apply way_plain; [exact Sh|apply (K _ 92%N)|apply (K _ 34%N)]; try reflexivity; cbn; tauto.
  - now apply way_number.
Qed.
Lemma hex_stop h h' r r' : Forall (fun c => is_hex c = true) h -> Forall (fun c => is_hex c = true) h' ->
  h ++ "}"%char :: r = h' ++ "}"%char :: r' -> h = h' /\ r = r'.
Proof.
  intros F. revert h'. induction F as [|c h C F IH]; intros h' F' E; destruct F' as [|c' h' C' F']; cbn [app] in E.
  - now injection E as ->.
  - injection E as <- _. discriminate C'.
  - injection E as -> _. discriminate C.
  - injection E as -> E. destruct (IH h' F' E) as [-> ->]. auto.
Qed.
Lemma upper_hex_inj d d' : (d < 16)%N -> (d' < 16)%N -> upper_hex d = upper_hex d' -> d = d'.
Proof. intros L L' E. apply (f_equal unhex_upper) in E. now rewrite !unhex_upper_hex in E. Qed.
Lemma debug_byte_inj a a' r r' : debug_byte a ++ r = debug_byte a' ++ r' -> a = a' /\ r = r'.
Proof.
  unfold debug_byte. rewrite <- !app_assoc. intros E. apply app_inv_head in E. cbn [app] in E. injection E as E1 E2 Er.
  split; [|exact Er]. assert (K : forall b, (nb b / 16 < 16)%N /\ (nb b mod 16 < 16)%N).
  { intros b. pose proof (nb_lt b). split; [apply N.div_lt_upper_bound; [discriminate|lia]|now apply N.mod_lt]. }
  apply upper_hex_inj in E1; [|apply K..]. apply upper_hex_inj in E2; [|apply K..].
  rewrite <- (of_nb a), <- (of_nb a'). f_equal. rewrite (N.div_mod (nb a) 16), (N.div_mod (nb a') 16) by discriminate. now rewrite E1, E2.
Qed.
Lemma letter_code n n' l : In (n, l) [(0, "0"); (9, "t"); (10, "n"); (13, "r"); (34, """"); (92, "\"); (39, "'")]%N%char ->
  In (n', l) [(0, "0"); (9, "t"); (10, "n"); (13, "r"); (34, """"); (92, "\"); (39, "'")]%N%char -> n = n'.
Proof. cbn [In]. intros H H'. repeat (destruct H as [H|H]; [injection H as <- <-; intuition congruence|]). destruct H. Qed.
Lemma letter_not n l : In (n, l) [(0, "0"); (9, "t"); (10, "n"); (13, "r"); (34, """"); (92, "\"); (39, "'")]%N%char -> l <> "u"%char /\ l <> "x"%char.
Proof. cbn [In]. intros H. repeat (destruct H as [H|H]; [injection H as <- <-; split; discriminate|]). destruct H. Qed.
Lemma way_prefix u x u' x' r r' : way u x -> way u' x' -> x ++ r = x' ++ r' -> u = u' /\ r = r'.
Proof.
  intros H H' E. destruct H as [c Sh H1 H2|c l Sh Hl|c Sh|a L]; destruct H' as [c' Sh' H1' H2'|c' l' Sh' Hl'|c' Sh'|a' L'].
  1: now apply shape_prefix.
  1-3: exfalso; apply H1; destruct c; [now apply shape_not_nil in Sh|]; injection E as -> _; reflexivity.
  1,5,9: exfalso; apply H1'; destruct c'; [now apply shape_not_nil in Sh'|]; injection E as <- _; reflexivity.
  - cbn [app] in E. injection E as -> ->. split; [|reflexivity]. apply code_inj; [assumption..|]. exact (letter_code _ _ _ Hl Hl').
  - exfalso. injection E as -> _. now destruct (letter_not _ _ Hl).
  - exfalso. injection E as -> _. now destruct (letter_not _ _ Hl).
  - exfalso. injection E as <- _. now destruct (letter_not _ _ Hl').
  - rewrite <- !app_assoc in E. apply app_inv_head in E. apply hex_stop in E as [E ->]; [|apply hex_N_chars..].
    split; [|reflexivity]. apply code_inj; [assumption..|]. now apply hex_N_inj.
  - exfalso. discriminate E.
  - exfalso. injection E as <- _. now destruct (letter_not _ _ Hl').
  - exfalso. discriminate E.
  - apply debug_byte_inj in E as [-> ->]. auto.
Qed.
Lemma way_head u x : way u x -> exists c y, x = c :: y /\ c <> """"%char.
Proof.
  intros [c Sh H1 H2|c l Sh Hl|c Sh|a L]; try (do 2 eexists; split; [reflexivity|discriminate]).
  destruct c as [|c y]; [now apply shape_not_nil in Sh|]. exists c, y. split; [reflexivity|]. intros ->. now apply H2.
Qed.
Lemma dbytes_inj os s s' r r' :
  dbytes os s ++ """"%char :: r = dbytes os s' ++ """"%char :: r' -> s = s' /\ r = r'.
Proof.
  revert s'. induction s as [s IH] using strong_len_ind. intros s' E. destruct s as [|a s0]; destruct s' as [|a' s0'].
  - cbn [debug_bytes app] in E. now injection E as ->.
  - exfalso. destruct (dbytes_piece os (a' :: s0') ltac:(discriminate)) as (u & x & q & P & _ & _ & D). rewrite D in E.
    destruct (way_head u x (piece_way _ _ _ P)) as (c & y & -> & N). cbn [debug_bytes app] in E. injection E as <- _. now destruct N.
  - exfalso. destruct (dbytes_piece os (a :: s0) ltac:(discriminate)) as (u & x & q & P & _ & _ & D). rewrite D in E.
    destruct (way_head u x (piece_way _ _ _ P)) as (c & y & -> & N). cbn [debug_bytes app] in E. injection E as -> _. now destruct N.
  - destruct (dbytes_piece os (a :: s0) ltac:(discriminate)) as (u & x & q & P & Es & Nu & D).
    destruct (dbytes_piece os (a' :: s0') ltac:(discriminate)) as (u' & x' & q' & P' & Es' & _ & D').
    rewrite D, D', <- !app_assoc in E. destruct (way_prefix _ _ _ _ _ _ (piece_way _ _ _ P) (piece_way _ _ _ P') E) as [-> E'].
    rewrite Es, Es' in *. destruct (IH q) with (s' := q') as [-> ->]; [|exact E'|auto].
    rewrite app_length. destruct u'; [now destruct Nu|cbn; lia].
Qed.
Lemma debug_str_inj os s s' r r' : debug_str plain quote os s ++ r = debug_str plain quote os s' ++ r' -> s = s' /\ r = r'.
Proof.
  unfold debug_str. cbn [app]. intros E. injection E as E. rewrite <- !app_assoc in E. exact (dbytes_inj os s s' r r' E).
Qed.

(** ** The text is printable *)
Lemma line_app a b : in_line (a ++ b) <-> in_line a /\ in_line b.
Proof. apply Forall_app. Qed.
Lemma line_bool s : forallb (fun c => N.leb 32 (nb c) && negb (N.eqb (nb c) 127))%bool s = true -> in_line s.
Proof.
  intros H. rewrite forallb_forall in H. apply Forall_forall. intros c I. apply H, andb_true_iff in I as [A Q].
  apply N.leb_le in A. apply negb_true_iff, N.eqb_neq in Q. auto.
Qed.
Lemma hex_line n : in_line (hex_N n).
Proof.
  apply (Forall_impl (P := fun c => is_hex c = true)); [|apply hex_N_chars]. intros c H. unfold is_hex in H.
  apply existsb_exists in H as (d & I & E). apply Ascii.eqb_eq in E. subst d.
  assert (K : in_line (B "0123456789abcdef")) by now apply line_bool. unfold in_line in K. rewrite Forall_forall in K. now apply K.
Qed.
Lemma byte_line a : in_line (debug_byte a).
Proof.
  unfold debug_byte. apply line_app. split; [now apply line_bool|].
  assert (K : forall d, (d < 16)%N -> in_line [upper_hex d]) by (apply (sixteen (fun d => in_line [upper_hex d])); now apply line_bool).
  pose proof (nb_lt a). change [?x; ?y] with ([x] ++ [y]). apply line_app. split; apply K; [apply N.div_lt_upper_bound; [discriminate|lia]|now apply N.mod_lt].
Qed.
Lemma dchar_line os c : char_shape c -> in_line (dchar os c).
Proof.
  intros Sh. destruct (dchar_cases os c) as [(t & H & ->)|(Nn & [(E & _ & _ & ->)|(_ & [(V & ->)|(_ & ->)])])].
  - repeat (destruct H as [H|H]; [injection H as _ <-; now apply line_bool|]). destruct H.
  - now apply line_bool.
  - destruct V as [V|[V _]].
    + destruct (shape_small c Sh) as (a & -> & L & E); [lia|]. rewrite E in V. constructor; [change (N_of_ascii a) with (nb a); lia|constructor].
    + apply (Forall_impl (P := fun a => (128 <= nb a)%N)); [|now apply shape_large]. intros a L. change (N_of_ascii a) with (nb a). lia.
  - apply line_app. split; [now apply line_bool|]. apply line_app. split; [apply hex_line|now apply line_bool].
Qed.
Lemma dbytes_line os s : in_line (dbytes os s).
Proof.
  induction s as [s IH] using strong_len_ind. destruct s as [|a s0]; [constructor|].
  destruct (dbytes_piece os (a :: s0) ltac:(discriminate)) as (u & x & q & P & Es & Nu & D). rewrite D. apply line_app. split.
  - destruct P as [[Sh ->]|(b & _ & _ & ->)]; [now apply dchar_line|apply byte_line].
  - apply IH. rewrite Es, app_length. destruct u; [now destruct Nu|cbn; lia].
Qed.

(** ** and UTF-8. *)
Definition all_ascii (s : str) : Prop := Forall (fun a => nb a < 128)%N s.
Lemma ascii_bool s : forallb (fun c => N.ltb (nb c) 128) s = true -> all_ascii s.
Proof. intros H. rewrite forallb_forall in H. apply Forall_forall. intros c I. now apply N.ltb_lt, H. Qed.
Lemma hex_ascii n : all_ascii (hex_N n).
Proof.
  apply (Forall_impl (P := fun c => is_hex c = true)); [|apply hex_N_chars]. intros c H. unfold is_hex in H.
  apply existsb_exists in H as (d & I & E). apply Ascii.eqb_eq in E. subst d.
  assert (K : all_ascii (B "0123456789abcdef")) by now apply ascii_bool. unfold all_ascii in K. rewrite Forall_forall in K. now apply K.
Qed.
Lemma byte_ascii a : all_ascii (debug_byte a).
Proof.
  unfold debug_byte. apply Forall_app. split; [now apply ascii_bool|].
  assert (K : forall d, (d < 16)%N -> all_ascii [upper_hex d]) by (apply (sixteen (fun d => all_ascii [upper_hex d])); now apply ascii_bool).
  pose proof (nb_lt a). change [?x; ?y] with ([x] ++ [y]). apply Forall_app. split; apply K; [apply N.div_lt_upper_bound; [discriminate|lia]|now apply N.mod_lt].
Qed.
Lemma dchar_valid os c s : char_shape c -> utf8_valid (dchar os c ++ s) = utf8_valid s.
Proof.
  intros Sh. destruct (dchar_cases os c) as [(t & H & ->)|(Nn & [(E & _ & _ & ->)|(_ & [(V & ->)|(_ & ->)])])].
  - apply valid_ascii_app. repeat (destruct H as [H|H]; [injection H as _ <-; now apply ascii_bool|]). destruct H.
  - apply valid_ascii_app. now apply ascii_bool.
  - now apply valid_char.
  - apply valid_ascii_app. apply Forall_app. split; [now apply ascii_bool|]. apply Forall_app. split; [apply hex_ascii|now apply ascii_bool].
Qed.
Lemma dbytes_valid os s t : utf8_valid (dbytes os s ++ t) = utf8_valid t.
Proof.
  induction s as [s IH] using strong_len_ind. destruct s as [|a s0]; [reflexivity|].
  destruct (dbytes_piece os (a :: s0) ltac:(discriminate)) as (u & x & q & P & Es & Nu & D). rewrite D, <- app_assoc.
  assert (L : length q < length (a :: s0)) by (rewrite Es, app_length; destruct u; [now destruct Nu|cbn; lia]).
  destruct P as [[Sh ->]|(b & _ & _ & ->)]; [rewrite dchar_valid by exact Sh|rewrite valid_ascii_app by apply byte_ascii]; now apply IH.
Qed.
End Text.
