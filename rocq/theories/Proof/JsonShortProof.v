(** No JSON text for a tree is shorter. *)
From Verif.Model Require Import Base Str Serde JsonText.
From Verif.Spec Require Import StrSpec Utf8Spec JsonSpec.
From Verif.Proof Require Import StrFacts JsonProof.

(** ** Strings *)
Lemma escape_short e x : short_escape e = Some x -> length (json_char x) <= 2.
Proof. intros H. all_bytes e; vm_compute in H; try discriminate H; injection H as <-; vm_compute; lia. Qed.
Lemma escape_long x : length (json_char x) <= 6. Proof. all_bytes x; vm_compute; lia. Qed.
Lemma plain_char c : Ascii.eqb c """" = false -> Ascii.eqb c "\" = false -> N.ltb (code c) 32 = false -> length (json_char c) = 1.
Proof. all_bytes c; intros; try discriminate; reflexivity. Qed.
Lemma prepend_some c o a b : prepend c o = Some (a, b) -> exists a', a = c :: a' /\ o = Some (a', b).
Proof. destruct o as [[x y]|]; cbn; [|discriminate]. intros [= <- <-]. eauto. Qed.
Lemma characters_long s : forall x r, characters s = Some (x, r) -> length (flat_map json_char x) + 1 + length r <= length s.
Proof.
  remember (length s) as n eqn:En. revert s En. induction n as [n IH] using lt_wf_ind. intros s -> x r H.
  assert (Go : forall c t k x r, prepend c (characters t) = Some (x, r) -> length t + k <= length s -> 1 <= k -> length (json_char c) <= k ->
    length (flat_map json_char x) + 1 + length r <= length s).
  { clear x r H. intros c t k x r H L K C. apply prepend_some in H as (x' & -> & H).
    assert (P := IH (length t) ltac:(lia) t eq_refl x' r H). cbn [flat_map]. rewrite app_length. lia. }
  destruct s as [|c t]; [discriminate|]. cbn [characters] in H. destruct (Ascii.eqb c """") eqn:Q.
  { injection H as <- <-. cbn. lia. }
  destruct (Ascii.eqb c "\") eqn:Bs.
  - destruct t as [|e t1]; [discriminate|]. destruct (Ascii.eqb e "u") eqn:U.
    + destruct t1 as [|h1 [|h2 [|h3 [|h4 t2]]]]; try discriminate.
      destruct (hex_value h1) as [[|]|]; try discriminate. destruct (hex_value h2) as [[|]|]; try discriminate.
      destruct (hex_value h3) as [y|]; try discriminate. destruct (hex_value h4) as [z|]; try discriminate.
      destruct (N.ltb y 8); try discriminate. apply (Go _ _ 6 _ _ H); [cbn; lia|lia|apply escape_long].
    + destruct (short_escape e) as [y|] eqn:Ey; [|discriminate]. apply (Go _ _ 2 _ _ H); [cbn; lia|lia|now apply escape_short with e].
  - destruct (N.ltb (code c) 32) eqn:L; [discriminate|]. apply (Go _ _ 1 _ _ H); [cbn; lia|lia|]. now rewrite plain_char.
Qed.

(** ** Numbers *)
Lemma place_digit c n : place_in c (B "0123456789") = Some n -> (n < 10)%N.
Proof. intros H. all_bytes c; vm_compute in H; try discriminate H; injection H as <-; reflexivity. Qed.
Lemma digits_long s : forall l r, digits_of s = (l, r) -> length s = length l + length r /\ Forall (fun d => d < 10)%N l.
Proof.
  induction s as [|c s IH]; intros l r H; cbn [digits_of] in H; [injection H as <- <-; now split|].
  destruct (place_in c (B "0123456789")) as [d|] eqn:D; [|injection H as <- <-; now split].
  destruct (digits_of s) as [l' r'] eqn:E. injection H as <- <-. destruct (IH _ _ eq_refl) as [L F]. split; [cbn; lia|].
  constructor; [now apply place_digit with c|exact F].
Qed.
Lemma dfuel_short k : forall l, l <> [] -> Forall (fun d => d < 10)%N l -> length (dfuel k (amount l)) <= length l.
Proof.
  induction k as [|k IH]; intros l N F; [cbn; lia|]. destruct (exists_last N) as (l' & d & ->). apply Forall_app in F as [F Fd]. apply Forall_inv in Fd.
  cbn [dfuel]. rewrite !app_length. cbn [length]. rewrite amount_snoc. destruct (N.ltb_spec (10 * amount l' + d) 10) as [L|L]; [cbn; lia|].
  replace ((10 * amount l' + d) / 10)%N with (amount l').
  - assert (P := IH l'). assert (l' <> []) by (intros ->; cbn in L; lia). specialize (P H F). lia.
  - symmetry. rewrite N.mul_comm, N.div_add_l by discriminate. rewrite N.div_small by exact Fd. lia.
Qed.
Lemma natural_long s n r : natural s = Some (n, r) -> length (decimal_N n) + length r <= length s.
Proof.
  unfold natural. destruct (digits_of s) as [l r'] eqn:E. destruct (digits_long s l r' E) as [L F]. intros H.
  assert (G : l <> [] /\ n = amount l /\ r' = r).
  { destruct l as [|[|d] l]; [discriminate| |].
    - destruct l; [|discriminate]. destruct r' as [|c r']; [|destruct (among c _); [discriminate|]]; injection H as <- <-; repeat split; discriminate.
    - destruct r' as [|c r']; [|destruct (among c _); [discriminate|]]; injection H as <- <-; repeat split; discriminate. }
  destruct G as (N & -> & ->). unfold decimal_N. rewrite decimal_digits, map_length. assert (P := dfuel_short (S (N.to_nat (N.log2 (amount l)))) l N F). lia.
Qed.
Lemma number_long s j r : number s = Some (j, r) -> exists z, j = JNumber z /\ length (decimal_Z z) + length r <= length s.
Proof.
  destruct s as [|c t]; [discriminate|]. cbn [number]. destruct (Ascii.eqb c "-").
  - destruct (natural t) as [[n r']|] eqn:E; [|discriminate]. intros [= <- <-]. eexists. split; [reflexivity|].
    apply natural_long in E. unfold decimal_Z. destruct (Z.ltb_spec (- Z.of_N n) 0) as [L|L].
    + rewrite Z.opp_involutive, N2Z.id. cbn [length]. lia.
    + assert (n = 0%N) by lia. subst n. change (length (decimal_N (Z.to_N (- Z.of_N 0)))) with 1. change (length (decimal_N 0)) with 1 in E. cbn [length]. lia.
  - destruct (natural (c :: t)) as [[n r']|] eqn:E; [|discriminate]. intros [= <- <-]. eexists. split; [reflexivity|].
    apply natural_long in E. unfold decimal_Z. destruct (Z.ltb_spec (Z.of_N n) 0) as [L|L]; [lia|]. now rewrite N2Z.id.
Qed.
Lemma after_long w : forall s r, after w s = Some r -> length s = length w + length r.
Proof.
  induction w as [|a w IH]; intros s r H; cbn in H; [injection H as <-; reflexivity|].
  destruct s as [|b s]; [discriminate|]. destruct (Ascii.eqb a b); [|discriminate]. cbn. now rewrite (IH _ _ H).
Qed.

(** ** Values *)
Fixpoint size (j : json) : nat :=
  match j with
  | JNull => 4
  | JBool b => if b then 4 else 5
  | JNumber z => length (decimal_Z z)
  | JString s => length (json_string s)
  | JArray l => S (Nat.max 1 (list_sum (map (fun x => S (size x)) l)))
  | JObject l => S (Nat.max 1 (list_sum (map (fun x => S (length (json_string (fst x)) + 1 + size (snd x))) l)))
  end.
Lemma literal_long s j r : literal s = Some (j, r) -> size j + length r <= length s.
Proof.
  unfold literal. destruct (after (B "true") s) as [x|] eqn:E; [intros [= <- <-]; apply after_long in E; cbn in *; lia|].
  destruct (after (B "false") s) as [x|] eqn:E'; [intros [= <- <-]; apply after_long in E'; cbn in *; lia|].
  destruct (after (B "null") s) as [x|] eqn:E''; [intros [= <- <-]; apply after_long in E''; cbn in *; lia|].
  intros H. apply number_long in H as (z & -> & H). exact H.
Qed.
Lemma skip_long s : length (skip s) <= length s.
Proof. induction s as [|c s IH]; cbn [skip]; [lia|]. destruct (among c blanks); cbn in *; lia. Qed.
Lemma string_length s : length (json_string s) = 2 + length (flat_map json_char s).
Proof. unfold json_string. cbn [length]. rewrite app_length. cbn. lia. Qed.
Definition values_size (l : list json) : nat := list_sum (map (fun x => S (size x)) l).
Definition entries_size (l : list (str * json)) : nat := list_sum (map (fun x => S (length (json_string (fst x)) + 1 + size (snd x))) l).
Lemma read_long n :
  (forall s j r, read_value n s = Some (j, r) -> size j + length r <= length s)
  /\ (forall s l r, read_values n s = Some (l, r) -> 1 <= values_size l /\ values_size l + length r <= length s)
  /\ (forall s l r, read_entries n s = Some (l, r) -> 1 <= entries_size l /\ entries_size l + length r <= length s).
Proof.
  induction n as [|n (IH1 & IH2 & IH3)]; [repeat split; discriminate|]. split; [|split].
  - intros s j r H. cbn [read_value] in H. assert (K := skip_long s). destruct (skip s) as [|c t]; [discriminate|]. cbn [length] in K.
    destruct (Ascii.eqb c "{").
    + assert (K' := skip_long t). destruct (skip t) as [|d r0]; [discriminate|]. cbn [length] in K'. destruct (Ascii.eqb d "}").
      * injection H as <- <-. cbn. lia.
      * destruct (read_entries n t) as [[l r1]|] eqn:E; [|discriminate]. injection H as <- <-. destruct (IH3 _ _ _ E). cbn [size].
        change (list_sum (map (fun x : str * json => S (length (json_string (fst x)) + 1 + size (snd x))) l)) with (entries_size l). lia.
    + destruct (Ascii.eqb c "[").
      * assert (K' := skip_long t). destruct (skip t) as [|d r0]; [discriminate|]. cbn [length] in K'. destruct (Ascii.eqb d "]").
        -- injection H as <- <-. cbn. lia.
        -- destruct (read_values n t) as [[l r1]|] eqn:E; [|discriminate]. injection H as <- <-. destruct (IH2 _ _ _ E). cbn [size].
           change (list_sum (map (fun x => S (size x)) l)) with (values_size l). lia.
      * destruct (Ascii.eqb c """").
        -- destruct (characters t) as [[x r1]|] eqn:E; [|discriminate]. injection H as <- <-. apply characters_long in E. cbn [size]. rewrite string_length. lia.
        -- apply literal_long in H. cbn in H. lia.
  - intros s l r H. cbn [read_values] in H. destruct (read_value n s) as [[v r0]|] eqn:E; [|discriminate]. apply IH1 in E.
    assert (K := skip_long r0). destruct (skip r0) as [|c t]; [discriminate|]. cbn [length] in K. destruct (Ascii.eqb c "]").
    + injection H as <- <-. cbn. lia.
    + destruct (Ascii.eqb c ","); [|discriminate]. destruct (read_values n t) as [[l' r1]|] eqn:E'; [|discriminate]. injection H as <- <-.
      destruct (IH2 _ _ _ E'). unfold values_size in *. cbn [map list_sum fold_right]. fold (list_sum (map (fun x => S (size x)) l')). lia.
  - intros s l r H. cbn [read_entries] in H. assert (K := skip_long s). destruct (skip s) as [|q t0]; [discriminate|]. cbn [length] in K.
    destruct (Ascii.eqb q """"); [|discriminate]. destruct (characters t0) as [[k r0]|] eqn:Ek; [|discriminate]. apply characters_long in Ek.
    assert (K1 := skip_long r0). destruct (skip r0) as [|q1 t1]; [discriminate|]. cbn [length] in K1. destruct (Ascii.eqb q1 ":"); [|discriminate].
    destruct (read_value n t1) as [[v r1]|] eqn:E; [|discriminate]. apply IH1 in E.
    assert (K2 := skip_long r1). destruct (skip r1) as [|c t]; [discriminate|]. cbn [length] in K2. assert (Ls := string_length k). destruct (Ascii.eqb c "}").
    + injection H as <- <-. unfold entries_size. cbn [map list_sum fold_right fst snd]. lia.
    + destruct (Ascii.eqb c ","); [|discriminate]. destruct (read_entries n t) as [[l' r2]|] eqn:E'; [|discriminate]. injection H as <- <-.
      destruct (IH3 _ _ _ E'). unfold entries_size in *. cbn [map list_sum fold_right fst snd].
      fold (list_sum (map (fun x : str * json => S (length (json_string (fst x)) + 1 + size (snd x))) l')). lia.
Qed.
Lemma json_long s j : read_json s = Some j -> size j <= length s.
Proof.
  unfold read_json. destruct (read_value (S (length s)) s) as [[v r]|] eqn:E; [|discriminate].
  destruct (skip r); [|discriminate]. intros [= <-]. apply read_long in E. lia.
Qed.

(** ** The text that is written *)
Lemma commas_length {A} (f : A -> nat) (g : A -> str) l : Forall (fun x => length (g x) = f x) l ->
  S (length (with_commas (map g l))) = Nat.max 1 (list_sum (map (fun x => S (f x)) l)).
Proof.
  intros F. induction F as [|x l H F IH]; [reflexivity|]. destruct l as [|y l].
  - cbn. rewrite H. lia.
  - cbn [map] in *. rewrite with_commas_cons, app_length. cbn [length]. rewrite IH, H. clear IH.
    cbn [list_sum fold_right map]. lia.
Qed.
Lemma text_size t : plain t = true -> length (json_text t) = size (jt t).
Proof.
  induction t as [b|z|s|s|s|l F|l F] using toml_tree_ind; cbn [plain]; intros P; try discriminate P; [now destruct b|reflexivity|reflexivity| |].
  - cbn [json_text jt size]. cbn [length]. rewrite app_length, map_map. change (length (B "]")) with 1. change (length (B "}")) with 1.
    rewrite <- (commas_length (fun x => size (jt x)) json_text l); [lia|].
    rewrite forallb_forall in P. apply Forall_forall. intros x I. rewrite Forall_forall in F. auto.
  - cbn [json_text jt size]. cbn [length]. rewrite app_length, map_map. change (length (B "]")) with 1. change (length (B "}")) with 1.
    pose proof (commas_length (fun x => length (json_string (fst x)) + 1 + size (jt (snd x))) (fun '(k, v) => json_string k ++ ":"%char :: json_text v) l) as C.
    rewrite Nat.add_1_r. refine (f_equal S (eq_trans (C _) _)).
    2:{ reflexivity. }
    rewrite forallb_forall in P. apply Forall_forall. intros [k v] I. rewrite Forall_forall in F. rewrite app_length. cbn [fst snd length].
    assert (Q := F (k, v) I (P (k, v) I)). cbn [snd] in Q. rewrite Q. lia.
Qed.
Lemma text_shortest t j s : alike t j -> read_json s = Some j -> length (json_text t) <= length s.
Proof. intros A R. apply alike_jt in A as [P ->]. rewrite text_size by exact P. now apply json_long. Qed.
