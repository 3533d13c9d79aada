(** Lemmas about the JSON text. *)
From Verif.Model Require Import Base Str BMap Value De Serde JsonText.
From Verif.Spec Require Import StrSpec Utf8Spec SerdeSpec JsonSpec.
From Verif.Proof Require Import StrFacts.

Section Ind.
  Variable P : toml -> Prop.
  Hypothesis Hb : forall b, P (TomlBool b).
  Hypothesis Hi : forall z, P (TomlInt z).
  Hypothesis Hf : forall s, P (TomlFloat s).
  Hypothesis Hs : forall s, P (TomlStr s).
  Hypothesis Hd : forall s, P (TomlDate s).
  Hypothesis Ha : forall l, Forall P l -> P (TomlArr l).
  Hypothesis Ht : forall l, Forall (fun kv => P (snd kv)) l -> P (TomlTab l).
  Fixpoint toml_tree_ind (t : toml) : P t :=
    match t with
    | TomlBool b => Hb b | TomlInt z => Hi z | TomlFloat s => Hf s | TomlStr s => Hs s | TomlDate s => Hd s
    | TomlArr l => Ha l ((fix go l := match l return Forall P l with [] => Forall_nil _ | x :: r => Forall_cons _ (toml_tree_ind x) (go r) end) l)
    | TomlTab l => Ht l ((fix go l := match l return Forall (fun kv => P (snd kv)) l with
                                      | [] => Forall_nil _ | x :: r => Forall_cons _ (toml_tree_ind (snd x)) (go r) end) l)
    end.
End Ind.

Ltac all_bytes c := destruct c as [[|] [|] [|] [|] [|] [|] [|] [|]].

(** ** Strings *)
Lemma char_read c x : characters (json_char c ++ x) = prepend c (characters x).
Proof. all_bytes c; reflexivity. Qed.
Lemma string_read s r : characters (flat_map json_char s ++ """"%char :: r) = Some (s, r).
Proof.
  induction s as [|c s IH]; [reflexivity|]. cbn [flat_map]. rewrite <- app_assoc, char_read, IH. reflexivity.
Qed.

(** ** Numbers *)
Fixpoint dfuel (k : nat) (n : N) : list N :=
  match k with O => [] | S k' => (if N.ltb n 10 then [] else dfuel k' (N.div n 10)) ++ [N.modulo n 10] end.
Lemma decimal_digits k n : decimal_fuel k n = map digit (dfuel k n).
Proof.
  revert n. induction k as [|k IH]; intros n; [reflexivity|]. cbn [decimal_fuel dfuel]. rewrite map_app.
  destruct (N.ltb n 10); [reflexivity|]. now rewrite IH.
Qed.
Lemma dfuel_small k n : Forall (fun d => d < 10)%N (dfuel k n).
Proof.
  revert n. induction k as [|k IH]; intros n; [constructor|]. cbn [dfuel]. apply Forall_app. split.
  - destruct (N.ltb n 10); [constructor|apply IH].
  - constructor; [now apply N.mod_lt|constructor].
Qed.
Lemma amount_snoc l d : amount (l ++ [d]) = (10 * amount l + d)%N.
Proof. unfold amount. now rewrite fold_left_app. Qed.
Lemma dfuel_amount k n : (n < 2 ^ N.of_nat k)%N -> amount (dfuel k n) = n.
Proof.
  revert n. induction k as [|k IH]; intros n H.
  - cbn in H. assert (n = 0)%N by lia. now subst n.
  - cbn [dfuel]. rewrite amount_snoc. destruct (N.ltb_spec n 10) as [L|L].
    + unfold amount. cbn [fold_left]. now rewrite N.mod_small.
    + rewrite IH.
      * symmetry. now apply N.div_mod.
      * apply N.div_lt_upper_bound; [discriminate|]. rewrite Nat2N.inj_succ, N.pow_succ_r' in H. lia.
Qed.
Lemma dfuel_not_nil k n : k <> 0 -> dfuel k n <> [].
Proof. destruct k; [congruence|]. intros _ H. cbn [dfuel] in H. destruct (if N.ltb n 10 then _ else _); discriminate H. Qed.
Lemma dfuel_head k n : (0 < n < 2 ^ N.of_nat k)%N -> hd 0%N (dfuel k n) <> 0%N.
Proof.
  revert n. induction k as [|k IH]; intros n H.
  - cbn in H. lia.
  - cbn [dfuel]. destruct (N.ltb_spec n 10) as [L|L].
    + cbn [app hd]. rewrite N.mod_small by exact L. lia.
    + assert (D : (0 < n / 10 < 2 ^ N.of_nat k)%N).
      { split; [apply N.div_str_pos; lia|]. apply N.div_lt_upper_bound; [discriminate|]. rewrite Nat2N.inj_succ, N.pow_succ_r' in H. lia. }
      specialize (IH _ D). destruct (dfuel k (n / 10)) as [|a l]; [cbn [hd] in IH; congruence|]. exact IH.
Qed.
Lemma digit_place d : (d < 10)%N -> place_in (digit d) (B "0123456789") = Some d.
Proof.
  intros H. destruct d as [|p]; [reflexivity|].
  do 4 (destruct p as [p|p|]; try reflexivity; try lia).
Qed.
Definition number_ends (r : str) : Prop := match r with [] => True | c :: _ => among c (B "0123456789.eE") = false end.
Lemma number_ends_digits c r : number_ends (c :: r) -> place_in c (B "0123456789") = None /\ among c (B ".eE") = false.
Proof. unfold number_ends. intros H. all_bytes c; try discriminate H; split; reflexivity. Qed.
Lemma digits_read l r : Forall (fun d => d < 10)%N l -> number_ends r -> digits_of (map digit l ++ r) = (l, r).
Proof.
  intros F R. induction F as [|d l H F IH].
  - destruct r as [|c r]; [reflexivity|]. cbn [map app digits_of]. now rewrite (proj1 (number_ends_digits c r R)).
  - cbn [map app digits_of]. rewrite digit_place by exact H. now rewrite IH.
Qed.
Lemma fuel_enough n : (n < 2 ^ N.of_nat (S (N.to_nat (N.log2 n))))%N.
Proof.
  rewrite Nat2N.inj_succ, N2Nat.id. destruct n as [|p]; [reflexivity|]. apply N.log2_spec. lia.
Qed.
Lemma natural_read n r : number_ends r -> natural (decimal_N n ++ r) = Some (n, r).
Proof.
  intros R. unfold decimal_N. set (k := S (N.to_nat (N.log2 n))). rewrite decimal_digits. unfold natural.
  rewrite digits_read by (auto using dfuel_small). pose proof (dfuel_amount k n (fuel_enough n)) as A.
  assert (Q : forall l, l <> [] -> match r with c :: _ => if among c (B ".eE") then None else Some (amount l, r) | [] => Some (amount l, r) end = Some (amount l, r)).
  { intros l _. destruct r as [|c r']; [reflexivity|]. now rewrite (proj2 (number_ends_digits c r' R)). }
  destruct (dfuel k n) as [|a l] eqn:E; [exfalso; now apply (dfuel_not_nil k n)|].
  destruct a as [|a].
  - destruct l as [|b l]; [rewrite Q by discriminate; now rewrite A|].
    exfalso. assert (N0 : n <> 0%N) by (intros ->; vm_compute in E; discriminate E).
    assert (H : (0 < n < 2 ^ N.of_nat k)%N) by (split; [lia|apply fuel_enough]).
    apply dfuel_head in H. rewrite E in H. now apply H.
  - rewrite Q by discriminate. now rewrite A.
Qed.
Lemma decimal_N_head n : exists d t, decimal_N n = digit d :: t /\ (d < 10)%N.
Proof.
  unfold decimal_N. set (k := S (N.to_nat (N.log2 n))). rewrite decimal_digits.
  pose proof (dfuel_not_nil k n) as H. pose proof (dfuel_small k n) as F. destruct (dfuel k n) as [|d l]; [exfalso; now apply H|].
  exists d, (map digit l). split; [reflexivity|]. now inversion F.
Qed.
Lemma digit_not c d : (d < 10)%N -> place_in c (B "0123456789") = None -> Ascii.eqb (digit d) c = false.
Proof. intros H N. apply Ascii.eqb_neq. intros E. rewrite <- E, digit_place in N by exact H. discriminate N. Qed.
Lemma number_read z r : number_ends r -> number (decimal_Z z ++ r) = Some (JNumber z, r).
Proof.
  intros R. unfold decimal_Z. destruct (Z.ltb_spec z 0) as [L|L].
  - cbn [app number]. change (Ascii.eqb "-" "-") with true. cbv iota. rewrite natural_read by exact R.
    rewrite Z2N.id by lia. now rewrite Z.opp_involutive.
  - pose proof (natural_read (Z.to_N z) r R) as Q. destruct (decimal_N_head (Z.to_N z)) as (d & t & E & D). rewrite E in *.
    cbn [app number] in *. rewrite (digit_not "-" d D eq_refl), Q. rewrite Z2N.id by lia. reflexivity.
Qed.

(** ** Trees *)
Fixpoint plain (t : toml) : bool :=
  match t with
  | TomlFloat _ | TomlDate _ => false
  | TomlArr l => forallb plain l
  | TomlTab l => forallb (fun kv => plain (snd kv)) l
  | _ => true
  end.
Fixpoint jt (t : toml) : json :=
  match t with
  | TomlBool b => JBool b
  | TomlInt z => JNumber z
  | TomlFloat _ | TomlDate _ => JNull
  | TomlStr s => JString s
  | TomlArr l => JArray (map jt l)
  | TomlTab l => JObject (map (fun kv => (fst kv, jt (snd kv))) l)
  end.
Lemma jt_alike t : plain t = true -> alike t (jt t).
Proof.
  induction t as [b|z|s|s|s|l IH|l IH] using toml_tree_ind; intros H; try discriminate H; cbn [jt plain] in *; constructor.
  - induction IH as [|x l X IH IHl]; [constructor|]. cbn [forallb] in H. apply andb_prop in H as [H1 H2].
    cbn [map]. constructor; auto.
  - induction IH as [|x l X IH IHl]; [constructor|]. cbn [forallb] in H. apply andb_prop in H as [H1 H2].
    cbn [map]. constructor; auto.
Qed.
Lemma alike_jt t : forall j, alike t j -> plain t = true /\ j = jt t.
Proof.
  induction t as [b|z|s|s|s|l IH|l IH] using toml_tree_ind; intros j H; inversion H as [| | |l' m F|l' m F]; subst; auto.
  - cbn [plain jt]. clear H. revert m F. induction IH as [|x l X IH IHl]; intros m F; inversion F as [|x' y l' m' XY F']; subst; [auto|].
    destruct (X _ XY) as [P ->]. destruct (IHl _ F') as [P' E]. injection E as ->. cbn [forallb map]. now rewrite P, P'.
  - cbn [plain jt]. clear H. revert m F. induction IH as [|x l X IH IHl]; intros m F; inversion F as [|x' [k' y] l' m' [XY1 XY] F']; subst; [auto|].
    cbn [fst snd] in XY1, XY. subst k'.
    destruct (X _ XY) as [P ->]. destruct (IHl _ F') as [P' E]. injection E as ->. cbn [forallb map]. now rewrite P, P'.
Qed.
Lemma jt_inj t : forall u, plain t = true -> plain u = true -> jt t = jt u -> t = u.
Proof.
  induction t as [b|z|s|s|s|l IH|l IH] using toml_tree_ind; intros u H U E; try discriminate H;
    destruct u as [b'|z'|s'|s'|s'|l'|l']; try discriminate U; try discriminate E; cbn [jt plain] in *.
  - now injection E as ->.
  - now injection E as ->.
  - now injection E as ->.
  - injection E as E. f_equal. revert l' U E. induction IH as [|x l X IH IHl]; intros [|y l'] U E; try discriminate E; [reflexivity|].
    cbn [map forallb] in *. injection E as E1 E2. apply andb_prop in H as [H1 H2]. apply andb_prop in U as [U1 U2].
    f_equal; auto.
  - injection E as E. f_equal. revert l' U E. induction IH as [|[k x] l X IH IHl]; intros [|[k' y] l'] U E; try discriminate E; [reflexivity|].
    cbn [map forallb fst snd] in *. injection E as E0 E1 E2. apply andb_prop in H as [H1 H2]. apply andb_prop in U as [U1 U2].
    f_equal; auto. subst k'. f_equal. auto.
Qed.

(** ** Reading a text back *)
(** The start of the text of a tree: not a blank, and not a closing bracket or a comma. *)
Lemma text_head t : plain t = true -> exists c s, json_text t = c :: s /\ among c (blanks ++ B "]},") = false.
Proof.
  destruct t as [[|]|z|s|s|s|l|l]; intros H; try discriminate H; try (eexists; eexists; split; [reflexivity|reflexivity]).
  cbn [json_text]. unfold decimal_Z. destruct (Z.ltb z 0); [eexists; eexists; split; [reflexivity|reflexivity]|].
  destruct (decimal_N_head (Z.to_N z)) as (d & t & -> & D). exists (digit d), t. split; [reflexivity|].
  destruct d as [|p]; [reflexivity|]. do 4 (destruct p as [p|p|]; try reflexivity; try lia).
Qed.
Lemma skip_not c s : among c blanks = false -> skip (c :: s) = c :: s.
Proof. intros H. cbn [skip]. now rewrite H. Qed.
Lemma among_app c a b : among c (a ++ b) = (among c a || among c b)%bool.
Proof. unfold among. apply existsb_app. Qed.
Lemma literal_number s : (exists c t, s = c :: t /\ among c (B "tfn") = false) -> literal s = number s.
Proof. intros (c & t & -> & H). all_bytes c; try discriminate H; reflexivity. Qed.
Lemma json_text_pos t : plain t = true -> 1 <= length (json_text t).
Proof. intros H. destruct (text_head t H) as (c & s & -> & _). cbn [length]. lia. Qed.
Definition entry_text (kv : str * toml) : str := json_string (fst kv) ++ ":"%char :: json_text (snd kv).
Lemma entry_texts l : map (fun '(k, v) => json_string k ++ ":"%char :: json_text v) l = map entry_text l.
Proof. apply map_ext. now intros [k v]. Qed.
Lemma with_commas_cons x y t : with_commas (x :: y :: t) = x ++ ","%char :: with_commas (y :: t).
Proof. reflexivity. Qed.
Lemma string_text_read s r : exists t, json_string s ++ r = """"%char :: t /\ characters t = Some (s, r).
Proof.
  exists (flat_map json_char s ++ """"%char :: r). split; [|apply string_read].
  unfold json_string. cbn [app]. now rewrite <- app_assoc.
Qed.
Lemma read_all n :
  (forall t r, plain t = true -> number_ends r -> length (json_text t) <= n -> read_value n (json_text t ++ r) = Some (jt t, r))
  /\ (forall l r, l <> [] -> forallb plain l = true -> length (with_commas (map json_text l)) + 1 <= n ->
        read_values n (with_commas (map json_text l) ++ "]"%char :: r) = Some (map jt l, r))
  /\ (forall l r, l <> [] -> forallb (fun kv => plain (snd kv)) l = true -> length (with_commas (map entry_text l)) + 1 <= n ->
        read_entries n (with_commas (map entry_text l) ++ "}"%char :: r) = Some (map (fun kv => (fst kv, jt (snd kv))) l, r)).
Proof.
  induction n as [|n (IHv & IHs & IHe)].
  - split; [|split].
    + intros t r P _ L. pose proof (json_text_pos t P). lia.
    + intros l r _ _ L. lia.
    + intros l r _ _ L. lia.
  - split; [|split].
    + intros t r P R L.
      assert (Q : forall c s, json_text t = c :: s -> among c (B "{[""tfn") = false -> read_value (S n) (json_text t ++ r) = number (json_text t ++ r)).
      { intros c s E H. destruct (text_head t P) as (c' & s' & E' & H'). rewrite E in E'. injection E' as <- <-.
        rewrite among_app in H'. apply orb_false_iff in H' as [H' _]. rewrite E. cbn [app read_value]. rewrite skip_not by exact H'.
        all_bytes c; try discriminate H; reflexivity. }
      destruct t as [[|]|z|s|s|s|l|l]; try discriminate P.
      * reflexivity.
      * reflexivity.
      * destruct (text_head (TomlInt z) P) as (c & s & E & H). rewrite (Q c s E).
        -- cbn [json_text jt]. now apply number_read.
        -- cbn [json_text] in E. unfold decimal_Z in E. destruct (Z.ltb z 0); [injection E as <- _; reflexivity|].
           destruct (decimal_N_head (Z.to_N z)) as (d & t & E' & D). rewrite E' in E. injection E as <- _.
           destruct d as [|p]; [reflexivity|]. do 4 (destruct p as [p|p|]; try reflexivity; try lia).
      * cbn [json_text jt]. destruct (string_text_read s r) as (t & -> & E). cbn [read_value]. rewrite skip_not by reflexivity.
        change (Ascii.eqb """" "{") with false. change (Ascii.eqb """" "[") with false. change (Ascii.eqb """" """") with true.
        cbv iota. now rewrite E.
      * cbn [json_text jt plain] in *. cbn [app read_value]. rewrite skip_not by reflexivity.
        change (Ascii.eqb "[" "{") with false. change (Ascii.eqb "[" "[") with true. cbv iota.
        destruct l as [|x l]; [reflexivity|].
        assert (X : plain x = true) by (cbn [forallb] in P; now apply andb_prop in P as [P _]).
        cbn [length] in L. rewrite app_length in L. change (length (B "]")) with 1 in L.
        rewrite <- app_assoc. change (B "]" ++ r) with ("]"%char :: r).
        specialize (IHs (x :: l) r ltac:(discriminate) P ltac:(lia)).
        destruct (text_head x X) as (c & s & E & H). rewrite among_app in H. apply orb_false_iff in H as [H H'].
        assert (W : exists w, with_commas (map json_text (x :: l)) = c :: w).
        { cbn [map]. rewrite E. destruct l as [|y l]; [exists s; reflexivity|]. cbn [map]. rewrite with_commas_cons. eexists. reflexivity. }
        destruct W as (w & W). rewrite W in *. cbn [app]. rewrite skip_not by exact H.
        assert (D : Ascii.eqb c "]" = false) by (all_bytes c; try discriminate H'; reflexivity). rewrite D.
        cbn [app] in IHs. now rewrite IHs.
      * cbn [json_text jt plain] in *. rewrite entry_texts in *. cbn [app read_value]. rewrite skip_not by reflexivity.
        change (Ascii.eqb "{" "{") with true. cbv iota.
        destruct l as [|x l]; [reflexivity|].
        cbn [length] in L. rewrite app_length in L. change (length (B "}")) with 1 in L.
        rewrite <- app_assoc. change (B "}" ++ r) with ("}"%char :: r).
        specialize (IHe (x :: l) r ltac:(discriminate) P ltac:(lia)).
        assert (W : exists w, with_commas (map entry_text (x :: l)) = """"%char :: w).
        { cbn [map]. unfold entry_text at 1, json_string. destruct l as [|y l]; cbn [map]; [eexists; reflexivity|]. rewrite with_commas_cons. eexists. reflexivity. }
        destruct W as (w & W). rewrite W in *. cbn [app]. rewrite skip_not by reflexivity.
        change (Ascii.eqb """" "}") with false. cbv iota. cbn [app] in IHe. now rewrite IHe.
    + intros [|x l] r N P L; [congruence|]. cbn [forallb] in P. apply andb_prop in P as [P1 P2].
      destruct l as [|y l].
      * cbn [map with_commas] in *. cbn [read_values]. rewrite IHv; [|exact P1|reflexivity|lia]. rewrite skip_not by reflexivity.
        change (Ascii.eqb "]" "]") with true. reflexivity.
      * cbn [map] in L |- *. rewrite with_commas_cons in L |- *. rewrite app_length in L. cbn [length] in L.
        pose proof (json_text_pos x P1) as LX.
        rewrite <- app_assoc. cbn [app read_values].
        rewrite IHv; [|exact P1|reflexivity|lia]. rewrite skip_not by reflexivity.
        change (Ascii.eqb "," "]") with false. change (Ascii.eqb "," ",") with true. cbv iota.
        pose proof (IHs (y :: l) r ltac:(discriminate) P2 ltac:(cbn [map]; lia)) as H. cbn [map] in H. now rewrite H.
    + intros [|[k x] l] r N P L; [congruence|]. cbn [forallb snd] in P. apply andb_prop in P as [P1 P2].
      pose proof (json_text_pos x P1) as LX.
      assert (K : 2 <= length (json_string k)) by (unfold json_string; cbn [length]; rewrite app_length; cbn [length]; lia).
      assert (LE : length (entry_text (k, x)) = length (json_string k) + 1 + length (json_text x)).
      { unfold entry_text. cbn [fst snd]. rewrite app_length. cbn [length]. lia. }
      destruct l as [|y l].
      * cbn [map with_commas] in *. unfold entry_text. cbn [fst snd]. rewrite <- app_assoc. cbn [app].
        destruct (string_text_read k (":"%char :: json_text x ++ "}"%char :: r)) as (t & -> & E).
        cbn [read_entries]. rewrite skip_not by reflexivity. change (Ascii.eqb """" """") with true. cbv iota. rewrite E.
        rewrite skip_not by reflexivity. change (Ascii.eqb ":" ":") with true. cbv iota.
        rewrite IHv; [|exact P1|reflexivity|lia]. rewrite skip_not by reflexivity.
        change (Ascii.eqb "}" "}") with true. reflexivity.
      * cbn [map] in L |- *. rewrite with_commas_cons in L |- *. rewrite app_length in L. cbn [length] in L.
        rewrite <- app_assoc. cbn [app]. unfold entry_text at 1. cbn [fst snd]. rewrite <- app_assoc. cbn [app].
        destruct (string_text_read k (":"%char :: json_text x ++ ","%char :: with_commas (entry_text y :: map entry_text l) ++ "}"%char :: r)) as (t & -> & E).
        cbn [read_entries]. rewrite skip_not by reflexivity. change (Ascii.eqb """" """") with true. cbv iota. rewrite E.
        rewrite skip_not by reflexivity. change (Ascii.eqb ":" ":") with true. cbv iota.
        rewrite IHv; [|exact P1|reflexivity|lia]. rewrite skip_not by reflexivity.
        change (Ascii.eqb "," "}") with false. change (Ascii.eqb "," ",") with true. cbv iota.
        pose proof (IHe (y :: l) r ltac:(discriminate) P2 ltac:(cbn [map]; lia)) as H. cbn [map] in H. now rewrite H.
Qed.
Lemma read_text t : plain t = true -> read_json (json_text t) = Some (jt t).
Proof.
  intros P. unfold read_json. pose proof (proj1 (read_all (S (length (json_text t)))) t [] P I ltac:(lia)) as H.
  rewrite app_nil_r in H. now rewrite H.
Qed.
Lemma read_text_line t : plain t = true -> read_json (json_text t ++ [ascii_of_N 10]) = Some (jt t).
Proof.
  intros P. unfold read_json. rewrite (proj1 (read_all _) t [ascii_of_N 10] P); [reflexivity|reflexivity|]. rewrite app_length. lia.
Qed.

(** ** Bytes of the text *)
Definition printable (c : ascii) : Prop := (32 <= code c)%N.
Lemma char_printable c : Forall printable (json_char c).
Proof. unfold printable. all_bytes c; repeat (constructor; [vm_compute; discriminate|]); constructor. Qed.
Lemma Forall_flat_map {A X} (P : X -> Prop) (f : A -> list X) l : (forall a, In a l -> Forall P (f a)) -> Forall P (flat_map f l).
Proof.
  induction l as [|a l IH]; intros H; [constructor|]. cbn [flat_map]. apply Forall_app. split; [apply H; now left|].
  apply IH. intros b Hb. apply H. now right.
Qed.
Lemma string_printable s : Forall printable (json_string s).
Proof.
  unfold json_string. constructor; [vm_compute; discriminate|]. apply Forall_app. split.
  - apply Forall_flat_map. intros c _. apply char_printable.
  - constructor; [vm_compute; discriminate|constructor].
Qed.
Lemma digit_printable d : (d < 10)%N -> printable (digit d).
Proof. intros H. unfold printable. destruct d as [|p]; [vm_compute; discriminate|]. do 4 (destruct p as [p|p|]; try (vm_compute; discriminate); try lia). Qed.
Lemma decimal_printable n : Forall printable (decimal_N n).
Proof.
  unfold decimal_N. rewrite decimal_digits. pose proof (dfuel_small (S (N.to_nat (N.log2 n))) n) as F.
  induction F; [constructor|]. cbn [map]. constructor; auto using digit_printable.
Qed.
Lemma commas_all (P : ascii -> Prop) l : P ","%char -> Forall (Forall P) l -> Forall P (with_commas l).
Proof.
  intros C F. induction F as [|x l X F IH]; [constructor|]. destruct l as [|y l]; [exact X|]. rewrite with_commas_cons.
  apply Forall_app. split; [exact X|]. constructor; [exact C|exact IH].
Qed.
Lemma text_printable t : plain t = true -> Forall printable (json_text t).
Proof.
  assert (K : forall s, Forall (fun c => (32 <=? code c)%N = true) s -> Forall printable s).
  { intros s F. apply (Forall_impl printable) with (2 := F). intros c H. now apply N.leb_le. }
  induction t as [b|z|s|s|s|l IH|l IH] using toml_tree_ind; intros H; try discriminate H; cbn [json_text plain] in *.
  - apply K. destruct b; repeat constructor.
  - unfold decimal_Z. destruct (Z.ltb z 0); [constructor; [vm_compute; discriminate|]|]; apply decimal_printable.
  - apply string_printable.
  - constructor; [vm_compute; discriminate|]. apply Forall_app. split; [|apply K; repeat constructor].
    apply commas_all; [vm_compute; discriminate|]. induction IH as [|x l X IH IHl]; [constructor|].
    cbn [forallb map] in *. apply andb_prop in H as [H1 H2]. constructor; auto.
  - rewrite entry_texts. constructor; [vm_compute; discriminate|]. apply Forall_app. split; [|apply K; repeat constructor].
    apply commas_all; [vm_compute; discriminate|]. induction IH as [|x l X IH IHl]; [constructor|].
    cbn [forallb map] in *. apply andb_prop in H as [H1 H2]. constructor; [|auto]. unfold entry_text. apply Forall_app. split; [apply string_printable|].
    constructor; [vm_compute; discriminate|auto].
Qed.

(** ** What configurations are written as *)
Lemma plain_app a b : forallb (fun kv : str * toml => plain (snd kv)) (a ++ b) = (forallb (fun kv => plain (snd kv)) a && forallb (fun kv => plain (snd kv)) b)%bool.
Proof. apply forallb_app. Qed.
Lemma plain_sopt {A} k (f : A -> toml) o : (forall a, plain (f a) = true) -> forallb (fun kv => plain (snd kv)) (sopt k f o) = true.
Proof. intros H. destruct o as [a|]; [|reflexivity]. cbn. now rewrite H. Qed.
Lemma plain_sskip {A} k skip (f : A -> toml) a : plain (f a) = true -> forallb (fun kv => plain (snd kv)) (sskip k skip f a) = true.
Proof. intros H. unfold sskip. destruct (skip a); [reflexivity|]. cbn. now rewrite H. Qed.
Lemma plain_map {V} (f : V -> toml) m : (forall v, plain (f v) = true) -> plain (ser_map f m) = true.
Proof. intros H. unfold ser_map. cbn [plain]. apply forallb_forall. intros kv I. apply in_map_iff in I as (x & <- & _). apply H. Qed.
Lemma plain_texts l : forallb plain (map ser_vstr l) = true.
Proof. apply forallb_forall. intros x I. apply in_map_iff in I as (v & <- & _). reflexivity. Qed.
Ltac plainly :=
  repeat first
    [ reflexivity
    | rewrite plain_app; apply andb_true_intro; split
    | apply plain_sskip
    | apply plain_sopt; intros ?
    | apply plain_map; intros ?
    | apply plain_texts ].
Lemma plain_program p : plain (ser_path_and_args p) = true.
Proof. unfold ser_path_and_args. destruct (pa_repr p); [reflexivity|]. apply plain_texts. Qed.
Lemma plain_string_list p : plain (ser_string_list p) = true.
Proof. unfold ser_string_list. destruct (sl_repr p); [reflexivity|]. apply plain_texts. Qed.
Lemma plain_soa p : plain (ser_soa p) = true.
Proof. destruct p; [reflexivity|]. apply plain_texts. Qed.
Lemma plain_env e : plain (ser_env_config_value e) = true.
Proof.
  destruct e as [v|v f r]; [reflexivity|]. cbn [ser_env_config_value plain forallb]. unfold ser_vstr, ser_value at 1. cbn [snd plain andb]. plainly.
Qed.
Lemma plain_config c : plain (ser_config c) = true.
Proof.
  unfold ser_config, ser_build, ser_doc, ser_future, ser_cargo_new, ser_http, ser_net, ser_registry, ser_term, ser_progress.
  cbn [plain]. plainly; try (cbn [plain]; plainly).
  all: first [apply plain_string_list | apply plain_soa | apply plain_program | apply plain_env | idtac].
  - unfold ser_registries. cbn [plain]. plainly.
  - unfold ser_target. cbn [plain]. plainly. apply plain_program.
  - cbn [plain]. plainly.
Qed.
