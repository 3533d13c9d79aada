(** Any text as a path on Windows. *)
From Verif.Model Require Import Base Str Path StdPath OsPaths.
From Verif.Spec Require Import StrSpec WinSpec WinAnySpec.
From Verif.Proof Require Import StrFacts StdPathProof StdUnixProof StdParentProof WinPrefixProof WinDirProof WinUseProof.

Definition px_of (s : start) : prefix :=
  match s with
  | AtDrive c => PDisk c
  | AtShare a b => PUnc a b
  | AtDevice n => PDevice n
  | LongDrive c => PVerbatimDisk c
  | LongShare a b => PVerbatimUnc a b
  | LongName n => PVerbatim n
  end.
Lemma px_of_inj s s' : px_of s = px_of s' -> s = s'.
Proof. destruct s, s'; cbn; congruence. Qed.
Lemma px_long s : px_verbatim (px_of s) = true <-> long s.
Proof. destruct s; cbn; split; auto; try discriminate; contradiction. Qed.
Lemma px_is_drive s : px_drive (px_of s) = true <-> drive s.
Proof. destruct s; cbn; split; auto; try discriminate; contradiction. Qed.

(** ** Separators *)
Lemma alike_back c : Ascii.eqb backslash (alike_sep c) = win_sep c.
Proof. destruct c as [[] [] [] [] [] [] [] []]; reflexivity. Qed.
Lemma alike_same a c : a <> backslash -> Ascii.eqb a (alike_sep c) = true -> c = a.
Proof.
  intros N E. apply Ascii.eqb_eq in E. unfold alike_sep in E. destruct (is_slash c); congruence.
Qed.
Lemma is_back c : is_backslash c = true <-> backward c.
Proof. unfold is_backslash, backward. rewrite Ascii.eqb_eq. reflexivity. Qed.
Lemma clear_nosep w : clear_of separates w <-> nosep win_sep w.
Proof.
  unfold clear_of, nosep. rewrite Forall_forall. split; intros H c I; specialize (H c I); now apply not_sep.
Qed.
Lemma clear_back w : clear_of backward w <-> nosep is_backslash w.
Proof.
  unfold clear_of, nosep. rewrite Forall_forall. split; intros H c I; specialize (H c I).
  - destruct (is_backslash c) eqn:E; [|reflexivity]. now apply is_back in E.
  - intros E. apply is_back in E. congruence.
Qed.
(** The first piece, where it ends. *)
Lemma until_ended f (sep : ascii -> Prop) a t : (forall c, f c = true <-> sep c) -> nosep f a -> ended sep t ->
  exists b, until f (a ++ t) = (a, b) /\ (t = [] /\ b = [] \/ exists k, sep k /\ t = k :: b).
Proof.
  intros F N [->|(k & u & -> & K)].
  - exists []. rewrite app_nil_r, until_end by auto. auto.
  - exists u. rewrite until_at; [|auto|now apply F]. split; [reflexivity|]. right. eauto.
Qed.
Lemma until_parts f (sep : ascii -> Prop) s a b : (forall c, f c = true <-> sep c) -> until f s = (a, b) ->
  exists t, s = a ++ t /\ nosep f a /\ ended sep t /\ (t = [] /\ b = [] \/ exists k, sep k /\ t = k :: b).
Proof.
  intros F U. destruct (until_spec f s a b U) as [N [[-> ->]|(k & K & ->)]].
  - exists []. rewrite app_nil_r. split; [reflexivity|]. split; [auto|]. split; [now left|]. auto.
  - apply F in K. exists (k :: b). split; [reflexivity|]. split; [auto|]. split; [right; eauto|]. right; eauto.
Qed.

(** ** Prefixes *)
Lemma two_seps p s2 : strip_alike (B "\\") p = Some s2 <-> exists k k', separates k /\ separates k' /\ p = k :: k' :: s2.
Proof.
  change (B "\\") with [backslash; backslash]. split.
  - destruct p as [|k [|k' s]]; cbn [strip_alike]; rewrite ?alike_back; try discriminate; try (destruct (win_sep k); discriminate).
    destruct (win_sep k) eqn:K; [|discriminate]. destruct (win_sep k') eqn:K'; [|discriminate]. intros [= <-].
    exists k, k'. rewrite <- !sep_separates. auto.
  - intros (k & k' & K & K' & ->). cbn [strip_alike]. rewrite !alike_back. apply sep_separates in K, K'. now rewrite K, K'.
Qed.
Lemma strip_word a q s : a <> backslash -> alike_sep a = a ->
  forall t, strip_alike (a :: q) s = Some t <-> exists u, s = a :: u /\ strip_alike q u = Some t.
Proof.
  intros N A t. split.
  - destruct s as [|c u]; cbn [strip_alike]; [discriminate|]. destruct (Ascii.eqb a (alike_sep c)) eqn:E; [|discriminate].
    apply alike_same in E as ->; [|exact N]. eauto.
  - intros (u & -> & H). cbn [strip_alike]. now rewrite A, Ascii.eqb_refl.
Qed.
Lemma strip_sep s t : strip_alike [backslash] s = Some t <-> exists j, separates j /\ s = j :: t.
Proof.
  split.
  - destruct s as [|j u]; cbn [strip_alike]; [discriminate|]. rewrite alike_back. destruct (win_sep j) eqn:J; [|discriminate].
    intros [= ->]. exists j. now rewrite <- sep_separates.
  - intros (j & J & ->). cbn [strip_alike]. rewrite alike_back. apply sep_separates in J. now rewrite J.
Qed.
Lemma strip_dot s t : strip_alike (B ".\") s = Some t <-> exists j, separates j /\ s = "."%char :: j :: t.
Proof.
  change (B ".\") with ["."%char; backslash]. rewrite strip_word by (discriminate || reflexivity). split.
  - intros (u & -> & H). apply strip_sep in H as (j & J & ->). eauto.
  - intros (j & J & ->). exists (j :: t). split; [reflexivity|]. apply strip_sep. eauto.
Qed.
Lemma strip_mark s t : strip_alike (B "?\") s = Some t <-> exists j, separates j /\ s = "?"%char :: j :: t.
Proof.
  change (B "?\") with ["?"%char; backslash]. rewrite strip_word by (discriminate || reflexivity). split.
  - intros (u & -> & H). apply strip_sep in H as (j & J & ->). eauto.
  - intros (j & J & ->). exists (j :: t). split; [reflexivity|]. apply strip_sep. eauto.
Qed.
Lemma strip_unc s t : strip_alike (B "UNC\") s = Some t <-> exists j, separates j /\ s = B "UNC" ++ j :: t.
Proof.
  change (B "UNC\") with ["U"%char; "N"%char; "C"%char; backslash]. rewrite strip_word by (discriminate || reflexivity). split.
  - intros (u & -> & H). rewrite strip_word in H by (discriminate || reflexivity). destruct H as (u' & -> & H).
    rewrite strip_word in H by (discriminate || reflexivity). destruct H as (u'' & -> & H).
    apply strip_sep in H as (j & J & ->). exists j. auto.
  - intros (j & J & ->). exists ("N"%char :: "C"%char :: j :: t). split; [reflexivity|].
    rewrite strip_word by (discriminate || reflexivity). exists ("C"%char :: j :: t). split; [reflexivity|].
    rewrite strip_word by (discriminate || reflexivity). exists (j :: t). split; [reflexivity|]. apply strip_sep. eauto.
Qed.
Lemma strip_none q s : strip_alike q s = None <-> forall t, strip_alike q s <> Some t.
Proof. destruct (strip_alike q s) as [t|]; split; [discriminate|intros H; now specialize (H t)|congruence|reflexivity]. Qed.
(** The long form. *)
Definition long_rest (s : str) : option str := if existsb is_slash (firstn 4 s) then None else
  match strip_alike (B "\\") s with Some s2 => strip_alike (B "?\") s2 | None => None end.
Lemma long_rest_iff s t : long_rest s = Some t <-> s = B "\\?\" ++ t.
Proof.
  unfold long_rest. split.
  - destruct (existsb is_slash (firstn 4 s)) eqn:E; [discriminate|]. destruct (strip_alike (B "\\") s) as [s2|] eqn:S; [|discriminate].
    apply two_seps in S as (k & k' & K & K' & ->). intros H. apply strip_mark in H as (j & J & ->).
    cbn [firstn existsb] in E. rewrite !orb_false_iff in E. destruct E as (E1 & E2 & _ & E3 & _).
    assert (Q : forall c, separates c -> is_slash c = false -> c = backslash).
    { intros c [-> | ->] X; [reflexivity|discriminate X]. }
    rewrite (Q k), (Q k'), (Q j) by auto. reflexivity.
  - intros ->. reflexivity.
Qed.
Lemma prefix_cases s : parse_prefix s =
  match long_rest s with
  | Some s4 => Some (verbatim_kind s4)
  | None => match strip_alike (B "\\") s with Some s2 => plain_share s2 | None => option_map PDisk (parse_drive s) end
  end.
Proof.
  rewrite parse_prefix_split. unfold long_rest. destruct (strip_alike (B "\\") s) as [s2|].
  - now destruct (existsb _ _).
  - now destruct (existsb _ _).
Qed.
Lemma drive_iff s d : parse_drive s = Some d <-> exists c t, is_letter c /\ s = c :: ":"%char :: t /\ d = capital c.
Proof.
  split.
  - destruct s as [|c [|k t]]; cbn [parse_drive]; try discriminate. destruct (alphabetic c) eqn:A; cbn [andb]; [|discriminate].
    destruct (Ascii.eqb k ":") eqn:E; [|discriminate]. apply Ascii.eqb_eq in E as ->. intros [= <-]. exists c, t.
    rewrite capital_upper. auto using alphabetic_letter.
  - intros (c & t & L & -> & ->). cbn [parse_drive]. now rewrite (letter_alphabetic c L), capital_upper.
Qed.
Lemma drive_exact_iff s d : parse_drive_exact s = Some d <-> exists c t, is_letter c /\ ended separates t /\ s = c :: ":"%char :: t /\ d = capital c.
Proof.
  split.
  - intros H. assert (D : parse_drive s = Some d /\ (forall a b k u, s = a :: b :: k :: u -> win_sep k = true)).
    { destruct s as [|a [|b [|k u]]]; cbn [parse_drive_exact] in H; try (split; [exact H|intros; congruence]).
      destruct (win_sep k) eqn:K; [|discriminate]. split; [exact H|]. intros ? ? ? ? [= <- <- <- <-]. exact K. }
    destruct D as [D X]. apply drive_iff in D as (c & t & L & -> & ->). exists c, t. split; [exact L|]. split; [|auto].
    destruct t as [|k u]; [now left|]. right. exists k, u. split; [reflexivity|]. apply sep_separates. now apply (X c ":"%char k u).
  - intros (c & t & L & E & -> & ->). destruct E as [->|(k & u & -> & K)]; cbn [parse_drive_exact parse_drive].
    + now rewrite (letter_alphabetic c L), capital_upper.
    + apply sep_separates in K. now rewrite K, (letter_alphabetic c L), capital_upper.
Qed.
Lemma share_text_len b : b <> [] -> share_len b = S (length b).
Proof. now destruct b. Qed.
Lemma skip_len {A} (a b : list A) n : n = length a -> skipn n (a ++ b) = b.
Proof. intros ->. now rewrite skipn_app, skipn_all, Nat.sub_diag. Qed.

Lemma starts_prefix p s t : starts p s t -> parse_prefix p = Some (px_of s) /\ skipn (px_len (px_of s)) p = t.
Proof.
  intros H. destruct H as [c t L|k k' a j b t K K' J Na Nb Ca Cb E Nd Nq|k k' j n t K K' J Cn E|c t L E|j a b t J Ca Cb Nb E|j a t J Ca E|n t Cn E Nu Nd].
  - split; [|reflexivity]. rewrite drive_prefix by exact L. cbn [px_of]. now rewrite capital_upper.
  - rewrite prefix_cases.
    assert (Z : long_rest (k :: k' :: a ++ j :: b ++ t) = None).
    { destruct (long_rest _) as [u|] eqn:Z; [|reflexivity]. exfalso. apply long_rest_iff in Z. injection Z as -> -> Z.
      assert (a = B "?" /\ j = back) as [-> ->]; [|now apply Nq].
      destruct a as [|a0 [|a1 a]]; [easy| |]; cbn [app] in Z; injection Z as Z0 Z1 Z2; subst a0.
      - now subst j.
      - exfalso. apply (Ca back); [right; left; exact Z1|]. now left. }
    rewrite Z. rewrite (proj2 (two_seps _ _) (ex_intro _ k (ex_intro _ k' (conj K (conj K' eq_refl))))).
    apply clear_nosep in Ca. apply clear_nosep in Cb.
    assert (D : strip_alike (B ".\") (a ++ j :: b ++ t) = None).
    { apply strip_none. intros u Hu. apply strip_dot in Hu as (i & I & Hu). destruct a as [|a0 [|a1 a]]; [easy| |]; cbn [app] in Hu; injection Hu as Hu0 Hu1 Hu2; subst a0; [easy|].
      subst a1. inversion_clear Ca as [|? ? _ X]. inversion_clear X as [|? ? Y _]. apply sep_separates in I. congruence. }
    unfold plain_share. rewrite D. rewrite until_at; [|exact Ca|now apply sep_separates].
    destruct (until_ended win_sep separates b t sep_separates Cb E) as (z & U & _). rewrite U.
    assert (is_empty a = false) as -> by (destruct a; [easy|reflexivity]).
    assert (is_empty b = false) as -> by (destruct b; [easy|reflexivity]). split; [reflexivity|].
    cbn [px_of px_len]. rewrite (share_text_len b Nb). cbn [plus skipn].
    replace (a ++ j :: b ++ t) with ((a ++ j :: b) ++ t) by now rewrite <- app_assoc.
    apply skip_len. rewrite app_length. cbn [length]. lia.
  - rewrite prefix_cases.
    assert (Z : long_rest (k :: k' :: "."%char :: j :: n ++ t) = None).
    { destruct (long_rest _) as [u|] eqn:Z; [|reflexivity]. apply long_rest_iff in Z. discriminate Z. }
    rewrite Z, (proj2 (two_seps _ _) (ex_intro _ k (ex_intro _ k' (conj K (conj K' eq_refl))))).
    unfold plain_share. rewrite (proj2 (strip_dot _ _) (ex_intro _ j (conj J eq_refl))).
    apply clear_nosep in Cn. destruct (until_ended win_sep separates n t sep_separates Cn E) as (z & U & _). rewrite U.
    split; [reflexivity|]. cbn [px_of px_len plus skipn]. now apply skip_len.
  - rewrite prefix_cases, (proj2 (long_rest_iff _ _) eq_refl). unfold verbatim_kind.
    assert (D : strip_alike (B "UNC\") (c :: ":"%char :: t) = None).
    { apply strip_none. intros u Hu. apply strip_unc in Hu as (i & I & Hu). discriminate Hu. }
    rewrite D, (proj2 (drive_exact_iff _ (capital c)) (ex_intro _ c (ex_intro _ t (conj L (conj E (conj eq_refl eq_refl)))))).
    split; reflexivity.
  - rewrite prefix_cases. change (B "\\?\UNC" ++ j :: a ++ back :: b ++ t) with (B "\\?\" ++ B "UNC" ++ j :: a ++ back :: b ++ t).
    rewrite (proj2 (long_rest_iff _ _) eq_refl). unfold verbatim_kind. rewrite (proj2 (strip_unc _ _) (ex_intro _ j (conj J eq_refl))).
    apply clear_back in Ca. apply clear_back in Cb. rewrite until_at; [|exact Ca|reflexivity].
    destruct (until_ended is_backslash backward b t is_back Cb E) as (z & U & _). rewrite U. split; [reflexivity|].
    cbn [px_of px_len]. rewrite (share_text_len b Nb).
    replace (B "\\?\" ++ B "UNC" ++ j :: a ++ back :: b ++ t) with ((B "\\?\UNC" ++ j :: a ++ back :: b) ++ t).
    + apply skip_len. rewrite app_length. change (length (B "\\?\UNC")) with 7. cbn [length]. rewrite app_length. cbn [length]. lia.
    + rewrite <- app_assoc. cbn [app]. now rewrite <- app_assoc.
  - rewrite prefix_cases. change (B "\\?\UNC" ++ j :: a ++ t) with (B "\\?\" ++ B "UNC" ++ j :: a ++ t).
    rewrite (proj2 (long_rest_iff _ _) eq_refl). unfold verbatim_kind. rewrite (proj2 (strip_unc _ _) (ex_intro _ j (conj J eq_refl))).
    apply clear_back in Ca.
    assert (U : exists z, until is_backslash (a ++ t) = (a, z) /\ fst (until is_backslash z) = []).
    { destruct E as [->|(u & -> & E)].
      - exists []. rewrite app_nil_r, until_end by auto. auto.
      - exists u. rewrite until_at; [|auto|reflexivity]. split; [reflexivity|]. destruct E as [->|(k & x & -> & K)]; [reflexivity|].
        cbn [until]. apply is_back in K. now rewrite K. }
    destruct U as (z & -> & U). destruct (until is_backslash z) as [x y]. cbn [fst] in U. subst x. split; [reflexivity|].
    cbn [px_of px_len share_len]. 
    replace (B "\\?\" ++ B "UNC" ++ j :: a ++ t) with ((B "\\?\UNC" ++ j :: a) ++ t) by now rewrite <- app_assoc.
    apply skip_len. rewrite app_length. change (length (B "\\?\UNC")) with 7. cbn [length]. lia.
  - rewrite prefix_cases, (proj2 (long_rest_iff _ _) eq_refl). unfold verbatim_kind.
    assert (D : strip_alike (B "UNC\") (n ++ t) = None).
    { apply strip_none. intros u Hu. apply strip_unc in Hu as (i & I & Hu). apply Nu. eauto. }
    rewrite D. assert (X : parse_drive_exact (n ++ t) = None).
    { destruct (parse_drive_exact (n ++ t)) as [d|] eqn:X; [|reflexivity]. exfalso. apply drive_exact_iff in X as (c & u & L & Eu & Eq & _). apply Nd. eauto. }
    rewrite X. apply clear_back in Cn. destruct (until_ended is_backslash backward n t is_back Cn E) as (z & U & _). rewrite U. split; [reflexivity|].
    cbn [px_of px_len fst]. change (skipn (4 + length n) (B "\\?\" ++ n ++ t)) with (skipn (length n) (n ++ t)). now apply skip_len.
Qed.
Lemma prefix_starts p x : parse_prefix p = Some x -> exists s, px_of s = x /\ starts p s (skipn (px_len x) p).
Proof.
  intros H. assert (G : exists s t, px_of s = x /\ starts p s t).
  { rewrite prefix_cases in H. destruct (long_rest p) as [s4|] eqn:L.
    - apply long_rest_iff in L as ->. injection H as <-. unfold verbatim_kind. destruct (strip_alike (B "UNC\") s4) as [s8|] eqn:U.
      + apply strip_unc in U as (j & J & ->). destruct (until is_backslash s8) as [a r] eqn:Ua. destruct (until is_backslash r) as [b z] eqn:Ub.
        destruct (until_parts is_backslash backward s8 a r is_back Ua) as (t & -> & Na & Et & T). apply clear_back in Na.
        exists (LongShare a b). destruct b as [|b0 b].
        * exists t. split; [reflexivity|]. apply (starts_long_server j a t); auto. destruct T as [[-> ->]|(k & K & ->)]; [now left|].
          right. exists r. rewrite K. split; [reflexivity|]. destruct (until_parts is_backslash backward r [] z is_back Ub) as (t' & -> & _ & Et' & _). exact Et'.
        * destruct (until_parts is_backslash backward r (b0 :: b) z is_back Ub) as (t' & Er & Nb & Et' & _). exists t'. split; [reflexivity|].
          destruct T as [[-> ->]|(k & K & ->)]; [discriminate Er|]. rewrite K, Er.
          apply (starts_long_share j a (b0 :: b) t'); auto; [now apply clear_back|discriminate].
      + destruct (parse_drive_exact s4) as [d|] eqn:D.
        * apply drive_exact_iff in D as (c & t & Lc & E & -> & ->). exists (LongDrive (capital c)), t. split; [reflexivity|]. now constructor.
        * destruct (until is_backslash s4) as [n r] eqn:Un. destruct (until_parts is_backslash backward s4 n r is_back Un) as (t & -> & Nn & Et & _).
          exists (LongName n), t. split; [reflexivity|]. apply starts_long_name; [now apply clear_back|exact Et| |].
          -- intros (j & u & J & E). rewrite E in U. rewrite (proj2 (strip_unc _ u) (ex_intro _ j (conj J eq_refl))) in U. discriminate U.
          -- intros (c & u & Lc & Eu & E). rewrite E in D.
             rewrite (proj2 (drive_exact_iff _ (capital c)) (ex_intro _ c (ex_intro _ u (conj Lc (conj Eu (conj eq_refl eq_refl)))))) in D. discriminate D.
    - destruct (strip_alike (B "\\") p) as [s2|] eqn:S.
      + apply two_seps in S as (k & k' & K & K' & ->). unfold plain_share in H. destruct (strip_alike (B ".\") s2) as [s4|] eqn:D.
        * apply strip_dot in D as (j & J & ->). injection H as <-. destruct (until win_sep s4) as [n r] eqn:Un.
          destruct (until_parts win_sep separates s4 n r sep_separates Un) as (t & -> & Nn & Et & _).
          exists (AtDevice n), t. split; [reflexivity|]. apply starts_device; auto. now apply clear_nosep.
        * destruct (until win_sep s2) as [a r] eqn:Ua. destruct (until win_sep r) as [b z] eqn:Ub.
          destruct (is_empty a) eqn:Ea; [discriminate H|]. destruct (is_empty b) eqn:Eb; [discriminate H|]. injection H as <-.
          destruct (until_parts win_sep separates s2 a r sep_separates Ua) as (t & -> & Na & Et & T).
          destruct (until_parts win_sep separates r b z sep_separates Ub) as (t' & -> & Nb & Et' & _).
          destruct T as [[_ Er]|(j & J & ->)]; [destruct b; discriminate|].
          exists (AtShare a b), t'. split; [reflexivity|]. apply starts_share; auto.
          -- now intros ->.
          -- now intros ->.
          -- now apply clear_nosep.
          -- now apply clear_nosep.
          -- intros ->. change (B "." ++ j :: b ++ t') with ("."%char :: j :: b ++ t') in D. rewrite (proj2 (strip_dot _ _) (ex_intro _ j (conj J eq_refl))) in D. discriminate D.
          -- intros (-> & -> & -> & ->). assert (Z := proj2 (long_rest_iff (back :: back :: B "?" ++ back :: b ++ t') (b ++ t')) eq_refl). rewrite Z in L. discriminate L.
      + destruct (parse_drive p) as [d|] eqn:D; [|discriminate H]. injection H as <-. apply drive_iff in D as (c & t & Lc & -> & ->).
        exists (AtDrive (capital c)), t. split; [reflexivity|]. now constructor. }
  destruct G as (s & t & <- & G). exists s. split; [reflexivity|]. destruct (starts_prefix p s t G) as [_ E]. now rewrite E.
Qed.
Lemma starts_iff p s t : starts p s t <-> parse_prefix p = Some (px_of s) /\ t = skipn (px_len (px_of s)) p.
Proof.
  split.
  - intros H. apply starts_prefix in H as [H <-]. auto.
  - intros [H ->]. destruct (prefix_starts p _ H) as (s' & E & G). apply px_of_inj in E. now subst s'.
Qed.
Lemma no_start p : (forall s t, ~ starts p s t) <-> parse_prefix p = None.
Proof.
  split.
  - intros N. destruct (parse_prefix p) as [x|] eqn:E; [|reflexivity]. destruct (prefix_starts p x E) as (s & _ & G). now apply N in G.
  - intros E s t H. apply starts_iff in H as [H _]. congruence.
Qed.

(** ** The parts of a path *)
Definition any_part (w : str) : part := if str_eqb w (B ".") then Cur else piece_part w.
Definition all_parts (v : option start) (r : bool) (ws : list str) : list part :=
  match v with Some s => [Pre [] (px_of s)] | None => [] end ++ (if r then [Root] else []) ++ map any_part ws.
Lemma any_part_movable w : movable (any_part w).
Proof. unfold any_part, piece_part. destruct (str_eqb w (B ".")); [exact I|]. now destruct (str_eqb w (B "..")). Qed.
Lemma any_part_inj a b : any_part a = any_part b -> a = b.
Proof.
  unfold any_part, piece_part. destruct (str_eqb a (B ".")) eqn:A, (str_eqb b (B ".")) eqn:C.
  - apply str_eqb_eq in A, C. congruence.
  - now destruct (str_eqb b (B "..")).
  - now destruct (str_eqb a (B "..")).
  - destruct (str_eqb a (B "..")) eqn:A', (str_eqb b (B "..")) eqn:C'; try discriminate.
    + apply str_eqb_eq in A', C'. congruence.
    + now intros [= ->].
Qed.
Lemma any_parts_inj a b : map any_part a = map any_part b -> a = b.
Proof. revert b. induction a as [|x a IH]; intros [|y b]; try discriminate; [reflexivity|]. cbn. intros H. injection H as H H2. apply any_part_inj in H. f_equal; auto. Qed.
Lemma root_no_word (r : bool) ws (r' : bool) ws' : (if r then [Root] else []) ++ map any_part ws = (if r' then [Root] else []) ++ map any_part ws' -> r = r' /\ ws = ws'.
Proof.
  assert (N : forall w, any_part w <> Root) by (intros w E; assert (M := any_part_movable w); rewrite E in M; exact M).
  destruct r, r'; cbn [app]; intros E.
  - injection E as E. auto using any_parts_inj.
  - destruct ws' as [|w ws']; [discriminate E|]. cbn in E. injection E as E _. symmetry in E. now apply N in E.
  - destruct ws as [|w ws]; [discriminate E|]. cbn in E. injection E as E _. now apply N in E.
  - auto using any_parts_inj.
Qed.
Lemma all_parts_inj v r ws v' r' ws' : all_parts v r ws = all_parts v' r' ws' -> v = v' /\ r = r' /\ ws = ws'.
Proof.
  unfold all_parts. assert (N : forall x (r0 : bool) (l0 : list str), Pre [] x :: (if r0 then [Root] else []) ++ map any_part l0 <> (if r' then [Root] else []) ++ map any_part ws').
  { intros x r0 l0 E. destruct r'; [discriminate E|]. destruct ws' as [|w l]; [discriminate E|]. cbn in E. injection E as E _.
    assert (M := any_part_movable w). rewrite <- E in M. exact M. }
  assert (N' : forall x (r0 : bool) (l0 : list str), Pre [] x :: (if r0 then [Root] else []) ++ map any_part l0 <> (if r then [Root] else []) ++ map any_part ws).
  { intros x r0 l0 E. destruct r; [discriminate E|]. destruct ws as [|w l]; [discriminate E|]. cbn in E. injection E as E _.
    assert (M := any_part_movable w). rewrite <- E in M. exact M. }
  destruct v as [s|], v' as [s'|]; cbn [app]; intros E.
  - injection E as E1 E2. apply px_of_inj in E1 as ->. apply root_no_word in E2 as [-> ->]. auto.
  - now apply N in E.
  - symmetry in E. now apply N' in E.
  - apply root_no_word in E as [-> ->]. auto.
Qed.

Lemma pieces_any l : map any_part (filter counts l) = map piece_part (filter counts l).
Proof.
  apply map_ext_in. intros w I. apply filter_In in I as [_ C]. unfold any_part. destruct (str_eqb w (B ".")) eqn:E; [|reflexivity].
  apply str_eqb_eq in E. subst w. discriminate C.
Qed.
Lemma singles_any l : singles false l = map any_part (filter counts l).
Proof. now rewrite pieces_any, singles_pieces. Qed.
Lemma cut_back_body w r : nosep is_backslash w -> seps is_backslash r -> cut_back (body w r) = w :: map snd r.
Proof.
  intros Nw. revert r.
  assert (T : forall r, seps is_backslash r -> forall x, nosep is_backslash x -> cut_back (x ++ tail r) = x :: map snd r).
  { induction 1 as [|[k y] r [Kk Ny] Sr IH]; intros x Nx.
    - cbn. rewrite app_nil_r. induction Nx as [|c x C Nx IHx]; [reflexivity|]. cbn. unfold is_backslash in C. change backslash with back in C. now rewrite C, IHx.
    - induction Nx as [|c x C Nx IHx].
      + cbn [app tail flat_map fst snd map cut_back]. cbn [fst snd] in *. unfold is_backslash in Kk. change backslash with back in Kk. rewrite Kk. f_equal. now apply IH.
      + cbn [app cut_back]. unfold is_backslash in C. change backslash with back in C. now rewrite C, IHx. }
  intros r Sr. now apply T.
Qed.
Lemma singles_long l : singles true l = map any_part (filter (fun w => match w with [] => false | _ => true end) l).
Proof.
  induction l as [|w l IH]; [reflexivity|]. change (w :: l) with ([w] ++ l) at 1. rewrite singles_app, IH. cbn [filter].
  unfold singles. cbn [flat_map]. rewrite app_nil_r. unfold sing. destruct w as [|a w]; [reflexivity|]. cbn [is_empty map].
  unfold any_part at 2, piece_part. destruct (str_eqb (a :: w) (B ".")); [reflexivity|]. now destruct (str_eqb (a :: w) (B "..")).
Qed.
Lemma pieces_sep k t : separates k -> pieces (k :: t) = pieces t.
Proof. intros [-> | ->]; reflexivity. Qed.

Section Of.
Context (p : str) (v : option start) (t : str).
Hypothesis Px : os_prefix windows p = option_map px_of v.
Hypothesis T : t = skipn (prefix_len (comps_of windows p)) p.
Let c := comps_of windows p.
Lemma of_text : p = pre_text windows p ++ t.
Proof. rewrite T. symmetry. apply firstn_skipn. Qed.
Lemma of_root : cs_root c = match t with [] => false | k :: _ => win_sep k end.
Proof. unfold c. cbn [cs_root comps_of]. unfold physical_root. rewrite T. unfold prefix_len. cbn [cs_prefix comps_of]. reflexivity. Qed.
Lemma of_verbatim : prefix_verbatim c = match v with Some s => px_verbatim (px_of s) | None => false end.
Proof. unfold prefix_verbatim, c. cbn [cs_prefix comps_of]. rewrite Px. now destruct v. Qed.
Lemma of_sep : cs_sep windows c = if prefix_verbatim c then is_backslash else win_sep.
Proof. reflexivity. Qed.
Lemma of_pre : pre_parts c = match v with Some s => [Pre [] (px_of s)] | None => [] end.
Proof. unfold pre_parts, c. cbn [cs_prefix comps_of]. rewrite Px. now destruct v. Qed.
(** From a root. *)
Lemma of_rooted k u : t = k :: u -> separates k ->
  map bare (parts windows p) = all_parts v true (if prefix_verbatim c then long_pieces u else pieces u).
Proof.
  intros E K. apply sep_separates in K. destruct (split_body (cs_sep windows c) u) as (w & r & Eu & Nw & Sr).
  rewrite (parts_of windows windows_steady p (ByRoot k) w r).
  - fold c. rewrite of_pre. unfold all_parts. cbn [start_parts app]. do 2 f_equal. rewrite of_sep in Nw, Sr. destruct (prefix_verbatim c).
    + unfold long_pieces. now rewrite Eu, cut_back_body, singles_long by auto.
    + unfold pieces. now rewrite Eu, cut_body, singles_any by auto.
  - rewrite of_text at 1. rewrite E, Eu. reflexivity.
  - split; [|exact K]. change (cs_root c = true). rewrite of_root, E. exact K.
  - exact I.
  - exact Nw.
  - exact Sr.
Qed.
Lemma of_nothing s : t = [] -> v = Some s -> ~ drive s -> map bare (parts windows p) = all_parts v (negb (prefix_verbatim c)) [].
Proof.
  intros E V D. rewrite (parts_of windows windows_steady p ByPrefix [] []).
  - fold c. rewrite of_pre. unfold all_parts. cbn [start_parts]. rewrite app_nil_r. now destruct (prefix_verbatim c).
  - rewrite of_text at 1. now rewrite E.
  - split; [change (cs_root c = false); now rewrite of_root, E|]. exists (px_of s). split; [cbn [cs_prefix comps_of]; now rewrite Px, V|].
    destruct s; try reflexivity. now elim D.
  - exact I.
  - constructor.
  - constructor.
Qed.
Lemma of_relative : ~ leads t -> (forall s, v = Some s -> drive s) ->
  map bare (parts windows p) = all_parts v false (match v with Some _ => [] | None => first_dot t end ++ pieces t).
Proof.
  intros L D. assert (Vb : prefix_verbatim c = false) by (rewrite of_verbatim; destruct v as [s|]; [specialize (D s eq_refl); now destruct s|reflexivity]).
  assert (Rt : cs_root c = false). { rewrite of_root. destruct t as [|k u]; [reflexivity|]. apply not_sep. intros K. apply L. exists k, u. auto. }
  assert (So : forall x, cs_prefix c = Some x -> px_implicit_root x = false).
  { unfold c. cbn [cs_prefix comps_of]. rewrite Px. intros x Ex. destruct v as [s|]; [|discriminate Ex]. injection Ex as <-. specialize (D s eq_refl). now destruct s. }
  destruct (split_body win_sep t) as (w & r & Et & Nw & Sr).
  assert (Cs : cs_sep windows c = win_sep) by now rewrite of_sep, Vb.
  assert (Cu : cut t = w :: map snd r) by now rewrite Et, cut_body.
  destruct (str_eqb w (B ".")) eqn:Ew.
  - apply str_eqb_eq in Ew. subst w. rewrite (parts_of windows windows_steady p ByDot [] r).
    + fold c. rewrite Vb, of_pre, singles_any. unfold all_parts, first_dot, pieces. rewrite Cu. cbn [start_parts]. unfold c. cbn [cs_prefix comps_of]. rewrite Px.
      destruct v as [s|]; reflexivity.
    + rewrite of_text at 1. now rewrite Et.
    + now split.
    + reflexivity.
    + constructor.
    + fold c. now rewrite Cs.
  - rewrite (parts_of windows windows_steady p Plainly w r).
    + fold c. rewrite Vb, of_pre, singles_any. unfold all_parts, first_dot, pieces. rewrite Cu. cbn [start_parts app].
      assert (Z : (if counts w then [] else match w with [] => [] | _ => [w] end) = @nil str).
      { destruct w as [|a w]; [reflexivity|]. destruct (counts (a :: w)) eqn:C; [reflexivity|]. exfalso.
        destruct w as [|b w]; cbn in C; destruct a as [[] [] [] [] [] [] [] []]; try discriminate C. discriminate Ew. }
      rewrite Z. destruct v as [s|]; reflexivity.
    + rewrite of_text at 1. now rewrite Et.
    + now split.
    + intros ->. discriminate Ew.
    + fold c. now rewrite Cs.
    + fold c. now rewrite Cs.
Qed.
End Of.
Lemma starts_of p s t : starts p s t -> os_prefix windows p = option_map px_of (Some s) /\ t = skipn (prefix_len (comps_of windows p)) p.
Proof.
  intros H. apply starts_iff in H as [H ->]. split; [exact H|]. unfold prefix_len. cbn [cs_prefix comps_of]. change (os_prefix windows p) with (parse_prefix p). now rewrite H.
Qed.
Lemma none_of p : (forall s t, ~ starts p s t) -> os_prefix windows p = option_map px_of None /\ p = skipn (prefix_len (comps_of windows p)) p.
Proof.
  intros H. apply no_start in H. split; [exact H|]. unfold prefix_len. cbn [cs_prefix comps_of]. change (os_prefix windows p) with (parse_prefix p). now rewrite H.
Qed.
(** What follows a start other than a drive begins with a separator. *)
Lemma starts_ended p s t : starts p s t -> ~ drive s -> t = [] \/ exists k u, t = k :: u /\ separates k.
Proof.
  intros H D. destruct H as [| | | | ? ? ? ? ? ? ? ? E| ? ? ? ? ? E|? ? ? E]; auto.
  - now elim D.
  - destruct E as [->|(k & u & -> & ->)]; [now left|]. right. exists back, u. split; [reflexivity|now left].
  - destruct E as [->|(u & -> & _)]; [now left|]. right. exists back, u. split; [reflexivity|now left].
  - destruct E as [->|(k & u & -> & ->)]; [now left|]. right. exists back, u. split; [reflexivity|now left].
Qed.
Lemma long_not_drive s : long s -> ~ drive s.
Proof. now destruct s. Qed.
Lemma verbatim_of p s t : starts p s t -> prefix_verbatim (comps_of windows p) = px_verbatim (px_of s).
Proof. intros H. apply starts_of in H as [H _]. now rewrite (of_verbatim p (Some s) H). Qed.
Lemma reads_parts p v r ws : reads p v r ws -> map bare (parts windows p) = all_parts v r ws.
Proof.
  intros H. destruct H as [p c t S L|p c t S L|p s t S D L|p s S L|p s k t S L|p N L|p N L].
  - destruct (starts_of _ _ _ S) as [Px T]. rewrite (of_relative p (Some (AtDrive c)) t Px T L); [reflexivity|]. intros s [= <-]. exact I.
  - destruct (starts_of _ _ _ S) as [Px T]. destruct L as (k & u & -> & K). rewrite (of_rooted p (Some (AtDrive c)) (k :: u) Px T k u eq_refl K), (verbatim_of _ _ _ S). now rewrite pieces_sep.
  - destruct (starts_of _ _ _ S) as [Px T].
    assert (Vb : prefix_verbatim (comps_of windows p) = false). { rewrite (verbatim_of _ _ _ S). destruct (px_verbatim (px_of s)) eqn:E; [|reflexivity]. now apply px_long in E. }
    destruct (starts_ended _ _ _ S D) as [->|(k & u & -> & K)].
    + now rewrite (of_nothing p (Some s) [] Px T s eq_refl eq_refl D), Vb.
    + rewrite (of_rooted p (Some s) (k :: u) Px T k u eq_refl K), Vb. now rewrite pieces_sep.
  - destruct (starts_of _ _ _ S) as [Px T]. rewrite (of_nothing p (Some s) [] Px T s eq_refl eq_refl (long_not_drive s L)), (verbatim_of _ _ _ S).
    apply px_long in L. now rewrite L.
  - destruct (starts_of _ _ _ S) as [Px T]. destruct (starts_ended _ _ _ S (long_not_drive s L)) as [X|(k' & u & X & K)]; [discriminate X|]. injection X as <- <-.
    rewrite (of_rooted p (Some s) (k :: t) Px T k t eq_refl K), (verbatim_of _ _ _ S). apply px_long in L. now rewrite L.
  - destruct (none_of _ N) as [Px T]. now rewrite (of_relative p None p Px T L).
  - destruct (none_of _ N) as [Px T]. destruct L as (k & u & E & K). rewrite (of_rooted p None p Px T k u E K), (of_verbatim p None Px). now rewrite E, pieces_sep.
Qed.
Lemma leads_dec t : leads t \/ ~ leads t.
Proof.
  destruct t as [|k u]; [right; intros (? & ? & [=] & _)|]. destruct (win_sep k) eqn:E.
  - left. exists k, u. now rewrite <- sep_separates.
  - right. intros (k' & u' & [= <- <-] & K). apply sep_separates in K. congruence.
Qed.
Lemma reads_total p : exists v r ws, reads p v r ws.
Proof.
  destruct (parse_prefix p) as [x|] eqn:E.
  - destruct (prefix_starts p x E) as (s & _ & S). set (t := skipn (px_len x) p) in *. destruct (px_verbatim (px_of s)) eqn:L.
    + apply px_long in L. destruct t as [|k u].
      * exists (Some s), false, []. now apply reads_long.
      * exists (Some s), true, (long_pieces u). now apply (reads_long_root p s k u).
    + assert (NL : ~ long s) by (rewrite <- px_long; congruence). destruct (px_drive (px_of s)) eqn:D.
      * apply px_is_drive in D. destruct s as [c| | | | |]; try contradiction. destruct (leads_dec t).
        -- exists (Some (AtDrive c)), true, (pieces t). now apply reads_root.
        -- exists (Some (AtDrive c)), false, (pieces t). now apply reads_drive.
      * exists (Some s), true, (pieces t). apply reads_share; auto. rewrite <- px_is_drive. congruence.
  - assert (N := proj2 (no_start p) E). destruct (leads_dec p).
    + exists None, true, (pieces p). now apply reads_top.
    + exists None, false, (first_dot p ++ pieces p). now apply reads_here.
Qed.
Lemma reads_unique p v r ws v' r' ws' : reads p v r ws -> reads p v' r' ws' -> v = v' /\ r = r' /\ ws = ws'.
Proof. intros H H'. apply reads_parts in H, H'. apply all_parts_inj. congruence. Qed.
Lemma reads_equal p q v r ws v' r' ws' : reads p v r ws -> reads q v' r' ws' ->
  (std_eqb windows p q = true <-> v = v' /\ r = r' /\ ws = ws').
Proof.
  intros H H'. apply reads_parts in H, H'. rewrite (std_eqb_parts windows windows_steady), H, H'. split.
  - apply all_parts_inj.
  - now intros (-> & -> & ->).
Qed.
Lemma reads_prefix p v r ws : reads p v r ws -> os_prefix windows p = option_map px_of v.
Proof.
  intros H. destruct H as [p c t S L|p c t S L|p s t S D L|p s S L|p s k t S L|p N L|p N L];
  try (now destruct (starts_of _ _ _ S)); now apply none_of.
Qed.
Lemma reads_root_of p v r ws : reads p v r ws -> std_has_root windows p = match v with Some s => negb (px_drive (px_of s)) || r | None => r end%bool.
Proof.
  intros H. unfold std_has_root, cs_has_root. cbn [cs_prefix comps_of]. rewrite (reads_prefix _ _ _ _ H).
  assert (Q : forall s, px_implicit_root (px_of s) = negb (px_drive (px_of s))) by now intros [].
  assert (R : forall t, leads t -> match t with [] => false | k :: _ => win_sep k end = true).
  { intros t (k & u & -> & K). now apply sep_separates. }
  assert (R' : forall t, ~ leads t -> match t with [] => false | k :: _ => win_sep k end = false).
  { intros [|k u] N; [reflexivity|]. apply not_sep. intros K. apply N. now exists k, u. }
  destruct H as [p c t S L|p c t S L|p s t S D L|p s S L|p s k t S L|p N L|p N L]; cbn [option_map].
  - destruct (starts_of _ _ _ S) as [Px T]. cbn. rewrite orb_false_r. rewrite <- (R' t L). exact (of_root p t T).
  - destruct (starts_of _ _ _ S) as [Px T]. cbn. rewrite orb_false_r. rewrite <- (R t L). exact (of_root p t T).
  - rewrite Q. assert (px_drive (px_of s) = false) as ->; [|apply orb_true_r]. destruct (px_drive (px_of s)) eqn:E; [|reflexivity]. now apply px_is_drive in E.
  - rewrite Q. assert (px_drive (px_of s) = false) as ->; [now destruct s|]. apply orb_true_r.
  - rewrite Q. assert (px_drive (px_of s) = false) as ->; [now destruct s|]. apply orb_true_r.
  - destruct (none_of _ N) as [Px T]. rewrite orb_false_r. rewrite <- (R' p L). exact (of_root p p T).
  - destruct (none_of _ N) as [Px T]. rewrite orb_false_r. rewrite <- (R p L). exact (of_root p p T).
Qed.
Lemma reads_absolute p v r ws : reads p v r ws -> (std_is_absolute windows p = true <-> exists s, v = Some s /\ (drive s -> r = true)).
Proof.
  intros H. unfold std_is_absolute. rewrite (reads_root_of _ _ _ _ H), (reads_prefix _ _ _ _ H). cbn [os_needs_prefix windows negb orb].
  destruct v as [s|]; cbn [option_map is_some].
  - rewrite andb_true_r, orb_true_iff, negb_true_iff. split.
    + intros [D|D]; exists s; (split; [reflexivity|]); [|auto]. intros X. apply px_is_drive in X. congruence.
    + intros (s' & [= <-] & D). destruct (px_drive (px_of s)) eqn:E; [|auto]. right. apply D. now apply px_is_drive.
  - rewrite andb_false_r. split; [discriminate|]. now intros (s & [=] & _).
Qed.
Lemma all_parts_snoc v r ws w : all_parts v r (ws ++ [w]) = all_parts v r ws ++ [any_part w].
Proof. unfold all_parts. now rewrite map_app, !app_assoc. Qed.
Lemma reads_parent p v r ws : reads p v r ws ->
  (ws = [] -> std_parent windows p = None)
  /\ (forall l w, ws = l ++ [w] -> exists q rest, std_parent windows p = Some q /\ rest <> [] /\ p = q ++ rest /\ reads q v r l).
Proof.
  intros H. assert (Hp := reads_parts _ _ _ _ H). assert (P := parent_parts windows windows_steady p). split.
  - intros ->. destruct (std_parent windows p) as [q|]; [|reflexivity]. exfalso. destruct P as (_ & x & M & E). rewrite Hp in E.
    unfold all_parts in E. cbn [map] in E. rewrite app_nil_r in E. destruct v as [s|], r; cbn [app] in E.
    + apply (app_inj_tail [Pre [] (px_of s)] _ Root) in E as [_ <-]. exact M.
    + apply (app_inj_tail [] _ (Pre [] (px_of s))) in E as [_ <-]. exact M.
    + apply (app_inj_tail [] _ Root) in E as [_ <-]. exact M.
    + now destruct (map bare (parts windows q)).
  - intros l w ->. rewrite all_parts_snoc in Hp. destruct (std_parent windows p) as [q|].
    + destruct P as ((rest & N & E) & x & M & Ex). exists q, rest. split; [reflexivity|]. split; [exact N|]. split; [exact E|].
      rewrite Hp in Ex. apply app_inj_tail in Ex as [Ex _]. destruct (reads_total q) as (v' & r' & l' & Q). rewrite (reads_parts _ _ _ _ Q) in Ex.
      apply all_parts_inj in Ex as (-> & -> & ->). exact Q.
    + exfalso. apply (P _ _ Hp). apply any_part_movable.
Qed.
Lemma forall2_weaken {A C} (P Q : A -> C -> Prop) : (forall a c, P a c -> Q a c) -> forall l m, Forall2 P l m -> Forall2 Q l m.
Proof. intros H l m F. induction F; constructor; auto. Qed.
Lemma reads_ancestors p v r ws : reads p v r ws ->
  Forall2 (fun q l => reads q v r l /\ exists rest, p = q ++ rest) (std_ancestors windows p) (above ws).
Proof.
  revert p. induction ws as [|w ws IH] using rev_ind; intros p H; rewrite (ancestors_step windows windows_steady); destruct (reads_parent _ _ _ _ H) as [P0 P1].
  - rewrite (P0 eq_refl). constructor; [|constructor]. split; [exact H|]. exists []. now rewrite app_nil_r.
  - destruct (P1 ws w eq_refl) as (q & rest & E & _ & Eq & Q). rewrite E, above_snoc. constructor.
    + split; [exact H|]. exists []. now rewrite app_nil_r.
    + specialize (IH q Q). eapply forall2_weaken; [|exact IH]. intros a l [A (rest' & R)]. split; [exact A|]. exists (rest' ++ rest). now rewrite app_assoc, <- R.
Qed.

(** ** Joining *)
Lemma cut_app t k q : separates k -> cut (t ++ k :: q) = cut t ++ cut q.
Proof.
  intros K. induction t as [|c t IH].
  - cbn [app cut]. assert ((Ascii.eqb k "\" || Ascii.eqb k "/")%bool = true) as -> by (destruct K as [-> | ->]; reflexivity). reflexivity.
  - cbn [app cut]. rewrite IH. destruct (_ || _)%bool; [reflexivity|]. destruct (cut t) eqn:E; [|reflexivity].
    destruct t as [|d t]; [discriminate E|]. cbn in E. destruct (_ || _)%bool; [discriminate E|]. now destruct (cut t).
Qed.
Lemma pieces_app t k q : separates k -> pieces (t ++ k :: q) = pieces t ++ pieces q.
Proof. intros K. unfold pieces. now rewrite cut_app, filter_app. Qed.
Lemma pieces_nil : pieces [] = [].
Proof. reflexivity. Qed.
Lemma last_sep p : last_is_sep windows p = true <-> p = [] \/ exists u k, p = u ++ [k] /\ separates k.
Proof.
  unfold last_is_sep. destruct (rev p) as [|k u] eqn:E.
  - apply (f_equal (@rev _)) in E. rewrite rev_involutive in E. cbn in E. subst p. split; auto.
  - apply (f_equal (@rev _)) in E. rewrite rev_involutive in E. cbn in E. subst p. split.
    + intros K. right. exists (rev u), k. split; [reflexivity|]. now apply sep_separates.
    + intros [X|(u' & k' & X & K)]; [now destruct (rev u)|]. apply app_inj_tail in X as [_ ->]. now apply sep_separates.
Qed.
(** More text behind a start that is not in the long form. *)
Lemma starts_more p s t x : starts p s t -> ~ long s -> drive s \/ t <> [] \/ leads x -> starts (p ++ x) s (t ++ x).
Proof.
  intros H L C. assert (E : forall t, ended separates t -> t <> [] \/ leads x -> ended separates (t ++ x)).
  { intros t' [->|(k & u & -> & K)] X; [|right; exists k, (u ++ x); auto]. destruct X as [X|(k & u & -> & K)]; [easy|]. right. exists k, u. auto. }
  destruct H; try (now elim L).
  - now apply starts_drive.
  - destruct C as [C|C]; [contradiction|]. cbn [app]. replace ((a ++ j :: b ++ t) ++ x) with (a ++ j :: b ++ t ++ x) by (rewrite <- app_assoc; cbn; now rewrite <- app_assoc).
    apply starts_share; auto.
  - destruct C as [C|C]; [contradiction|]. cbn [app]. rewrite <- app_assoc. apply starts_device; auto.
Qed.
(** No volume appears, unless there are two separators in front. *)
Lemma none_starts p : (forall s t, ~ starts p s t) <->
  (forall c t, p = c :: ":"%char :: t -> ~ is_letter c)
  /\ (forall k k' t, p = k :: k' :: t -> separates k -> separates k' -> forall s u, ~ starts p s u).
Proof.
  split.
  - intros N. split; [|auto]. intros c t -> L. exact (N _ _ (starts_drive c t L)).
  - intros [D N] s t H. assert (G : (exists c u, p = c :: ":"%char :: u /\ is_letter c) \/ exists k k' u, p = k :: k' :: u /\ separates k /\ separates k').
    { assert (Bk : separates back) by now left. destruct H; [left; eauto|right..]; eauto 6.
      - exists back, back, ("?"%char :: back :: c :: ":"%char :: t). auto.
      - exists back, back, ("?"%char :: back :: "U"%char :: "N"%char :: "C"%char :: j :: a ++ back :: b ++ t). auto.
      - exists back, back, ("?"%char :: back :: "U"%char :: "N"%char :: "C"%char :: j :: a ++ t). auto.
      - exists back, back, ("?"%char :: back :: n ++ t). auto. }
    destruct G as [(c & u & E & L)|(k & k' & u & E & K & K')]; [exact (D c u E L)|exact (N k k' u E K K' s t H)].
Qed.
Lemma not_two p : (forall c t, p = c :: ":"%char :: t -> ~ is_letter c) -> ~ (exists k k' t, separates k /\ separates k' /\ p = k :: k' :: t) ->
  forall s t, ~ starts p s t.
Proof. intros D N. apply none_starts. split; [exact D|]. intros k k' t E K K'. exfalso. apply N. eauto 6. Qed.
Lemma after_pieces q : after (first_dot q ++ pieces q) = pieces q.
Proof.
  assert (A : after (pieces q) = pieces q).
  { unfold after, pieces. destruct (filter counts (cut q)) as [|w l] eqn:E; [reflexivity|]. assert (I : In w (filter counts (cut q))) by (rewrite E; now left).
    apply filter_In in I as [_ ->]. reflexivity. }
  unfold first_dot. destruct (cut q) as [|w l] eqn:E; [exact A|]. destruct (counts w) eqn:C; [exact A|]. destruct w as [|a w]; [exact A|].
  cbn [app after]. now rewrite C.
Qed.
Lemma join_volume base q s r ws : reads q (Some s) r ws -> std_join windows base q = q.
Proof.
  intros H. unfold std_join. rewrite (reads_prefix _ _ _ _ H). cbn [option_map is_some]. now rewrite orb_true_r.
Qed.
Lemma none_plain p r ws : reads p None r ws -> os_prefix windows p = None /\ std_is_absolute windows p = false /\ std_has_root windows p = r.
Proof.
  intros H. assert (P := reads_prefix _ _ _ _ H). assert (R := reads_root_of _ _ _ _ H). cbn in P, R. split; [exact P|]. split; [|exact R].
  destruct (std_is_absolute windows p) eqn:A; [|reflexivity]. apply (reads_absolute _ _ _ _ H) in A as (s & [=] & _).
Qed.
Lemma reads_start p s r ws : reads p (Some s) r ws -> exists t, starts p s t.
Proof. intros H. inversion H; subst; eauto. Qed.
(** From the root of the volume. *)
Lemma join_root base s r ws q wq : reads base (Some s) r ws -> ~ long s -> reads q None true wq ->
  reads (std_join windows base q) (Some s) true wq.
Proof.
  intros H L Q. destruct (none_plain _ _ _ Q) as (Pq & Aq & Rq). destruct (reads_start _ _ _ _ H) as (t & S).
  unfold std_join. rewrite Pq, Aq, Rq, (verbatim_of _ _ _ S). cbn [is_some orb].
  assert (V : px_verbatim (px_of s) = false) by (destruct (px_verbatim (px_of s)) eqn:E; [now apply px_long in E|reflexivity]). rewrite V. cbn [andb].
  assert (F : firstn (prefix_remaining (comps_of windows base)) base = pre_text windows base) by reflexivity. rewrite F.
  destruct (starts_of _ _ _ S) as [Px T].
  assert (S0 : forall x, leads x -> starts (pre_text windows base ++ x) s x).
  { intros x X. assert (G : starts (pre_text windows base) s []).
    { assert (Bt := of_text base t T). revert Bt. generalize (pre_text windows base). clear - S L. intros y E.
      destruct S as [c t Lc|k k' a j b t K K' J Na Nb Ca Cb En Nd Nq|k k' j n t K K' J Cn En| | | |]; try (now elim L).
      - assert (y = [c; ":"%char]) as -> by (apply (app_inv_tail t); now rewrite <- E). now apply starts_drive.
      - assert (y = k :: k' :: a ++ j :: b ++ []) as ->. { apply (app_inv_tail t). rewrite <- E. cbn [app]. rewrite app_nil_r, <- app_assoc. reflexivity. }
        apply starts_share; auto. now left.
      - assert (y = k :: k' :: "."%char :: j :: n ++ []) as ->. { apply (app_inv_tail t). rewrite <- E. cbn [app]. now rewrite app_nil_r. }
        apply starts_device; auto. now left. }
    apply (starts_more _ _ _ x G L). auto. }
  inversion Q as [| | | | | |? N Lq]; subst. specialize (S0 q Lq). destruct (px_drive (px_of s)) eqn:D.
  - apply px_is_drive in D. destruct s; try contradiction. now apply reads_root.
  - apply reads_share; auto. rewrite <- px_is_drive. congruence.
Qed.
(** Behind the path. *)
Lemma join_plain base v r ws q wq : reads base v r ws -> (forall s, v = Some s -> ~ long s) -> solid base v -> reads q None false wq ->
  reads (std_join windows base q) v r (match base with [] => wq | _ => ws ++ after wq end).
Proof.
  intros H L So Q. destruct (none_plain _ _ _ Q) as (Pq & Aq & Rq). inversion Q as [| | | | |? Nq Lq|]; subst. rewrite after_pieces.
  unfold std_join. rewrite Pq, Aq, Rq. cbn [is_some orb]. destruct v as [s|].
  - specialize (L s eq_refl). destruct (reads_start _ _ _ _ H) as (t & S). rewrite (verbatim_of _ _ _ S).
    assert (V : px_verbatim (px_of s) = false) by (destruct (px_verbatim (px_of s)) eqn:E; [now apply px_long in E|reflexivity]). rewrite V. cbn [andb].
    change (cs_prefix (comps_of windows base)) with (os_prefix windows base). rewrite (reads_prefix _ _ _ _ H). cbn [option_map]. rewrite px_len_pos. cbn [andb].
    destruct (starts_of _ _ _ S) as [Px T].
    assert (Bt := of_text base t T). assert (Lb : px_len (px_of s) = length (pre_text windows base)).
    { rewrite (pre_len windows windows_sane). unfold prefix_len. cbn [cs_prefix comps_of]. now rewrite Px. }
    assert (Nb : base <> []) by (intros ->; apply starts_iff in S as [S _]; discriminate S).
    assert (Mb : match base with [] => first_dot q ++ pieces q | _ => ws ++ pieces q end = ws ++ pieces q) by now destruct base. rewrite Mb. clear Mb.
    assert (Fin : forall t', starts (std_join windows base q) s t' -> pieces t' = pieces t ++ pieces q -> (drive s -> leads t' <-> leads t) ->
      reads (std_join windows base q) (Some s) r (ws ++ pieces q)).
    { intros t' S' E Dr. inversion H as [? c ? S1 L1|? c ? S1 L1|? ? ? S1 D1 L1|? ? S1 L1|? ? ? ? S1 L1| |]; subst; try contradiction;
      apply starts_iff in S1 as [_ S1]; apply starts_iff in S as [_ S]; rewrite <- S in S1; subst; rewrite <- E.
      - apply reads_drive; [exact S'|]. now rewrite (Dr I).
      - apply reads_root; [exact S'|]. now rewrite (Dr I).
      - now apply reads_share. }
    unfold std_join in Fin. rewrite Pq, Aq, Rq, (verbatim_of _ _ _ S), V in Fin. cbn [is_some orb andb] in Fin.
    change (cs_prefix (comps_of windows base)) with (os_prefix windows base) in Fin. rewrite (reads_prefix _ _ _ _ H) in Fin. cbn [option_map] in Fin. rewrite px_len_pos in Fin. cbn [andb] in Fin.
    destruct (Nat.eqb (px_len (px_of s)) (length base) && px_drive (px_of s))%bool eqn:C.
    + apply andb_true_iff in C as [C D]. apply Nat.eqb_eq in C. apply px_is_drive in D.
      assert (t = []) as ->. { rewrite Lb in C. rewrite Bt in C at 2. rewrite app_length in C. destruct t; [reflexivity|cbn in C; lia]. }
      apply (Fin q).
      * change q with ([] ++ q) at 2. apply starts_more; auto.
      * reflexivity.
      * intros _. split; [intros X; contradiction|]. intros (? & ? & [=] & _).
    + destruct (last_is_sep windows base) eqn:Ls; cbn [negb] in *.
      * apply last_sep in Ls as [Ls|(u & k & Eu & K)]; [contradiction|].
        assert (Et : exists t0, t = t0 ++ [k]).
        { destruct (exists_last (l := t)) as (t0 & k0 & E0).
          - intros ->. rewrite app_nil_r in Bt. clear - S L So Eu K Bt C Lb. destruct S as [c t Lc|k1 k2 a j b t K1 K2 J Na Nb Ca Cb En Nd Nq|k1 k2 j n t K1 K2 J Cn En| | | |]; try (now elim L).
            + assert (t = []) as -> by (apply (f_equal (@length _)) in Bt; rewrite <- Lb in Bt; cbn in Bt; destruct t; [reflexivity|cbn in Bt; lia]).
              change ([c; ":"%char]) with ([c] ++ [":"%char]) in Eu. apply app_inj_tail in Eu as [_ <-]. destruct K as [K|K]; discriminate K.
            + assert (t = []) as ->. { apply (f_equal (@length _)) in Bt. rewrite <- Lb in Bt. cbn [px_of px_len length] in Bt. rewrite (share_text_len b Nb) in Bt. rewrite app_length in Bt. cbn [length] in Bt. rewrite app_length in Bt. destruct t; [reflexivity|cbn [length] in Bt; lia]. }
              rewrite app_nil_r in Eu. destruct (exists_last (l := b) Nb) as (b0 & k0 & ->). replace (k1 :: k2 :: a ++ j :: b0 ++ [k0]) with ((k1 :: k2 :: a ++ j :: b0) ++ [k0]) in Eu by (cbn; now rewrite <- app_assoc).
              apply app_inj_tail in Eu as [_ ->]. apply (Cb k); [apply in_app_iff; right; now left|exact K].
            + assert (t = []) as ->. { apply (f_equal (@length _)) in Bt. rewrite <- Lb in Bt. cbn [px_of px_len length] in Bt. rewrite app_length in Bt. destruct t; [reflexivity|cbn [length] in Bt; lia]. }
              rewrite app_nil_r in Eu. destruct n as [|n0 n]; [now destruct So|]. destruct (exists_last (l := n0 :: n)) as (n1 & k0 & E0); [easy|]. rewrite E0 in *.
              replace (k1 :: k2 :: "."%char :: j :: n1 ++ [k0]) with ((k1 :: k2 :: "."%char :: j :: n1) ++ [k0]) in Eu by reflexivity.
              apply app_inj_tail in Eu as [_ ->]. apply (Cn k); [apply in_app_iff; right; now left|exact K].
          - exists t0. rewrite E0. rewrite Bt, E0, app_assoc in Eu. apply app_inj_tail in Eu as [_ ->]. reflexivity. }
        destruct Et as (t0 & ->). apply (Fin ((t0 ++ [k]) ++ q)).
        -- apply starts_more; auto. right. left. now destruct t0.
        -- rewrite <- app_assoc. cbn [app]. rewrite !pieces_app by exact K. now rewrite pieces_nil, app_nil_r.
        -- intros _. unfold leads. destruct t0 as [|k0 t0]; cbn [app]; split; intros (k' & u' & [= <- <-] & K'); eauto.
      * change (os_main windows) with back in *. apply (Fin (t ++ back :: q)).
        -- apply starts_more; auto. right. right. exists back, q. split; [reflexivity|now left].
        -- apply pieces_app. now left.
        -- intros D. unfold leads. destruct t as [|k0 t0]; cbn [app].
           ++ exfalso. rewrite app_nil_r in Bt. rewrite Lb, <- Bt, Nat.eqb_refl in C. apply px_is_drive in D. rewrite D in C. discriminate C.
           ++ split; intros (k' & u' & [= <- <-] & K'); eauto.
  - assert (V : prefix_verbatim (comps_of windows base) = false) by (rewrite (of_verbatim base None (reads_prefix _ _ _ _ H)); reflexivity). rewrite V. cbn [andb].
    change (cs_prefix (comps_of windows base)) with (os_prefix windows base). rewrite (reads_prefix _ _ _ _ H). cbn [option_map].
    destruct base as [|b0 base].
    { cbn. inversion H as [| | | | |? ? ? |? ? L1]; subst; [exact Q|]. destruct L1 as (? & ? & [=] & _). }
    assert (Bd : forall c t, b0 :: base = c :: ":"%char :: t -> ~ is_letter c) by (inversion H as [| | | | |? N _|? N _]; subst; now apply none_starts in N).
    cbn [solid] in So.
    assert (Fin : forall x, (base = [] -> is_letter b0 -> forall k t, x = k :: t -> k <> ":"%char) -> (base = [] -> separates b0 -> forall k t, x = k :: t -> ~ separates k) ->
       pieces ((b0 :: base) ++ x) = pieces (b0 :: base) ++ pieces q -> first_dot ((b0 :: base) ++ x) = first_dot (b0 :: base) ->
       reads ((b0 :: base) ++ x) None r (ws ++ pieces q)).
    { intros x C1 C2 E1 E2. assert (N : forall s t, ~ starts ((b0 :: base) ++ x) s t).
      { apply not_two.
        - intros c t E Lc. cbn [app] in E. injection E as -> E. destruct base as [|b1 base]; cbn [app] in E.
          + destruct x as [|k x]; [discriminate E|]. injection E as -> _. now elim (C1 eq_refl Lc _ _ eq_refl).
          + injection E as -> _. now apply (Bd c base).
        - intros (k & k' & t & K & K' & E). cbn [app] in E. injection E as -> E. destruct base as [|b1 base]; cbn [app] in E.
          + subst x. now apply (C2 eq_refl K k' t).
          + injection E as -> _. apply So. exists k, k', base. auto. }
      assert (Ld : leads ((b0 :: base) ++ x) <-> leads (b0 :: base)).
      { unfold leads. cbn [app]. split; intros (k & t & [= <- <-] & K); eauto. }
      inversion H as [| | | | |? N' L1|? N' L1]; subst.
      - rewrite <- app_assoc, <- E1, <- E2. apply reads_here; [exact N|]. now rewrite Ld.
      - rewrite <- E1. apply reads_top; [exact N|]. now rewrite Ld. }
    assert (Cb : cut (b0 :: base) <> []) by (intros X; cbn in X; destruct (_ || _)%bool; [discriminate X|]; now destruct (cut base)).
    destruct (last_is_sep windows (b0 :: base)) eqn:Ls; cbn [negb].
    + apply last_sep in Ls as [Ls|(u & k & Eu & K)]; [discriminate Ls|]. apply Fin.
      * intros -> Lb. exfalso. destruct u as [|u0 [|u1 u]]; try discriminate Eu. injection Eu as ->. apply letter_plain in Lb as [Lb _].
        apply sep_separates in K. congruence.
      * intros -> Kb k' t -> K'. apply Lq. exists k', t. auto.
      * rewrite Eu, <- app_assoc. cbn [app]. rewrite !pieces_app by exact K. now rewrite pieces_nil, app_nil_r.
      * rewrite Eu, <- app_assoc. cbn [app]. unfold first_dot. rewrite !cut_app by exact K. destruct (cut u) eqn:X; [|reflexivity].
        destruct u as [|u0 u]; [discriminate X|]. cbn in X. destruct (_ || _)%bool; [discriminate X|]. now destruct (cut u).
    + change (os_main windows) with back. apply Fin.
      * intros _ _ k t [= <- <-] X. discriminate X.
      * intros -> Kb k t [= <- <-] _. apply sep_separates in Kb. unfold last_is_sep in Ls. cbn in Ls. change (os_sep windows b0) with (win_sep b0) in Ls. congruence.
      * apply pieces_app. now left.
      * unfold first_dot. rewrite cut_app by now left. destruct (cut (b0 :: base)); [easy|reflexivity].
Qed.

(** Onto the long form. *)
Lemma push_word buf w : push_part buf (any_part w) =
  if str_eqb w (B ".") then buf else if str_eqb w (B "..") then match rev buf with Name _ :: r => rev r | _ => buf end else buf ++ [Name w].
Proof. unfold any_part, piece_part. destruct (str_eqb w (B ".")); [reflexivity|]. now destruct (str_eqb w (B "..")). Qed.
Lemma dots_cases w : (w = B "." \/ w = B ".." \/ str_eqb w (B ".") = false /\ str_eqb w (B "..") = false).
Proof.
  destruct (str_eqb w (B ".")) eqn:E; [apply str_eqb_eq in E; auto|]. destruct (str_eqb w (B "..")) eqn:E'; [apply str_eqb_eq in E'; auto|]. auto.
Qed.
Lemma onto_step ws w q : onto ws (w :: q) = onto (if str_eqb w (B ".") then ws else if str_eqb w (B "..") then one_up ws else ws ++ [w]) q.
Proof.
  destruct w as [|a [|b [|c w]]]; try reflexivity.
  - destruct a as [[] [] [] [] [] [] [] []]; reflexivity.
  - destruct a as [[] [] [] [] [] [] [] []]; try reflexivity; destruct b as [[] [] [] [] [] [] [] []]; reflexivity.
  - assert (str_eqb (a :: b :: c :: w) (B ".") = false) as -> by (cbn; apply andb_false_r).
    assert (str_eqb (a :: b :: c :: w) (B "..") = false) as -> by (cbn; now rewrite !andb_false_r).
    destruct a as [[] [] [] [] [] [] [] []]; try reflexivity; destruct b as [[] [] [] [] [] [] [] []]; reflexivity.
Qed.
Lemma is_dots_iff w : is_dots w = (str_eqb w (B ".") || str_eqb w (B ".."))%bool.
Proof.
  destruct w as [|a [|b [|c w]]]; try reflexivity.
  - destruct a as [[] [] [] [] [] [] [] []]; reflexivity.
  - destruct a as [[] [] [] [] [] [] [] []]; try reflexivity; destruct b as [[] [] [] [] [] [] [] []]; reflexivity.
  - assert (str_eqb (a :: b :: c :: w) (B ".") = false) as -> by (cbn; apply andb_false_r).
    assert (str_eqb (a :: b :: c :: w) (B "..") = false) as -> by (cbn; now rewrite !andb_false_r).
    destruct a as [[] [] [] [] [] [] [] []]; try reflexivity; destruct b as [[] [] [] [] [] [] [] []]; reflexivity.
Qed.
Definition firm (head : list part) : Prop := match rev head with Name _ :: _ => False | _ => True end.
Lemma push_onto head wq : firm head -> forall ws, fold_left push_part (map any_part wq) (head ++ map any_part ws) = head ++ map any_part (onto ws wq).
Proof.
  intros F. induction wq as [|w wq IH]; intros ws; [reflexivity|]. cbn [map fold_left]. rewrite push_word, onto_step.
  destruct (str_eqb w (B ".")) eqn:E; [apply IH|]. destruct (str_eqb w (B "..")) eqn:E'.
  - assert (U : match rev (head ++ map any_part ws) with Name _ :: r => rev r | _ => head ++ map any_part ws end = head ++ map any_part (one_up ws)).
    { destruct ws as [|x l _] using rev_ind.
      - cbn. rewrite app_nil_r. unfold firm in F. destruct (rev head) as [|[] ?]; try reflexivity. contradiction.
      - assert (O : one_up (l ++ [x]) = if is_dots x then l ++ [x] else l) by (unfold one_up; rewrite rev_app_distr; cbn [rev app]; now rewrite rev_involutive).
        rewrite O, is_dots_iff, map_app, app_assoc, rev_app_distr. cbn [map rev app].
        unfold any_part at 1, piece_part. destruct (str_eqb x (B ".")) eqn:D; cbn [orb]; [now rewrite map_app, app_assoc|].
        destruct (str_eqb x (B "..")) eqn:D'; [now rewrite map_app, app_assoc|]. now rewrite rev_involutive. }
    rewrite U. apply IH.
  - assert (any_part w = Name w) as Ew by (unfold any_part, piece_part; now rewrite E, E'). rewrite <- Ew.
    rewrite <- app_assoc. change [any_part w] with (map any_part [w]). rewrite <- map_app. apply IH.
Qed.

Lemma raw_parts p v r ws : reads p v r ws ->
  parts windows p = match v with Some s => [Pre (pre_text windows p) (px_of s)] | None => [] end ++ (if r then [Root] else []) ++ map any_part ws.
Proof.
  intros H. assert (B := reads_parts _ _ _ _ H). assert (P := reads_prefix _ _ _ _ H).
  destruct (dissect windows windows_sane p) as (st & w & l & E & So & Bo & Nw & Sr & _).
  rewrite (parts_front windows windows_sane p st w l) in * by auto. unfold pre_parts_raw in *. cbn [cs_prefix comps_of] in *. rewrite P in *.
  assert (Bs : map bare (start_parts (comps_of windows p) st) = start_parts (comps_of windows p) st).
  { unfold start_parts. destruct st; try reflexivity; [destruct (prefix_verbatim _)|destruct (cs_prefix _)]; reflexivity. }
  rewrite !map_app, Bs, bare_singles in B. unfold all_parts in B. destruct v as [s|]; cbn [option_map app map bare] in *.
  - apply (f_equal (@tl _)) in B. cbn [tl] in B. now rewrite B.
  - exact B.
Qed.
Lemma part_word w : part_text windows (any_part w) = w /\ is_root_part (any_part w) = false.
Proof.
  unfold any_part, piece_part. destruct (str_eqb w (B ".")) eqn:E; [apply str_eqb_eq in E; now subst|].
  destruct (str_eqb w (B "..")) eqn:E'; [apply str_eqb_eq in E'; now subst|]. auto.
Qed.
Lemma write_words nd l : write_parts windows nd (map any_part l)
  = (match l with [] => [] | _ => if nd then [back] else [] end) ++ intercalate back l.
Proof.
  revert nd. induction l as [|w l IH]; intros nd; [reflexivity|]. cbn [map write_parts]. destruct (part_word w) as [-> ->]. cbn [negb]. rewrite andb_true_r.
  assert (Nd : match any_part w with Root => false | Pre _ x => (negb (px_drive x) && Nat.ltb 0 (px_len x))%bool | _ => true end = true).
  { assert (M := any_part_movable w). destruct (any_part w); try contradiction; reflexivity. }
  rewrite Nd, IH. destruct l as [|x l].
  - cbn. rewrite !app_nil_r. destruct nd; reflexivity.
  - change (intercalate back (w :: x :: l)) with (w ++ back :: intercalate back (x :: l)). destruct nd; reflexivity.
Qed.
Definition word (w : str) : Prop := w <> [] /\ clear_of backward w.
Lemma long_words l : Forall word l -> long_pieces (intercalate back l) = l.
Proof.
  intros F. rewrite intercalate_body. unfold long_pieces.
  assert (N : nosep is_backslash (first_of l)) by (destruct F as [|w l [_ C] F]; [constructor|now apply clear_back]).
  assert (S : seps is_backslash (rest_of l)).
  { unfold rest_of. destruct F as [|x l X F]; [constructor|]. cbn [tl]. apply Forall_forall. intros t I. apply in_map_iff in I as (n & <- & I).
    split; [reflexivity|]. apply clear_back. now apply (proj1 (Forall_forall _ _) F n). }
  rewrite cut_back_body, names_rest by auto. destruct F as [|w l W F]; [reflexivity|]. change (first_of (w :: l) :: tl (w :: l)) with (w :: l).
  assert (G : Forall word (w :: l)) by now constructor. clear - G. induction G as [|x m [X _] G IH]; [reflexivity|]. cbn [filter].
  destruct x; [easy|]. now rewrite IH.
Qed.
Lemma cut_back_clear s : Forall (clear_of backward) (cut_back s).
Proof.
  induction s as [|c s IH]; cbn [cut_back]; [repeat constructor; intros k []|]. destruct (Ascii.eqb c back) eqn:E; [constructor; [intros k []|exact IH]|].
  assert (Nc : ~ backward c) by (intros ->; discriminate E).
  destruct IH as [|w l W F]; constructor; auto; intros k [<-|I] K; try contradiction.
  now apply (W k).
Qed.
Lemma cut_clear s : Forall (clear_of separates) (cut s).
Proof.
  induction s as [|c s IH]; cbn [cut]; [repeat constructor; intros k []|]. destruct (Ascii.eqb c "\" || Ascii.eqb c "/")%bool eqn:E; [constructor; [intros k []|exact IH]|].
  assert (Nc : ~ separates c). { intros [-> | ->]; discriminate E. }
  destruct IH as [|w l W F]; constructor; auto; intros k [<-|I] K; try contradiction.
  now apply (W k).
Qed.
Lemma long_pieces_words s : Forall word (long_pieces s).
Proof.
  apply Forall_forall. intros w I. apply filter_In in I as [I N]. split; [now destruct w|]. exact (proj1 (Forall_forall _ _) (cut_back_clear s) w I).
Qed.
Lemma clear_both w : clear_of separates w -> clear_of backward w.
Proof. intros C k I ->. apply (C back I). now left. Qed.
Lemma pieces_words s : Forall word (pieces s).
Proof.
  apply Forall_forall. intros w I. apply filter_In in I as [I N]. split; [now destruct w|]. apply clear_both. exact (proj1 (Forall_forall _ _) (cut_clear s) w I).
Qed.
Lemma first_words s : Forall word (first_dot s).
Proof.
  unfold first_dot. assert (C := cut_clear s). destruct (cut s) as [|w l]; [constructor|]. inversion_clear C as [|? ? W _]. destruct (counts w); [constructor|].
  destruct w as [|a w]; [constructor|]. constructor; [|constructor]. split; [easy|now apply clear_both].
Qed.
Lemma reads_words p v r ws : reads p v r ws -> Forall word ws.
Proof. intros H. destruct H; auto using pieces_words, long_pieces_words. apply Forall_app. split; auto using first_words, pieces_words. Qed.
Lemma onto_words q : forall ws, Forall word ws -> Forall word q -> Forall word (onto ws q).
Proof.
  induction q as [|w q IH]; intros ws F G; [exact F|]. rewrite onto_step. inversion_clear G as [|? ? W G']. apply IH; [|exact G'].
  destruct (str_eqb w (B ".")); [exact F|]. destruct (str_eqb w (B "..")).
  - unfold one_up. destruct (rev ws) as [|x l] eqn:E; [constructor|]. destruct (is_dots x); [exact F|]. apply Forall_rev. apply Forall_rev in F. rewrite E in F. now inversion F.
  - apply Forall_app. auto.
Qed.
(** The long form with other words. *)
Lemma long_more base s t x : starts base s t -> long s -> solid base (Some s) -> starts (pre_text windows base ++ back :: x) s (back :: x).
Proof.
  intros S L (_ & Nu & Ns). destruct (starts_of _ _ _ S) as [_ T]. assert (E := of_text base t T). revert E. generalize (pre_text windows base). intros y E. clear T.
  assert (Eb : ended backward (back :: x)) by (right; exists back, x; now split).
  assert (Es : ended separates (back :: x)) by (right; exists back, x; split; [reflexivity|now left]).
  destruct S as [| | |c t Lc En|j a b t J Ca Cb Nb En|j a t J Ca En|n t Cn En Nn Nd]; try contradiction.
  - assert (y = B "\\?\" ++ [c; ":"%char]) as -> by (apply (app_inv_tail t); now rewrite <- E). rewrite <- app_assoc. now apply starts_long_drive.
  - assert (y = B "\\?\UNC" ++ j :: a ++ back :: b) as ->. { apply (app_inv_tail t). rewrite <- E, <- app_assoc. cbn [app]. now rewrite <- app_assoc. }
    rewrite <- app_assoc. cbn [app]. rewrite <- app_assoc. cbn [app]. now apply starts_long_share.
  - now elim (Ns a).
  - assert (y = B "\\?\" ++ n) as -> by (apply (app_inv_tail t); now rewrite <- E, <- app_assoc). rewrite <- app_assoc. apply starts_long_name; auto.
    + intros (j & u & J & X). change (B "UNC") with ["U"%char; "N"%char; "C"%char] in X. destruct n as [|n0 [|n1 [|n2 n]]]; cbn [app] in X; try discriminate X.
      destruct n as [|n3 n]; cbn [app] in X.
      * injection X as -> -> -> _. now apply Nu.
      * injection X as -> -> -> -> X. apply Nn. exists j, (n ++ t). auto.
    + intros (c & u & Lc & U & X). destruct n as [|n0 [|n1 n]]; cbn [app] in X.
      * injection X as <- _. apply letter_plain in Lc as [Lc _]. discriminate Lc.
      * injection X as _ X _. discriminate X.
      * injection X as -> -> X. apply Nd. exists c, (n ++ t). split; [exact Lc|]. split; [|reflexivity].
        destruct n as [|n2 n]; cbn [app] in *.
        -- destruct En as [->|(k & u' & -> & ->)]; [now left|]. right. exists back, u'. split; [reflexivity|now left].
        -- subst u. destruct U as [U|(k & u' & [= -> _] & K)]; [discriminate U|]. right. exists k, (n ++ t). auto.
Qed.
Lemma long_nothing base s t : starts base s t -> long s -> solid base (Some s) -> starts (pre_text windows base) s [].
Proof.
  intros S L (_ & Nu & Ns). destruct (starts_of _ _ _ S) as [_ T]. assert (E := of_text base t T). revert E. generalize (pre_text windows base). intros y E. clear T.
  assert (Eb : ended backward []) by now left. assert (Es : ended separates []) by now left.
  destruct S as [| | |c t Lc En|j a b t J Ca Cb Nb En|j a t J Ca En|n t Cn En Nn Nd]; try contradiction.
  - assert (y = B "\\?\" ++ [c; ":"%char]) as -> by (apply (app_inv_tail t); now rewrite <- E). now apply starts_long_drive.
  - assert (y = B "\\?\UNC" ++ j :: a ++ back :: b ++ []) as ->. { apply (app_inv_tail t). rewrite <- E, <- app_assoc, app_nil_r. cbn [app]. now rewrite <- app_assoc. }
    now apply starts_long_share.
  - now elim (Ns a).
  - assert (y = B "\\?\" ++ n ++ []) as -> by (apply (app_inv_tail t); now rewrite <- E, <- app_assoc, app_nil_r). apply starts_long_name; auto; rewrite app_nil_r.
    + intros (j & u & J & ->). apply Nn. exists j, (u ++ t). now rewrite <- app_assoc.
    + intros (c & u & Lc & U & ->). apply Nd. exists c, (u ++ t). split; [exact Lc|]. split; [|reflexivity].
      destruct U as [->|(k & u' & -> & K)].
      * destruct En as [->|(k & u' & -> & ->)]; [now left|]. right. exists back, u'. split; [reflexivity|now left].
      * right. exists k, (u' ++ t). auto.
Qed.
Definition nonempty {A} (l : list A) : bool := match l with [] => false | _ => true end.
Lemma join_long_text base s r ws q rq wq : reads base (Some s) r ws -> long s -> reads q None rq wq -> q <> [] ->
  std_join windows base q = pre_text windows base
    ++ if (r || rq || nonempty (onto (if rq then [] else ws) wq))%bool then back :: intercalate back (onto (if rq then [] else ws) wq) else [].
Proof.
  intros H L Q Nq. destruct (none_plain _ _ _ Q) as (Pq & Aq & Rq). destruct (reads_start _ _ _ _ H) as (t & S).
  unfold std_join. rewrite Pq, Aq. cbn [is_some orb]. rewrite (verbatim_of _ _ _ S). assert (V := proj2 (px_long s) L). rewrite V.
  assert (is_empty q = false) as -> by now destruct q. cbn [negb andb]. rewrite (raw_parts _ _ _ _ H), (raw_parts _ _ _ _ Q). cbn [app].
  set (pre := Pre (pre_text windows base) (px_of s)).
  assert (F : fold_left push_part ((if rq then [Root] else []) ++ map any_part wq) (pre :: (if r then [Root] else []) ++ map any_part ws)
    = (pre :: if (r || rq)%bool then [Root] else []) ++ map any_part (onto (if rq then [] else ws) wq)).
  { destruct rq.
    - cbn [app fold_left push_part firstn]. rewrite orb_true_r. change [pre; Root] with ([pre; Root] ++ map any_part []). now apply push_onto.
    - cbn [app]. rewrite orb_false_r. rewrite app_comm_cons. apply push_onto. now destruct r. }
  rewrite F. set (ws' := onto (if rq then [] else ws) wq).
  assert (D : px_drive (px_of s) = false) by now destruct s.
  cbn [app write_parts pre andb part_text]. rewrite D, px_len_pos. cbn [negb andb]. f_equal. destruct (r || rq)%bool; cbn [app write_parts orb is_root_part negb andb part_text].
  - change (os_main windows) with back. f_equal. rewrite write_words. now destruct ws'.
  - rewrite write_words. now destruct ws'.
Qed.
Lemma join_long_form base s r ws q rq wq : reads base (Some s) r ws -> long s -> solid base (Some s) -> reads q None rq wq -> q <> [] ->
  reads (std_join windows base q) (Some s) (r || rq || nonempty (onto (if rq then [] else ws) wq))%bool (onto (if rq then [] else ws) wq).
Proof.
  intros H L So Q Nq. destruct (reads_start _ _ _ _ H) as (t & S). rewrite (join_long_text _ _ _ _ _ _ _ H L Q Nq).
  set (ws' := onto (if rq then [] else ws) wq).
  assert (W : Forall word ws'). { apply onto_words; [destruct rq; [constructor|exact (reads_words _ _ _ _ H)]|exact (reads_words _ _ _ _ Q)]. }
  destruct (r || rq || nonempty ws')%bool eqn:E.
  - rewrite <- (long_words ws' W) at 2. apply (reads_long_root _ s back); [|exact L]. now apply (long_more base s t).
  - rewrite app_nil_r. apply orb_false_iff in E as [_ E]. destruct ws'; [|discriminate E]. apply reads_long; [|exact L]. now apply (long_nothing base s t).
Qed.

(** ** The last word *)
Lemma reads_file_name p v r ws : reads p v r ws ->
  forall n, std_file_name windows p = Some n <-> (exists l, ws = l ++ [n]) /\ is_dots n = false.
Proof.
  intros H n. assert (Hp := reads_parts _ _ _ _ H). assert (La := last_part windows windows_steady p). rewrite Hp in La. split.
  - unfold std_file_name. destruct (next_back windows (comps_of windows p)) as [[[| | | |w]|] c]; try discriminate. intros [= ->]. cbn in La.
    destruct ws as [|x l _] using rev_ind.
    + exfalso. unfold all_parts in La. cbn [map] in La. rewrite app_nil_r in La. destruct v, r; discriminate La.
    + rewrite all_parts_snoc, rev_app_distr in La. cbn in La. injection La as La. rewrite is_dots_iff. unfold any_part, piece_part in La.
      destruct (str_eqb x (B ".")) eqn:E; [discriminate La|]. destruct (str_eqb x (B "..")) eqn:E'; [discriminate La|]. injection La as <-.
      rewrite E, E'. eauto.
  - intros [(l & ->) D]. rewrite is_dots_iff in D. apply orb_false_iff in D as [D D']. apply (named_last p (all_parts v r l)). rewrite Hp, all_parts_snoc.
    f_equal. unfold any_part, piece_part. now rewrite D, D'.
Qed.

(** ** Walking *)
Lemma counts_name n : win_name n -> counts n = true.
Proof.
  intros (W0 & W1 & _). rewrite counts_idle. unfold idle, sing. destruct n as [|a n]; [easy|]. cbn [is_empty].
  destruct (str_eqb (a :: n) (B ".")) eqn:E; [apply str_eqb_eq in E; contradiction|]. now destruct (str_eqb (a :: n) (B "..")).
Qed.
Lemma reads_name n : win_name n -> reads n None false [n].
Proof.
  intros W. assert (R := name_relative n W). assert (P := plain_no_prefix n R). assert (N := name_nosep n W).
  assert (C : cut n = [n]). { assert (E : n = body n []) by (unfold body; cbn; now rewrite app_nil_r). rewrite E at 1. rewrite cut_body; [reflexivity|exact N|constructor]. }
  assert (K := counts_name n W).
  assert (E : [n] = first_dot n ++ pieces n). { unfold first_dot, pieces. rewrite C. cbn [filter]. now rewrite K. }
  rewrite E. apply reads_here; [exact (proj2 (no_start n) P)|]. intros (k & u & -> & Ks). destruct R as (_ & R & _). now apply (R k u).
Qed.
Lemma join_word d v r ws n : reads d v r ws -> solid d v -> win_name n -> reads (std_join windows d n) v (entered v r) (ws ++ [n]).
Proof.
  intros H So W. assert (Q := reads_name n W). assert (D : str_eqb n (B ".") = false /\ str_eqb n (B "..") = false).
  { destruct W as (_ & W1 & W2 & _). split; [destruct (str_eqb n (B ".")) eqn:E|destruct (str_eqb n (B "..")) eqn:E]; try reflexivity; apply str_eqb_eq in E; contradiction. }
  assert (L : (exists s, v = Some s /\ long s) \/ forall s, v = Some s -> ~ long s).
  { destruct v as [s|]; [|right; discriminate]. destruct (px_verbatim (px_of s)) eqn:E.
    - left. exists s. split; [reflexivity|]. now apply px_long.
    - right. intros s' [= <-] X. apply px_long in X. congruence. }
  destruct L as [(s & -> & L)|L].
  - assert (J := join_long_form d s r ws n false [n] H L So Q ltac:(now destruct W)). rewrite onto_step in J. cbn [onto] in J. destruct D as [D1 D2]. rewrite D1, D2 in J.
    assert (nonempty (ws ++ [n]) = true) as X by (now destruct ws). rewrite X, orb_true_r in J. destruct s; try contradiction; exact J.
  - assert (J := join_plain d v r ws n [n] H L So Q). assert (A : after [n] = [n]).
    { unfold after. now rewrite (counts_name n W). }
    assert (entered v r = r) as -> by (destruct v as [[]|]; try reflexivity; now elim (L _ eq_refl)).
    rewrite A in J. destruct d as [|d0 d]; [|exact J].
    assert (ws = []) as ->; [|exact J]. inversion H as [? ? ? S1|? ? ? S1|? ? ? S1|? ? S1|? ? ? ? S1| |]; subst; try (apply starts_iff in S1 as [S1 _]; discriminate S1); reflexivity.
Qed.
Lemma solid_above p q rest v : solid p v -> p = q ++ rest -> solid q v.
Proof.
  destruct v as [s|]; cbn; [auto|]. intros N -> (k & k' & t & K & K' & ->). apply N. exists k, k', (t ++ rest). auto.
Qed.
Lemma reads_cargo_dirs cwd v r ws : reads cwd v r ws -> solid cwd v ->
  Forall2 (fun d l => reads d v (entered v r) (l ++ [B ".cargo"])) (map (cargo_in windows) (std_ancestors windows cwd)) (above ws).
Proof.
  intros H So. assert (A := reads_ancestors _ _ _ _ H). induction A as [|q l qs ls QE A IH]; [constructor|]. cbn [map]. constructor; [|exact IH]. destruct QE as [Q (rest & E)].
  apply join_word; [exact Q|exact (solid_above _ _ _ _ So E)|]. repeat split; try discriminate; intros I; vm_compute in I; intuition discriminate.
Qed.
Lemma reads_seen h vh rh wh v r ds ls : reads h vh rh wh -> Forall2 (fun d l => reads d v r (l ++ [B ".cargo"])) ds ls ->
  (existsb (std_eqb windows h) ds = true <-> vh = v /\ rh = r /\ exists k, In k ls /\ wh = k ++ [B ".cargo"]).
Proof.
  intros H F. rewrite existsb_exists. split.
  - intros (d & I & E). assert (G : exists l, In l ls /\ reads d v r (l ++ [B ".cargo"])).
    { clear E H. revert I. induction F as [|d' l ds' ls' Q F IH]; [intros []|]. intros [->|I]; [exists l; cbn; auto|]. destruct (IH I) as (l' & ? & ?). exists l'. cbn. auto. }
    destruct G as (l & Il & G). destruct (proj1 (reads_equal _ _ _ _ _ _ _ _ H G) E) as (E1 & E2 & E3). eauto.
  - intros (E1 & E2 & k & I & E3). assert (G : exists d, In d ds /\ reads d v r (k ++ [B ".cargo"])).
    { clear H. revert I. induction F as [|d' l ds' ls' Q F IH]; [intros []|]. intros [->|I]; [exists d'; cbn; auto|]. destruct (IH I) as (d & ? & ?). exists d. cbn. auto. }
    destruct G as (d & Id & G). exists d. split; [exact Id|]. apply (reads_equal _ _ _ _ _ _ _ _ H G). auto.
Qed.
