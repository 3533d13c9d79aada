(** Ordinary directories on Windows. *)
From Verif.Model Require Import Base Str Path StdPath OsPaths.
From Verif.Spec Require Import StrSpec WinSpec.
From Verif.Proof Require Import StrFacts StdPathProof StdUnixProof StdParentProof WinPrefixProof.

Lemma letter_alphabetic c : is_letter c -> alphabetic c = true.
Proof. intros H. unfold is_letter in H. vm_compute in H. repeat (destruct H as [<-|H]; [reflexivity|]). contradiction. Qed.
Lemma alphabetic_letter c : alphabetic c = true -> is_letter c.
Proof.
  unfold is_letter. destruct c as [[] [] [] [] [] [] [] []]; intros H; vm_compute in H; try discriminate H; clear H; vm_compute; tauto.
Qed.
Lemma capital_upper c : capital c = upper_byte c.
Proof. destruct c as [[] [] [] [] [] [] [] []]; reflexivity. Qed.
Lemma letter_plain c : is_letter c -> win_sep c = false /\ c <> ":"%char /\ c <> "."%char.
Proof. intros H. apply letter_alphabetic in H. repeat split; [|intros ->; discriminate H..].
  destruct (win_sep c) eqn:E; [|reflexivity]. unfold win_sep, is_slash, is_backslash in E. apply orb_true_iff in E as [E|E]; apply Ascii.eqb_eq in E; subst; discriminate H.
Qed.
Lemma sep_separates c : win_sep c = true <-> separates c.
Proof.
  unfold win_sep, is_slash, is_backslash, separates, slash, backslash. rewrite orb_true_iff, !Ascii.eqb_eq. tauto.
Qed.
Lemma not_sep c : win_sep c = false <-> ~ separates c.
Proof. rewrite <- sep_separates. destruct (win_sep c); split; congruence. Qed.
Lemma nosep_in f w : (forall c, In c w -> f c = false) -> nosep f w.
Proof. intros H. now apply Forall_forall. Qed.
Lemma name_nosep n : win_name n -> nosep win_sep n.
Proof.
  intros (_ & _ & _ & Hb & Hs & _). apply nosep_in. intros c I. apply not_sep. intros [-> | ->]; auto.
Qed.
Lemma sep_backslash c : win_sep c = false -> is_backslash c = false.
Proof. unfold win_sep. now intros [_ H]%orb_false_iff. Qed.
Lemma nosep_back w : nosep win_sep w -> nosep is_backslash w.
Proof. intros H. eapply Forall_impl; [|exact H]. intros c. apply sep_backslash. Qed.
Lemma name_sing v n : win_name n -> sing v n = Some (Name n).
Proof.
  intros (N0 & N1 & N2 & _). unfold sing. destruct n as [|a n]; [easy|]. cbn [is_empty].
  destruct (str_eqb (a :: n) (B ".")) eqn:E; [apply str_eqb_eq in E; contradiction|].
  destruct (str_eqb (a :: n) (B "..")) eqn:E'; [apply str_eqb_eq in E'; contradiction|]. reflexivity.
Qed.
Lemma name_colon n : win_name n -> forall c t, n <> c :: ":"%char :: t.
Proof. intros (_ & _ & _ & _ & _ & C) c t ->. apply C. right. now left. Qed.
(** A text that does not start with two separators nor with a drive has no prefix. *)
Lemma plain_no_prefix s : relative s -> parse_prefix s = None.
Proof.
  intros (N & Hs & Hd). destruct s as [|a s]; [easy|]. assert (A : win_sep a = false) by (apply not_sep; eauto).
  rewrite parse_prefix_split. change (B "\\") with [backslash; backslash]. cbn [strip_alike].
  assert (E : Ascii.eqb backslash (alike_sep a) = false).
  { unfold alike_sep. unfold win_sep in A. apply orb_false_iff in A as [A1 A2]. rewrite A1. apply Ascii.eqb_neq. intros <-. discriminate A2. }
  rewrite E. destruct s as [|b s]; [reflexivity|]. cbn [parse_drive]. destruct (alphabetic a && Ascii.eqb b ":")%bool eqn:D; [|reflexivity].
  exfalso. apply andb_true_iff in D as [D1 D2]. apply Ascii.eqb_eq in D2. subst b. apply alphabetic_letter in D1. now apply (Hd a s).
Qed.
Lemma name_relative n : win_name n -> relative n.
Proof.
  intros W. assert (H := W). destruct H as (N0 & _ & _ & Hb & Hs & _). repeat split; auto.
  - intros k t -> [-> | ->]; [apply Hb|apply Hs]; now left.
  - intros c t -> _. now apply (name_colon _ W c t).
Qed.

(** ** Volumes *)
Definition vprefix (v : volume) : prefix :=
  match v with Drive c => PDisk (upper_byte c) | Share a b => PUnc a b | Long c => PVerbatimDisk (upper_byte c) end.
Lemma share_text_len (b : str) : b <> [] -> share_len b = 1 + length b.
Proof. destruct b; [easy|reflexivity]. Qed.
Lemma vprefix_len v : volume_ok v -> px_len (vprefix v) = length (volume_text v).
Proof.
  destruct v as [c|a b|c]; cbn [vprefix px_len volume_text]; [reflexivity| |reflexivity].
  intros (_ & _ & (Nb & _)). rewrite share_text_len by exact Nb. rewrite !app_length. change (length (B "\\")) with 2. change (length (B "\")) with 1. lia.
Qed.
Lemma drive_prefix c s : is_letter c -> parse_prefix (c :: ":"%char :: s) = Some (PDisk (upper_byte c)).
Proof.
  intros L. rewrite parse_prefix_split. change (B "\\") with [backslash; backslash]. cbn [strip_alike].
  change (Ascii.eqb backslash (alike_sep ":")) with false. destruct (Ascii.eqb backslash (alike_sep c)); cbn [option_map parse_drive];
  rewrite (letter_alphabetic c L); reflexivity.
Qed.
Lemma volume_prefix v s : volume_ok v -> (s = [] \/ exists k t, s = k :: t /\ win_sep k = true) -> parse_prefix (volume_text v ++ s) = Some (vprefix v).
Proof.
  intros V Hs. destruct v as [c|a b|c]; cbn [volume_text vprefix volume_ok] in *.
  - now apply drive_prefix.
  - destruct V as (Na & Q & Nb). rewrite parse_prefix_split. rewrite <- !app_assoc.
    change (B "\\" ++ a ++ B "\" ++ b ++ s) with (backslash :: backslash :: (a ++ backslash :: b ++ s)).
    change (B "\\") with [backslash; backslash]. cbn [strip_alike].
    change (Ascii.eqb backslash (alike_sep backslash)) with true. cbv iota.
    assert (Sa := name_nosep a Na). assert (Sb := name_nosep b Nb). assert (Ha := Na). assert (Hb := Nb).
    destruct Ha as (A0 & A1 & _). destruct Hb as (B0 & _).
    assert (X : forall q, q <> a -> win_sep (hd backslash q) = false -> length q = 1 -> strip_alike (q ++ [backslash]) (a ++ backslash :: b ++ s) = None).
    { intros q Nq Sq Lq. destruct q as [|x [|y q]]; try discriminate Lq. cbn [app strip_alike hd] in *. destruct a as [|a0 a]; [easy|]. cbn [app].
      inversion_clear Sa as [|? ? S0 S1]. unfold alike_sep at 1. assert (is_slash a0 = false) as -> by (unfold win_sep in S0; now apply orb_false_iff in S0).
      destruct (Ascii.eqb x a0) eqn:E; [|reflexivity]. apply Ascii.eqb_eq in E. subst x.
      destruct a as [|a1 a]; [contradiction|]. cbn [app]. inversion_clear S1 as [|? ? S2 _].
      assert (is_slash a1 = false /\ is_backslash a1 = false) as [K1 K2] by (unfold win_sep in S2; now apply orb_false_iff in S2).
      unfold alike_sep. rewrite K1. unfold is_backslash in K2. rewrite Ascii.eqb_sym in K2. now rewrite K2. }
    assert (X1 := X (B "?") (fun e => Q (eq_sym e)) eq_refl eq_refl). assert (X2 := X (B ".") (fun e => A1 (eq_sym e)) eq_refl eq_refl).
    change (B "?" ++ [backslash]) with (B "?\") in X1. change (B "." ++ [backslash]) with (B ".\") in X2. rewrite X1.
    assert (P : plain_share (a ++ backslash :: b ++ s) = Some (PUnc a b)).
    { unfold plain_share. rewrite X2, (until_at win_sep a backslash _ Sa eq_refl).
      assert (U : fst (until win_sep (b ++ s)) = b).
      { destruct Hs as [->|(k & t & -> & K)]; [rewrite app_nil_r; now rewrite until_end|now rewrite until_at]. }
      destruct (until win_sep (b ++ s)) as [b' z]. cbn [fst] in U. subst b'. destruct a; [easy|]. destruct b; [easy|]. reflexivity. }
    rewrite P. now destruct (existsb _ _).
  - assert (Vk : verbatim_kind (c :: ":"%char :: s) = PVerbatimDisk (upper_byte c)).
    { unfold verbatim_kind.
      assert (U : strip_alike (B "UNC\") (c :: ":"%char :: s) = None).
      { change (B "UNC\") with ["U"%char; "N"%char; "C"%char; backslash]. cbn [strip_alike]. change (Ascii.eqb "N" (alike_sep ":")) with false.
        now destruct (Ascii.eqb "U" (alike_sep c)). }
      rewrite U. assert (D : parse_drive_exact (c :: ":"%char :: s) = Some (upper_byte c)).
      { destruct Hs as [->|(k & t & -> & K)]; cbn [parse_drive_exact parse_drive]; rewrite (letter_alphabetic c V); [reflexivity|]. now rewrite K. }
      now rewrite D. }
    rewrite parse_prefix_split. rewrite <- app_assoc.
    change (B "\\?\" ++ [c; ":"%char] ++ s) with (backslash :: backslash :: "?"%char :: backslash :: c :: ":"%char :: s).
    change (B "\\") with [backslash; backslash]. change (B "?\") with ["?"%char; backslash]. cbn [strip_alike].
    change (Ascii.eqb backslash (alike_sep backslash)) with true. change (Ascii.eqb "?" (alike_sep "?")) with true. cbv iota.
    change (existsb is_slash (firstn 4 (backslash :: backslash :: "?"%char :: backslash :: c :: ":"%char :: s))) with false. cbv iota.
    change (Some (verbatim_kind (c :: ":"%char :: s)) = Some (PVerbatimDisk (upper_byte c))). now rewrite Vk.
Qed.

(** ** The machine on a directory *)
Definition first_of (l : list str) : str := hd [] l.
Definition rest_of (l : list str) : list (ascii * str) := map (fun n => (back, n)) (tl l).
Lemma intercalate_body l : intercalate back l = body (first_of l) (rest_of l).
Proof.
  destruct l as [|w l]; [reflexivity|]. unfold first_of, rest_of, body. cbn [hd tl]. revert w. induction l as [|x l IH]; intros w.
  - cbn. now rewrite app_nil_r.
  - change (intercalate back (w :: x :: l)) with (w ++ back :: intercalate back (x :: l)). rewrite IH. reflexivity.
Qed.
Section Dir.
Context (v : volume) (V : volume_ok v).
Lemma under_prefix s : os_prefix windows (volume_text v ++ back :: s) = Some (vprefix v).
Proof. apply volume_prefix; [exact V|]. right. exists back, s. auto. Qed.
Lemma under_pre_text s : pre_text windows (volume_text v ++ back :: s) = volume_text v.
Proof.
  unfold pre_text, prefix_len. change (cs_prefix (comps_of windows (volume_text v ++ back :: s))) with (os_prefix windows (volume_text v ++ back :: s)).
  rewrite under_prefix, vprefix_len by exact V. now apply firstn_app_len.
Qed.
Lemma under_root s : cs_root (comps_of windows (volume_text v ++ back :: s)) = true.
Proof.
  unfold comps_of, cs_root, physical_root. rewrite under_prefix, vprefix_len by exact V. now rewrite skipn_app_len.
Qed.
Lemma under_stable s w : stable windows (comps_of windows (volume_text v ++ back :: s)) (volume_text v ++ [back]) w.
Proof.
  set (c := comps_of windows (volume_text v ++ back :: s)).
  assert (G : forall p, len_before_body windows (with_path c p) = length (volume_text v ++ [back])).
  { intros p. unfold len_before_body, before_body, prefix_remaining, prefix_len, include_cur_dir, cs_has_root.
    cbn [cs_front with_path c comps_of cs_root cs_prefix andb]. fold c. 
    change (physical_root windows (volume_text v ++ back :: s) (os_prefix windows (volume_text v ++ back :: s))) with (cs_root c).
    assert (R : cs_root c = true) by apply under_root. rewrite R. cbn [orb]. rewrite under_prefix, vprefix_len by exact V. rewrite app_length. cbn. lia. }
  split; [apply G|]. intros r _. apply G.
Qed.
Lemma vsep s : cs_sep windows (comps_of windows (volume_text v ++ back :: s)) = if px_verbatim (vprefix v) then is_backslash else win_sep.
Proof. unfold cs_sep, prefix_verbatim. change (cs_prefix (comps_of windows (volume_text v ++ back :: s))) with (os_prefix windows (volume_text v ++ back :: s)). now rewrite under_prefix. Qed.
Lemma vverb s : prefix_verbatim (comps_of windows (volume_text v ++ back :: s)) = px_verbatim (vprefix v).
Proof. unfold prefix_verbatim. change (cs_prefix (comps_of windows (volume_text v ++ back :: s))) with (os_prefix windows (volume_text v ++ back :: s)). now rewrite under_prefix. Qed.

Lemma names_ok l : Forall win_name l ->
  nosep (if px_verbatim (vprefix v) then is_backslash else win_sep) (first_of l)
  /\ seps (if px_verbatim (vprefix v) then is_backslash else win_sep) (rest_of l).
Proof.
  intros N. assert (Q : forall n, win_name n -> nosep (if px_verbatim (vprefix v) then is_backslash else win_sep) n).
  { intros n W. apply name_nosep in W. destruct (px_verbatim (vprefix v)); [now apply nosep_back|exact W]. }
  split.
  - destruct N; [constructor|]. now apply Q.
  - unfold rest_of. destruct N as [|x l X N]; [constructor|]. cbn [tl]. apply Forall_forall. intros t I. apply in_map_iff in I as (n & <- & I).
    split; [now destruct (px_verbatim (vprefix v))|]. apply Q. cbn [snd]. now apply (proj1 (Forall_forall _ _) N).
Qed.
Lemma drop_idle_names vb q : Forall win_name (map snd q) -> drop_idle vb q = q.
Proof. destruct q as [|[k x] q]; [reflexivity|]. intros H. inversion_clear H as [|? ? X _]. cbn. unfold idle. now rewrite (name_sing vb x X). Qed.
Lemma names_rest l : map snd (rest_of l) = tl l.
Proof. unfold rest_of. rewrite map_map. apply map_id. Qed.
Lemma dir_parent l n : Forall win_name (l ++ [n]) -> std_parent windows (dir v (l ++ [n])) = Some (dir v l).
Proof.
  intros N. unfold dir. rewrite intercalate_body. set (s := body (first_of (l ++ [n])) (rest_of (l ++ [n]))).
  destruct (names_ok _ N) as [Nw Sr].
  rewrite (parent_closed windows windows_sane _ (ByRoot back) (first_of (l ++ [n])) (rest_of (l ++ [n]))).
  - rewrite under_pre_text, vverb. unfold up. cbn [start_text]. destruct l as [|w l].
    + cbn. unfold idle. apply Forall_inv in N. now rewrite (name_sing _ n N).
    + cbn [app] in *. unfold rest_of, first_of in *. cbn [hd tl] in *. inversion_clear N as [|? ? W N0]. rewrite map_app, rev_app_distr. cbn [map rev app].
      assert (Nn : win_name n) by (apply Forall_app in N0 as [_ N0]; now apply Forall_inv in N0).
      apply Forall_app in N0 as [N0 _].
      cbn [drop_idle]. unfold idle at 1. rewrite (name_sing _ n Nn). cbn [is_none].
      rewrite rev_involutive. unfold trimmed. rewrite drop_idle_names.
      2:{ rewrite map_rev, map_map. cbn [snd]. rewrite map_id. now apply Forall_rev. }
      rewrite intercalate_body. unfold first_of, rest_of. cbn [hd tl]. rewrite <- app_assoc. cbn [app].
      destruct (rev (map (fun x => (back, x)) l)) as [|t q] eqn:Q.
      * unfold idle. rewrite (name_sing _ w W). cbn [is_none].
        apply (f_equal (@rev _)) in Q. rewrite rev_involutive in Q. rewrite Q. unfold body. cbn. now rewrite app_nil_r.
      * rewrite <- Q, rev_involutive. reflexivity.
  - now rewrite under_pre_text.
  - split; [apply under_root|reflexivity].
  - now rewrite vsep.
  - now rewrite vsep.
  - rewrite under_pre_text. apply under_stable.
Qed.
Lemma dir_top : std_parent windows (dir v []) = None.
Proof.
  unfold dir. cbn [intercalate]. rewrite (parent_closed windows windows_sane _ (ByRoot back) [] []).
  - reflexivity.
  - now rewrite under_pre_text.
  - split; [apply under_root|reflexivity].
  - constructor.
  - constructor.
  - rewrite under_pre_text. apply under_stable.
Qed.
Lemma dir_parts l : Forall win_name l -> map bare (parts windows (dir v l)) = Pre [] (vprefix v) :: Root :: map Name l.
Proof.
  intros N. unfold dir. rewrite intercalate_body. destruct (names_ok _ N) as [Nw Sr].
  rewrite (parts_of windows windows_steady _ (ByRoot back) (first_of l) (rest_of l)).
  - unfold pre_parts. change (cs_prefix (comps_of windows (volume_text v ++ back :: body (first_of l) (rest_of l)))) with (os_prefix windows (volume_text v ++ back :: body (first_of l) (rest_of l))).
    rewrite under_prefix. cbn [app start_parts]. do 2 f_equal. rewrite vverb, names_rest. destruct N as [|w l W N]; [reflexivity|].
    change (first_of (w :: l) :: tl (w :: l)) with (w :: l).
    assert (N' : Forall win_name (w :: l)) by now constructor. clear W N Nw Sr.
    induction N' as [|x l' X N' IH]; [reflexivity|]. unfold singles in *. cbn [flat_map map]. now rewrite (name_sing _ x X), IH.
  - now rewrite under_pre_text.
  - split; [apply under_root|reflexivity].
  - exact I.
  - now rewrite vsep.
  - now rewrite vsep.
Qed.
End Dir.

(** ** The directories above *)
Section Anc.
Context (os : system) (Std : steady os).
Lemma ancestors_fuel n p : length p <= n -> std_ancestors_fuel os n p = std_ancestors os p.
Proof.
  unfold std_ancestors. assert (G : forall m n p, length p <= m -> length p <= n -> std_ancestors_fuel os m p = std_ancestors_fuel os n p).
  { clear n p. induction m as [|m IH]; intros n p Lm Ln.
    - destruct p; [|cbn in Lm; lia]. destruct n; [reflexivity|]. cbn. destruct (std_parent os []) as [q|] eqn:E; [|reflexivity].
      apply (parent_is_shorter os Std) in E. cbn in E. lia.
    - destruct n as [|n].
      + destruct p; [|cbn in Ln; lia]. cbn. destruct (std_parent os []) as [q|] eqn:E; [|reflexivity].
        apply (parent_is_shorter os Std) in E. cbn in E. lia.
      + cbn. f_equal. destruct (std_parent os p) as [q|] eqn:E; [|reflexivity]. apply (parent_is_shorter os Std) in E. apply IH; lia. }
  intros L. now apply G.
Qed.
Lemma ancestors_step p : std_ancestors os p = p :: match std_parent os p with Some q => std_ancestors os q | None => [] end.
Proof.
  unfold std_ancestors at 1. destruct p as [|a p].
  - cbn. destruct (std_parent os []) as [q|] eqn:E; [|reflexivity]. apply (parent_is_shorter os Std) in E. cbn in E. lia.
  - cbn [length std_ancestors_fuel]. f_equal. destruct (std_parent os (a :: p)) as [q|] eqn:E; [|reflexivity].
    apply (parent_is_shorter os Std) in E. cbn [length] in E. apply ancestors_fuel. lia.
Qed.
Lemma ancestors_length p : length (std_ancestors os p) <= S (length p).
Proof.
  unfold std_ancestors. generalize (length p). intros n. revert p. induction n as [|n IH]; intros p; cbn; [lia|].
  destruct (std_parent os p) as [q|]; [|cbn; lia]. specialize (IH q). lia.
Qed.
End Anc.
Lemma above_snoc {A} (l : list A) n : above (l ++ [n]) = (l ++ [n]) :: above l.
Proof. induction l as [|x l IH]; [reflexivity|]. cbn. rewrite IH. reflexivity. Qed.
Lemma dir_ancestors v l : volume_ok v -> Forall win_name l -> std_ancestors windows (dir v l) = map (dir v) (above l).
Proof.
  intros V. induction l as [|n l IH] using rev_ind; intros N; rewrite (ancestors_step windows windows_steady).
  - now rewrite (dir_top v V).
  - rewrite (dir_parent v V l n N), above_snoc. cbn [map]. f_equal. apply IH. now apply Forall_app in N.
Qed.

(** ** Joining *)
Lemma relative_root s : relative s -> std_has_root windows s = false /\ os_prefix windows s = None.
Proof.
  intros R. assert (P := plain_no_prefix s R). split; [|exact P]. unfold std_has_root, cs_has_root, comps_of. cbn. unfold physical_root. rewrite P. cbn.
  destruct R as (N & Hs & _). destruct s as [|k s]; [easy|]. rewrite orb_false_r. apply not_sep. eauto.
Qed.
Lemma join_relative base s : relative s -> prefix_verbatim (comps_of windows base) = false ->
  std_join windows base s =
  if (match os_prefix windows base with Some x => (Nat.eqb (px_len x) (length base) && px_drive x)%bool | None => false end || last_is_sep windows base)%bool
  then base ++ s else base ++ back :: s.
Proof.
  intros R V. destruct (relative_root s R) as [H P]. unfold std_join, std_is_absolute. rewrite H, P, V. cbn [andb orb is_some].
  change (cs_prefix (comps_of windows base)) with (os_prefix windows base).
  destruct (os_prefix windows base) as [x|].
  - rewrite px_len_pos. cbn [andb]. destruct (_ && _)%bool; cbn [orb]; [reflexivity|]. destruct (last_is_sep windows base); reflexivity.
  - cbn [orb]. destruct (last_is_sep windows base); reflexivity.
Qed.
Lemma last_name l n : win_name n -> forall s, win_sep (match rev (s ++ intercalate back (l ++ [n])) with c :: _ => c | [] => back end) = false.
Proof.
  intros N s. assert (E : exists t, s ++ intercalate back (l ++ [n]) = t ++ n).
  { rewrite intercalate_body. unfold first_of, rest_of. destruct l as [|w l]; cbn [app hd tl].
    - exists s. unfold body. cbn. now rewrite app_nil_r.
    - rewrite map_app. cbn [map]. rewrite body_snoc. exists (s ++ body w (map (fun x => (back, x)) l) ++ [back]). now rewrite <- !app_assoc. }
  destruct E as (t & ->). rewrite rev_app_distr. assert (S := name_nosep n N). destruct N as (N0 & _). destruct (rev n) as [|c r] eqn:Er.
  - apply (f_equal (@rev _)) in Er. rewrite rev_involutive in Er. contradiction.
  - cbn. apply (proj1 (Forall_forall _ _) S). apply in_rev. rewrite Er. now left.
Qed.
Lemma intercalate_snoc l n : l <> [] -> intercalate back (l ++ [n]) = intercalate back l ++ back :: n.
Proof.
  induction l as [|w l IH]; [easy|]. intros _. destruct l as [|x l]; [reflexivity|].
  change ((w :: x :: l) ++ [n]) with (w :: (x :: l) ++ [n]). change (intercalate back (w :: (x :: l) ++ [n])) with (w ++ back :: intercalate back ((x :: l) ++ [n])).
  rewrite IH by easy. change (intercalate back (w :: x :: l)) with (w ++ back :: intercalate back (x :: l)). now rewrite <- !app_assoc.
Qed.
(** What a text joined to a directory that is not in the long form gives. *)
Lemma join_dir v l s : volume_ok v -> Forall win_name l -> px_verbatim (vprefix v) = false -> relative s ->
  std_join windows (dir v l) s = dir v l ++ (match l with [] => [] | _ => [back] end) ++ s.
Proof.
  intros V N Vb R. unfold dir at 1. rewrite join_relative; [|exact R|unfold dir; now rewrite vverb].
  rewrite under_prefix by exact V. rewrite vprefix_len by exact V.
  assert (E : Nat.eqb (length (volume_text v)) (length (volume_text v ++ back :: intercalate back l)) = false).
  { apply Nat.eqb_neq. rewrite app_length. cbn [length]. lia. }
  rewrite E. cbn [andb orb]. fold (dir v l). destruct l as [|w l].
  - unfold last_is_sep, dir. cbn [intercalate]. rewrite rev_app_distr. reflexivity.
  - destruct (exists_last (l := w :: l)) as (l' & n & E'); [easy|]. 
    assert (L : last_is_sep windows (dir v (w :: l)) = false).
    { unfold last_is_sep, dir. rewrite E'. assert (Nn : win_name n) by (rewrite E' in N; apply Forall_app in N as [_ N]; now apply Forall_inv in N).
      assert (H := last_name l' n Nn (volume_text v ++ [back])). rewrite <- app_assoc in H. cbn [app] in H.
      destruct (rev (volume_text v ++ back :: intercalate back (l' ++ [n]))); [discriminate H|exact H]. }
    rewrite L. reflexivity.
Qed.
Lemma write_names nd l : Forall win_name l -> write_parts windows nd (map Name l)
  = (match l with [] => [] | _ => if nd then [back] else [] end) ++ intercalate back l.
Proof.
  revert nd. induction l as [|w l IH]; intros nd N; [reflexivity|]. inversion_clear N as [|? ? W N']. cbn [map write_parts part_text is_root_part negb].
  rewrite IH by exact N'. destruct l as [|x l].
  - cbn. rewrite !app_nil_r. destruct nd; reflexivity.
  - change (intercalate back (w :: x :: l)) with (w ++ back :: intercalate back (x :: l)). destruct nd; reflexivity.
Qed.
Lemma push_names ns l : fold_left push_part (map Name ns) l = l ++ map Name ns.
Proof. revert l. induction ns as [|n ns IH]; intros l; cbn; [now rewrite app_nil_r|]. rewrite IH, <- app_assoc. reflexivity. Qed.
(** Relative texts made of names. *)
Definition of_names (s : str) (ns : list str) : Prop :=
  exists r, s = body (first_of ns) r /\ map snd r = tl ns /\ ns <> [] /\ Forall win_name ns /\ seps win_sep r.
Lemma of_names_relative s ns : of_names s ns -> relative s.
Proof.
  intros (r & -> & E & Hn & N & Sr). destruct ns as [|w ns]; [easy|]. cbn in *. unfold first_of, body. cbn [hd]. inversion_clear N as [|? ? W N'].
  assert (R := name_relative w W). destruct R as (R0 & R1 & R2). destruct w as [|a w]; [easy|]. repeat split.
  - discriminate.
  - intros k t Ek. cbn in Ek. injection Ek as <- _. eauto.
  - intros c t Ec L. cbn in Ec. injection Ec as <- Ec. destruct w as [|b w].
    + destruct Sr as [|[k x] r [K _] _]; [discriminate Ec|]. cbn in Ec. injection Ec as -> _. discriminate K.
    + cbn in Ec. injection Ec as -> _. now apply (R2 a w eq_refl).
Qed.
Lemma of_names_parts s ns : of_names s ns -> parts windows s = map Name ns.
Proof.
  intros O. assert (R := of_names_relative s ns O). destruct O as (r & E & Er & Hn & N & Sr). destruct ns as [|w ns]; [easy|].
  unfold first_of in E. cbn [hd tl] in *. inversion_clear N as [|? ? W N'].
  assert (P := plain_no_prefix s R). destruct (relative_root s R) as [H _]. unfold std_has_root, cs_has_root in H.
  apply orb_false_iff in H as [H _].
  assert (Cp : cs_prefix (comps_of windows s) = None) by exact P.
  assert (Pt : pre_text windows s = []) by (unfold pre_text, prefix_len; now rewrite Cp).
  assert (Cs : cs_sep windows (comps_of windows s) = win_sep) by (unfold cs_sep, prefix_verbatim; now rewrite Cp).
  rewrite (parts_front windows windows_sane s Plainly w r).
  - unfold pre_parts_raw. rewrite Cp. unfold prefix_verbatim. rewrite Cp, Er. cbn [app start_parts].
    assert (G : Forall win_name (w :: ns)) by now constructor. clear - G. induction G as [|x l X G IH]; [reflexivity|].
    unfold singles in *. cbn [flat_map map]. now rewrite (name_sing _ x X), IH.
  - rewrite Pt. exact E.
  - split; [exact H|]. intros x. rewrite Cp. discriminate.
  - rewrite Cs. now apply name_nosep.
  - now rewrite Cs.
  - cbn. apply W.
Qed.
Lemma dir_parts_raw v l : volume_ok v -> Forall win_name l -> parts windows (dir v l) = Pre (volume_text v) (vprefix v) :: Root :: map Name l.
Proof.
  intros V N. assert (B := dir_parts v V l N). unfold dir in *. rewrite intercalate_body in *. destruct (names_ok v l N) as [Nw Sr].
  rewrite (parts_front windows windows_sane _ (ByRoot back) (first_of l) (rest_of l)) in *.
  - unfold pre_parts_raw in *. change (cs_prefix (comps_of windows (volume_text v ++ back :: body (first_of l) (rest_of l)))) with (os_prefix windows (volume_text v ++ back :: body (first_of l) (rest_of l))) in *.
    rewrite (under_prefix v V), (under_pre_text v V) in *. cbn [app start_parts map bare] in *. apply (f_equal (skipn 2)) in B. cbn [skipn] in B. rewrite bare_singles in B. now rewrite B.
  - now rewrite under_pre_text.
  - split; [now apply under_root|reflexivity].
  - now rewrite vsep.
  - now rewrite vsep.
  - exact I.
  - now rewrite under_pre_text.
  - split; [now apply under_root|reflexivity].
  - now rewrite vsep.
  - now rewrite vsep.
  - exact I.
Qed.
Lemma one_name n : win_name n -> of_names n [n].
Proof. intros W. exists []. unfold first_of, body. cbn. rewrite app_nil_r. repeat split; try easy; repeat constructor; apply W. Qed.
Lemma join_long c l s ns : is_letter c -> Forall win_name l -> of_names s ns -> std_join windows (dir (Long c) l) s = dir (Long c) (l ++ ns).
Proof.
  intros L N O. assert (V : volume_ok (Long c)) by exact L. assert (R := of_names_relative s ns O). destruct (relative_root s R) as [H P].
  assert (Pp := of_names_parts s ns O). assert (Pb := dir_parts_raw (Long c) l V N).
  unfold std_join, std_is_absolute. rewrite H, P. cbn [andb orb is_some].
  assert (Vb : prefix_verbatim (comps_of windows (dir (Long c) l)) = true) by (unfold dir; now rewrite (vverb _ V)).
  rewrite Vb. assert (Em : is_empty s = false) by (destruct R as [R _]; now destruct s). rewrite Em. cbn [negb andb].
  rewrite Pp, Pb, push_names. destruct O as (_ & _ & _ & _ & Nn & _).
  change ((Pre (volume_text (Long c)) (vprefix (Long c)) :: Root :: map Name l) ++ map Name ns)
    with (Pre (volume_text (Long c)) (vprefix (Long c)) :: Root :: map Name l ++ map Name ns).
  rewrite <- map_app. cbn [write_parts andb part_text is_root_part negb app]. rewrite andb_false_r, write_names by now apply Forall_app.
  cbn [app]. unfold dir. f_equal. change (os_main windows) with back. f_equal. now destruct (l ++ ns).
Qed.
Lemma join_name v l n : volume_ok v -> Forall win_name l -> win_name n -> std_join windows (dir v l) n = dir v (l ++ [n]).
Proof.
  intros V N Wn. destruct (px_verbatim (vprefix v)) eqn:Vb.
  - destruct v; try discriminate Vb. apply join_long; auto. now apply one_name.
  - rewrite join_dir; auto using name_relative. unfold dir. rewrite <- app_assoc. f_equal. cbn [app]. f_equal.
    destruct l as [|w l]; [reflexivity|]. now rewrite (intercalate_snoc (w :: l) n) by easy.
Qed.

(** ** Walking *)
Section Walk.
Context (os : system) (ex : str -> bool).
Definition files (d : str) : list str := match os_config_path os ex d with Some f => [f] | None => [] end.
Definition left_over (home : option str) (dirs : list str) : option str :=
  match home with Some h => if existsb (std_eqb os h) dirs then None else Some h | None => None end.
Definition cargo_in (d : str) : str := std_join os d (B ".cargo").
Lemma left_step home d dirs : left_over (os_dedup_home os home d) dirs = left_over home (d :: dirs).
Proof. unfold left_over, os_dedup_home. destruct home as [h|]; [|reflexivity]. cbn. now destruct (std_eqb os h d). Qed.
Lemma walk_closed_fuel anc : forall n home, length anc + 2 <= n ->
  os_walk_fuel os n ex (anc, home) = flat_map files (map cargo_in anc)
    ++ match left_over home (map cargo_in anc) with Some h => files h | None => [] end.
Proof.
  induction anc as [|a anc IH]; intros n home L; cbn [length] in L.
  - destruct n as [|[|n]]; [lia..|]. cbn [os_walk_fuel os_walk_next fst snd map flat_map app]. unfold left_over. destruct home as [h|]; cbn [existsb]; [|reflexivity].
    unfold files. destruct (os_config_path os ex h); reflexivity.
  - destruct n as [|n]; [lia|]. cbn [map flat_map]. rewrite <- left_step.
    cbn [os_walk_fuel os_walk_next fst snd]. fold (cargo_in a). unfold files at 1. destruct (os_config_path os ex (cargo_in a)) as [c|].
    + cbn [app]. f_equal. apply IH. lia.
    + cbn [app]. change (os_walk_fuel os (S n) ex (anc, os_dedup_home os home (cargo_in a)) = flat_map files (map cargo_in anc)
        ++ match left_over (os_dedup_home os home (cargo_in a)) (map cargo_in anc) with Some h => files h | None => [] end). apply IH. lia.
Qed.
Lemma walk_closed cwd home : os_walk os ex cwd home = flat_map files (map cargo_in (std_ancestors os cwd))
    ++ match left_over home (map cargo_in (std_ancestors os cwd)) with Some h => files h | None => [] end.
Proof. apply walk_closed_fuel. lia. Qed.
End Walk.

(** ** Spellings *)
Lemma cut_body w r : nosep win_sep w -> seps win_sep r -> cut (body w r) = w :: map snd r.
Proof.
  intros Nw. revert r. assert (K : forall c, (Ascii.eqb c "\" || Ascii.eqb c "/")%bool = win_sep c).
  { intros c. unfold win_sep, is_slash, is_backslash. apply orb_comm. }
  assert (T : forall r, seps win_sep r -> forall x, nosep win_sep x -> cut (x ++ tail r) = x :: map snd r).
  { induction 1 as [|[k y] r [Kk Ny] Sr IH]; intros x Nx.
    - cbn. rewrite app_nil_r. induction Nx as [|c x C Nx IHx]; [reflexivity|]. cbn. now rewrite K, C, IHx.
    - induction Nx as [|c x C Nx IHx].
      + cbn [app tail flat_map fst snd map cut]. cbn [fst snd] in *. rewrite K, Kk. f_equal. now apply IH.
      + cbn [app cut]. now rewrite K, C, IHx. }
  intros r Sr. now apply T.
Qed.
Lemma counts_idle w : counts w = negb (idle false w).
Proof.
  unfold idle, sing. destruct w as [|a w]; [reflexivity|]. cbn [is_empty].
  destruct (str_eqb (a :: w) (B ".")) eqn:E.
  - apply str_eqb_eq in E. rewrite E. reflexivity.
  - assert (C : counts (a :: w) = true).
    { destruct w as [|b w]; cbn; destruct a as [[] [] [] [] [] [] [] []]; try reflexivity. discriminate E. }
    rewrite C. now destruct (str_eqb (a :: w) (B "..")).
Qed.
Definition piece_part (w : str) : part := if str_eqb w (B "..") then Up else Name w.
Lemma singles_pieces l : singles false l = map piece_part (filter counts l).
Proof.
  induction l as [|w l IH]; [reflexivity|]. change (w :: l) with ([w] ++ l) at 1. rewrite singles_app, IH. cbn [filter].
  rewrite counts_idle. unfold singles. cbn [flat_map]. unfold idle, sing. rewrite app_nil_r.
  destruct (is_empty w); [reflexivity|]. destruct (str_eqb w (B ".")); [reflexivity|]. 
  destruct (str_eqb w (B "..")) eqn:E; cbn [is_none negb map app]; unfold piece_part at 2; rewrite E; reflexivity.
Qed.
Lemma piece_part_inj a b : map piece_part a = map piece_part b -> a = b.
Proof.
  revert b. induction a as [|x a IH]; intros [|y b]; try discriminate; [reflexivity|]. cbn. intros H. injection H as H H2. f_equal; [|auto].
  unfold piece_part in H. destruct (str_eqb x (B "..")) eqn:E, (str_eqb y (B "..")) eqn:E'; try discriminate H.
  - apply str_eqb_eq in E, E'. congruence.
  - now injection H.
Qed.
Lemma drive_parts p d rooted l : on_drive p d rooted l ->
  map bare (parts windows p) = Pre [] (PDisk d) :: (if rooted then [Root] else []) ++ map piece_part l.
Proof.
  intros H. destruct H as [c k s L K|c s L K].
  - destruct (split_body win_sep s) as (w & r & -> & Nw & Sr). unfold pieces. rewrite cut_body by auto.
    assert (P := drive_prefix c (k :: body w r) L). set (p := c :: ":"%char :: k :: body w r) in *.
    assert (Cp : cs_prefix (comps_of windows p) = Some (PDisk (upper_byte c))) by exact P.
    assert (Cs : cs_sep windows (comps_of windows p) = win_sep) by (unfold cs_sep, prefix_verbatim; now rewrite Cp).
    assert (Pt : pre_text windows p = [c; ":"%char]) by (unfold pre_text, prefix_len; now rewrite Cp).
    assert (Rt : cs_root (comps_of windows p) = true) by (unfold comps_of, cs_root, physical_root; change (os_prefix windows p) with (cs_prefix (comps_of windows p)); rewrite Cp; now apply sep_separates).
    rewrite (parts_of windows windows_steady p (ByRoot k) w r).
    + unfold pre_parts, prefix_verbatim. rewrite Cp. cbn [app start_parts px_verbatim]. now rewrite singles_pieces, capital_upper.
    + now rewrite Pt.
    + split; [exact Rt|now apply sep_separates].
    + exact I.
    + now rewrite Cs.
    + now rewrite Cs.
  - destruct (split_body win_sep s) as (w & r & -> & Nw & Sr). unfold pieces. rewrite cut_body by auto.
    assert (P := drive_prefix c (body w r) L). set (p := c :: ":"%char :: body w r) in *.
    assert (Cp : cs_prefix (comps_of windows p) = Some (PDisk (upper_byte c))) by exact P.
    assert (Cs : cs_sep windows (comps_of windows p) = win_sep) by (unfold cs_sep, prefix_verbatim; now rewrite Cp).
    assert (Pt : pre_text windows p = [c; ":"%char]) by (unfold pre_text, prefix_len; now rewrite Cp).
    assert (Rt : cs_root (comps_of windows p) = false).
    { unfold comps_of, cs_root, physical_root. change (os_prefix windows p) with (cs_prefix (comps_of windows p)). rewrite Cp. cbn [px_len p skipn]. destruct (body w r) as [|k t]; [reflexivity|]. apply not_sep. now apply (K k t). }
    assert (So : forall x, cs_prefix (comps_of windows p) = Some x -> px_implicit_root x = false) by (rewrite Cp; now intros x [= <-]).
    destruct (str_eqb w (B ".")) eqn:Ew.
    + apply str_eqb_eq in Ew. subst w. rewrite (parts_of windows windows_steady p ByDot [] r).
      * unfold pre_parts, prefix_verbatim, start_parts. rewrite Cp. cbn [app px_verbatim]. rewrite singles_pieces, capital_upper. reflexivity.
      * now rewrite Pt.
      * now split.
      * reflexivity.
      * constructor.
      * now rewrite Cs.
    + rewrite (parts_of windows windows_steady p Plainly w r).
      * unfold pre_parts, prefix_verbatim, start_parts. rewrite Cp. cbn [app px_verbatim]. rewrite singles_pieces, capital_upper. reflexivity.
      * now rewrite Pt.
      * now split.
      * intros ->. discriminate Ew.
      * now rewrite Cs.
      * now rewrite Cs.
Qed.
Lemma drive_same p q d d' r r' l l' : on_drive p d r l -> on_drive q d' r' l' ->
  (std_eqb windows p q = true <-> d = d' /\ r = r' /\ l = l').
Proof.
  intros Hp Hq. rewrite (std_eqb_parts windows windows_steady), (drive_parts _ _ _ _ Hp), (drive_parts _ _ _ _ Hq). split.
  - intros E. injection E as -> E. split; [reflexivity|]. destruct r, r'; cbn [app] in E.
    + injection E as E. split; [reflexivity|now apply piece_part_inj].
    + destruct l' as [|y l']; [discriminate E|]. apply (f_equal (hd Cur)) in E. cbn [map hd] in E. unfold piece_part in E. destruct (str_eqb y (B "..")); discriminate E.
    + destruct l as [|y l]; [discriminate E|]. apply (f_equal (hd Cur)) in E. cbn [map hd] in E. unfold piece_part in E. destruct (str_eqb y (B "..")); discriminate E.
    + split; [reflexivity|now apply piece_part_inj].
  - now intros (-> & -> & ->).
Qed.
