(** Prefixes on Windows do not depend on what follows. *)
From Verif.Model Require Import Base Str Path StdPath.
From Verif.Proof Require Import StrFacts StdPathProof StdUnixProof StdParentProof.

Lemma until_spec f s a b : until f s = (a, b) ->
  nosep f a /\ ((s = a /\ b = []) \/ exists k, f k = true /\ s = a ++ k :: b).
Proof.
  revert a b. induction s as [|c t IH]; cbn; intros a b E.
  - injection E as <- <-. split; [constructor|auto].
  - destruct (f c) eqn:F.
    + injection E as <- <-. split; [constructor|]. right. exists c. auto.
    + destruct (until f t) as [x y] eqn:U. injection E as <- <-. destruct (IH x y eq_refl) as [N [[-> ->]|(k & K & ->)]].
      * split; [now constructor|auto].
      * split; [now constructor|]. right. exists k. auto.
Qed.
Lemma until_at f a k b : nosep f a -> f k = true -> until f (a ++ k :: b) = (a, b).
Proof. intros N K. induction N as [|c t C N IH]; cbn; [now rewrite K|]. rewrite C. now rewrite IH. Qed.
Lemma until_end f a : nosep f a -> until f a = (a, []).
Proof. intros N. induction N as [|c t C N IH]; cbn; [reflexivity|]. now rewrite C, IH. Qed.
(** A beginning long enough has the same first piece. *)
Lemma until_cut f p r a b : until f (p ++ r) = (a, b) -> length a <= length p ->
  (p = a /\ until f p = (a, [])) \/ exists b', until f p = (a, b') /\ b = b' ++ r /\ exists k, f k = true /\ p = a ++ k :: b'.
Proof.
  intros U L. destruct (until_spec f _ a b U) as [N [[E ->]|(k & K & E)]].
  - left. rewrite <- E in L. rewrite app_length in L. destruct r; [|cbn in L; lia]. rewrite app_nil_r in E. subst a.
    split; [reflexivity|now apply until_end].
  - assert (H : p = a ++ skipn (length a) p).
    { rewrite <- (firstn_skipn (length a) p) at 1. f_equal.
      apply (f_equal (firstn (length a))) in E. rewrite firstn_app, (proj2 (Nat.sub_0_le _ _) L), app_nil_r in E.
      rewrite E. now rewrite firstn_app, Nat.sub_diag, firstn_all, app_nil_r. }
    rewrite H in E. rewrite <- app_assoc in E. apply app_inv_head in E.
    destruct (skipn (length a) p) as [|x y] eqn:S.
    + left. rewrite app_nil_r in H. subst p. split; [reflexivity|now apply until_end].
    + right. injection E as -> <-. exists y. rewrite H. split; [now apply until_at|]. split; [reflexivity|]. eauto.
Qed.
Lemma until_len f s : length (fst (until f s)) <= length s.
Proof. induction s as [|c t IH]; cbn; [lia|]. destruct (f c); cbn; [lia|]. destruct (until f t); cbn in *. lia. Qed.
Lemma two_pieces f s : let '(a, r) := until f s in let '(b, _) := until f r in length a + share_len b <= length s.
Proof.
  destruct (until f s) as [a r] eqn:U. destruct (until f r) as [b z] eqn:V.
  assert (Lb := until_len f r). rewrite V in Lb. cbn in Lb.
  destruct (until_spec f s a r U) as [_ [[-> ->]|(k & _ & ->)]].
  - cbn in V. injection V as <- <-. cbn. lia.
  - rewrite app_length. cbn [length]. destruct b; cbn in *; lia.
Qed.
(** The first two pieces of a beginning that holds them. *)
Lemma two_pieces_cut f p r a b x y : until f (p ++ r) = (a, x) -> until f x = (b, y) ->
  length a + share_len b <= length p -> exists x' y', until f p = (a, x') /\ until f x' = (b, y').
Proof.
  intros U V L. destruct (until_cut f p r a x U ltac:(lia)) as [[-> E]|(b' & E & -> & k & K & ->)].
  - exists [], []. split; [exact E|]. destruct b; [reflexivity|]. cbn in L. lia.
  - rewrite app_length in L. cbn [length] in L.
    destruct (until_cut f b' r b y V) as [[-> E2]|(y' & E2 & _)].
    + destruct b; cbn in *; lia.
    + exists b, []. auto.
    + exists b', y'. auto.
Qed.
(** What has no two pieces has none at any beginning. *)
Lemma no_two_pieces f p r a b x y : until f (p ++ r) = (a, x) -> until f x = (b, y) -> (is_empty a || is_empty b)%bool = true ->
  let '(a', x') := until f p in let '(b', _) := until f x' in (is_empty a' || is_empty b')%bool = true.
Proof.
  intros U V H. destruct (Nat.le_gt_cases (length a) (length p)) as [L|L].
  - destruct (until_cut f p r a x U L) as [[-> E]|(b0 & E & -> & k & K & ->)].
    + rewrite E. cbn. now rewrite orb_true_r.
    + rewrite E. destruct (until f b0) as [b' z] eqn:W. destruct a; [reflexivity|]. cbn [is_empty orb] in *. destruct b; [|discriminate H].
      destruct (until_cut f b0 r [] y V ltac:(cbn; lia)) as [[-> E2]|(y' & E2 & _)]; [cbn in W; now injection W as <- <-|].
      rewrite E2 in W. now injection W as <- <-.
  - assert (N : until f p = (p, [])).
    { destruct (until_spec f _ a x U) as [N [[E ->]|(k & K & E)]].
      - apply until_end. rewrite <- E in N. apply Forall_app in N. tauto.
      - apply until_end. assert (H' : firstn (length p) (p ++ r) = firstn (length p) (a ++ k :: x)) by now rewrite E.
        rewrite firstn_app, Nat.sub_diag, firstn_all, app_nil_r in H'. cbn in H'. rewrite firstn_app, (proj2 (Nat.sub_0_le _ _)), app_nil_r in H' by lia.
        rewrite H'. apply Forall_forall. intros z Hz. apply (proj1 (Forall_forall _ _) N). rewrite <- (firstn_skipn (length p) a). apply in_app_iff. now left. }
    rewrite N. cbn. now rewrite orb_true_r.
Qed.

Lemma strip_length q s t : strip_alike q s = Some t -> length s = length q + length t.
Proof.
  revert s. induction q as [|a q IH]; intros s; cbn; [now intros [= ->]|]. destruct s as [|c s]; [discriminate|].
  destruct (Ascii.eqb _ _); [|discriminate]. intros H. cbn. f_equal. auto.
Qed.
Lemma strip_more q p r t : strip_alike q p = Some t -> strip_alike q (p ++ r) = Some (t ++ r).
Proof.
  revert p. induction q as [|a q IH]; intros p; cbn; [now intros [= ->]|]. destruct p as [|c p]; [discriminate|]. cbn.
  destruct (Ascii.eqb _ _); [auto|discriminate].
Qed.
Lemma strip_cut q p r t : strip_alike q (p ++ r) = Some t -> length q <= length p -> exists t', strip_alike q p = Some t' /\ t = t' ++ r.
Proof.
  revert p. induction q as [|a q IH]; intros p; cbn; [intros [= <-]; eauto|]. destruct p as [|c p]; cbn; [intros _ L; lia|].
  destruct (Ascii.eqb _ _); [|discriminate]. intros H L. apply IH; [exact H|lia].
Qed.
Lemma strip_not q p r : strip_alike q (p ++ r) = None -> strip_alike q p = None.
Proof. intros H. destruct (strip_alike q p) as [t|] eqn:E; [|reflexivity]. now rewrite (strip_more q p r t E) in H. Qed.
Lemma drive_length s d : parse_drive s = Some d -> 2 <= length s.
Proof. destruct s as [|a [|b s]]; cbn; try discriminate. lia. Qed.
Lemma drive_exact_length s d : parse_drive_exact s = Some d -> 2 <= length s.
Proof. destruct s as [|a [|b [|c s]]]; cbn; try discriminate; try (intros; lia). Qed.
Lemma first_four (p r : str) : 4 <= length p -> firstn 4 (p ++ r) = firstn 4 p.
Proof. intros L. rewrite firstn_app, (proj2 (Nat.sub_0_le _ _) L). cbn [firstn]. now rewrite app_nil_r. Qed.

Lemma win_len p x : parse_prefix p = Some x -> px_len x <= length p.
Proof.
  unfold parse_prefix. destruct (strip_alike (B "\\") p) as [s2|] eqn:E2.
  - apply strip_length in E2. change (length (B "\\")) with 2 in E2.
    destruct (if existsb is_slash (firstn 4 p) then None else strip_alike (B "?\") s2) as [s4|] eqn:E4.
    + assert (L4 : length s2 = 2 + length s4) by (destruct (existsb _ _); [discriminate E4|]; now apply strip_length in E4).
      destruct (strip_alike (B "UNC\") s4) as [s8|] eqn:E8.
      * apply strip_length in E8. change (length (B "UNC\")) with 4 in E8. assert (T := two_pieces is_backslash s8).
        destruct (until is_backslash s8) as [a u]. destruct (until is_backslash u) as [b z]. intros [= <-]. cbn [px_len]. lia.
      * destruct (parse_drive_exact s4) as [d|] eqn:D.
        -- apply drive_exact_length in D. intros [= <-]. cbn [px_len]. lia.
        -- assert (U := until_len is_backslash s4). intros [= <-]. cbn [px_len]. lia.
    + destruct (strip_alike (B ".\") s2) as [s4|] eqn:E5.
      * apply strip_length in E5. change (length (B ".\")) with 2 in E5. assert (U := until_len win_sep s4). intros [= <-]. cbn [px_len]. lia.
      * assert (T := two_pieces win_sep s2). destruct (until win_sep s2) as [a u]. destruct (until win_sep u) as [b z].
        destruct (_ || _)%bool; [discriminate|]. intros [= <-]. cbn [px_len]. lia.
  - destruct (parse_drive p) as [d|] eqn:D; [|discriminate]. apply drive_length in D. intros [= <-]. exact D.
Qed.
(** Without [\\?\]: a device or a share. *)
Definition plain_share (s2 : str) : option prefix :=
  match strip_alike (B ".\") s2 with
  | Some s4 => Some (PDevice (fst (until win_sep s4)))
  | None =>
      let '(server, r) := until win_sep s2 in
      let '(share, _) := until win_sep r in
      if (is_empty server || is_empty share)%bool then None else Some (PUnc server share)
  end.
Definition verbatim_kind (s4 : str) : prefix :=
  match strip_alike (B "UNC\") s4 with
  | Some s8 =>
      let '(server, r) := until is_backslash s8 in
      let '(share, _) := until is_backslash r in
      PVerbatimUnc server share
  | None =>
      match parse_drive_exact s4 with
      | Some d => PVerbatimDisk d
      | None => PVerbatim (fst (until is_backslash s4))
      end
  end.
Lemma parse_prefix_split s : parse_prefix s =
  match strip_alike (B "\\") s with
  | Some s2 => match (if existsb is_slash (firstn 4 s) then None else strip_alike (B "?\") s2) with
               | Some s4 => Some (verbatim_kind s4)
               | None => plain_share s2
               end
  | None => option_map PDisk (parse_drive s)
  end.
Proof.
  unfold parse_prefix, verbatim_kind, plain_share. destruct (strip_alike (B "\\") s) as [s2|]; [|reflexivity].
  destruct (if existsb is_slash (firstn 4 s) then None else strip_alike (B "?\") s2) as [s4|]; [|reflexivity].
  destruct (strip_alike (B "UNC\") s4) as [s8|].
  - destruct (until is_backslash s8) as [a u]. now destruct (until is_backslash u).
  - now destruct (parse_drive_exact s4).
Qed.
Lemma share_some t r x : plain_share (t ++ r) = Some x -> px_len x <= 2 + length t -> 2 <= length t -> plain_share t = Some x.
Proof.
  unfold plain_share. intros H L L2. destruct (strip_alike (B ".\") (t ++ r)) as [s4|] eqn:E5.
  - destruct (strip_cut _ t r s4 E5 ltac:(change (length (B ".\")) with 2; lia)) as (t4 & Et & ->). rewrite Et.
    injection H as <-. cbn [px_len] in L. apply strip_length in Et. change (length (B ".\")) with 2 in Et.
    destruct (until win_sep (t4 ++ r)) as [a b] eqn:U. cbn [fst] in *.
    destruct (until_cut _ _ _ _ _ U ltac:(lia)) as [[_ E]|(b' & E & _)]; now rewrite E.
  - rewrite (strip_not _ _ _ E5). destruct (until win_sep (t ++ r)) as [a u] eqn:U. destruct (until win_sep u) as [b z] eqn:V.
    destruct (is_empty a || is_empty b)%bool eqn:Em; [discriminate H|]. injection H as <-. cbn [px_len] in L.
    destruct (two_pieces_cut _ _ _ _ _ _ _ U V ltac:(lia)) as (x' & y' & -> & ->). now rewrite Em.
Qed.
Lemma share_none t r : plain_share (t ++ r) = None -> plain_share t = None.
Proof.
  unfold plain_share. destruct (strip_alike (B ".\") (t ++ r)) as [s4|] eqn:E5; [discriminate|]. rewrite (strip_not _ _ _ E5).
  destruct (until win_sep (t ++ r)) as [a u] eqn:U. destruct (until win_sep u) as [b z] eqn:V.
  destruct (is_empty a || is_empty b)%bool eqn:Em; [|discriminate]. intros _.
  assert (N := no_two_pieces _ _ _ _ _ _ _ U V Em). destruct (until win_sep t) as [a' x']. destruct (until win_sep x') as [b' z']. now rewrite N.
Qed.
Lemma share_long t x : plain_share t = Some x -> 4 <= px_len x.
Proof.
  unfold plain_share. destruct (strip_alike (B ".\") t); [intros [= <-]; cbn; lia|]. destruct (until win_sep t) as [a u]. destruct (until win_sep u) as [b z].
  destruct a as [|? a], b as [|? b]; cbn; try discriminate. intros [= <-]. cbn. lia.
Qed.
Lemma verbatim_long t : 4 <= px_len (verbatim_kind t).
Proof.
  unfold verbatim_kind. destruct (strip_alike (B "UNC\") t) as [u|].
  - destruct (until is_backslash u) as [a v]. destruct (until is_backslash v). cbn. lia.
  - destruct (parse_drive_exact t); cbn; lia.
Qed.
Lemma verbatim_cut t r : px_len (verbatim_kind (t ++ r)) <= 4 + length t -> verbatim_kind t = verbatim_kind (t ++ r).
Proof.
  unfold verbatim_kind. intros L. destruct (strip_alike (B "UNC\") (t ++ r)) as [s8|] eqn:E8.
  - destruct (until is_backslash s8) as [a u] eqn:U. destruct (until is_backslash u) as [b z] eqn:V. cbn [px_len] in L.
    destruct (strip_cut _ t r s8 E8 ltac:(change (length (B "UNC\")) with 4; lia)) as (t8 & Eu & ->). rewrite Eu.
    apply strip_length in Eu. change (length (B "UNC\")) with 4 in Eu.
    destruct (two_pieces_cut _ _ _ _ _ _ _ U V ltac:(lia)) as (x' & y' & -> & ->). reflexivity.
  - rewrite (strip_not _ _ _ E8). destruct (parse_drive_exact (t ++ r)) as [d|] eqn:D.
    + cbn [px_len] in L. destruct t as [|c1 [|c2 [|c3 t]]]; cbn [length] in *; try lia.
      * cbn [app] in D. cbn. destruct r as [|c3 r]; cbn in D; [now rewrite D|]. destruct (win_sep c3); [now rewrite D|discriminate D].
      * cbn in D |- *. now rewrite D.
    + cbn [px_len] in L. destruct (until is_backslash (t ++ r)) as [a b] eqn:U. cbn [fst] in L |- *.
      assert (Dn : parse_drive_exact t = None).
      { destruct t as [|c1 [|c2 [|c3 t]]]; [reflexivity|reflexivity| |exact D].
        cbn [app] in D, U. destruct r as [|c3 r]; [exact D|]. cbn [parse_drive_exact] in D |- *.
        destruct (win_sep c3) eqn:W; [exact D|]. unfold parse_drive. destruct (alphabetic c1 && Ascii.eqb c2 ":")%bool eqn:Al; [|reflexivity].
        exfalso. unfold win_sep in W. apply orb_false_iff in W as [_ W]. apply andb_true_iff in Al as [A1 A2]. apply Ascii.eqb_eq in A2. subst c2.
        assert (K1 : is_backslash c1 = false).
        { unfold is_backslash. apply Ascii.eqb_neq. intros ->. discriminate A1. }
        cbn [until] in U. rewrite K1, W in U. change (is_backslash ":") with false in U. cbv iota in U.
        destruct (until is_backslash r) as [a' b']. injection U as <- <-. cbn [length] in L. lia. }
      rewrite Dn. destruct (until_cut _ _ _ _ _ U ltac:(lia)) as [[_ E]|(b' & E & _)]; now rewrite E.
Qed.

Lemma win_some p r x : parse_prefix (p ++ r) = Some x -> px_len x <= length p -> parse_prefix p = Some x.
Proof.
  rewrite !parse_prefix_split. intros H L. destruct (strip_alike (B "\\") (p ++ r)) as [s2|] eqn:E2.
  - assert (L4 : 4 <= px_len x).
    { destruct (if existsb is_slash (firstn 4 (p ++ r)) then None else strip_alike (B "?\") s2) as [s4|].
      - injection H as <-. apply verbatim_long.
      - now apply share_long in H. }
    destruct (strip_cut _ p r s2 E2 ltac:(change (length (B "\\")) with 2; lia)) as (t2 & Ep & ->). rewrite Ep.
    apply strip_length in Ep. change (length (B "\\")) with 2 in Ep. rewrite first_four in H by lia.
    destruct (existsb is_slash (firstn 4 p)); [apply (share_some t2 r); auto; lia|].
    destruct (strip_alike (B "?\") (t2 ++ r)) as [s4|] eqn:E4.
    + destruct (strip_cut _ t2 r s4 E4 ltac:(change (length (B "?\")) with 2; lia)) as (t4 & Et & ->). rewrite Et.
      apply strip_length in Et. change (length (B "?\")) with 2 in Et. injection H as <-. f_equal. apply verbatim_cut. lia.
    + rewrite (strip_not _ _ _ E4). apply (share_some t2 r); auto; lia.
  - rewrite (strip_not _ _ _ E2). destruct (parse_drive (p ++ r)) as [d|] eqn:D; [|discriminate H]. injection H as <-. cbn [px_len] in L.
    destruct p as [|a [|b p]]; cbn [length] in L; try lia. cbn in D |- *. now rewrite D.
Qed.
Lemma win_none p r : parse_prefix (p ++ r) = None -> parse_prefix p = None.
Proof.
  rewrite !parse_prefix_split. intros H. destruct (strip_alike (B "\\") p) as [t2|] eqn:Ep.
  - rewrite (strip_more _ _ r _ Ep) in H.
    assert (V : (if existsb is_slash (firstn 4 p) then None else strip_alike (B "?\") t2) = None).
    { destruct (strip_alike (B "?\") t2) as [t4|] eqn:Et; [|destruct (existsb is_slash (firstn 4 p)); reflexivity].
      assert (L : 4 <= length p) by (apply strip_length in Ep; apply strip_length in Et; change (length (B "\\")) with 2 in Ep; change (length (B "?\")) with 2 in Et; lia).
      rewrite (first_four p r L) in H. destruct (existsb is_slash (firstn 4 p)); [reflexivity|]. now rewrite (strip_more _ _ r _ Et) in H. }
    rewrite V. destruct (if existsb is_slash (firstn 4 (p ++ r)) then None else strip_alike (B "?\") (t2 ++ r)); [discriminate H|].
    now apply share_none in H.
  - destruct (parse_drive p) as [d|] eqn:D; [|reflexivity]. exfalso.
    destruct p as [|a [|b p]]; try discriminate D. cbn in D. destruct (alphabetic a && Ascii.eqb b ":")%bool eqn:Al; [|discriminate D].
    assert (N : strip_alike (B "\\") ((a :: b :: p) ++ r) = None).
    { apply andb_true_iff in Al as [_ Al]. apply Ascii.eqb_eq in Al. subst b. change (B "\\") with [backslash; backslash].
      cbn [strip_alike app]. destruct (Ascii.eqb backslash (alike_sep a)); reflexivity. }
    rewrite N in H. cbn in H. now rewrite Al in H.
Qed.
Lemma windows_sane : sane windows.
Proof. constructor; [reflexivity|reflexivity|exact win_len]. Qed.
Lemma windows_steady : steady windows.
Proof. constructor; [exact windows_sane|exact win_some|exact win_none]. Qed.
