From Verif.Model Require Import Base Str Path Walk.
From Verif.Spec Require Import StrSpec PathSpec WalkSpec.
From Verif.Proof Require Import StrFacts PathFacts.

Definition opt_list {A} (o : option A) : list A := match o with Some a => [a] | None => [] end.

Lemma config_path_file ex d : file_in ex d (opt_list (config_path ex d)).
Proof.
  unfold config_path. rewrite !join_child by reflexivity.
  destruct (ex (child d (B "config"))) eqn:E1; [now constructor|].
  destruct (ex (child d (B "config.toml"))) eqn:E2; [now constructor | now constructor].
Qed.
Lemma file_in_unique ex d a b : file_in ex d a -> file_in ex d b -> a = b.
Proof. intros H1 H2. destruct H1; destruct H2; congruence. Qed.
Lemma files_in_unique ex ds a b : files_in ex ds a -> files_in ex ds b -> a = b.
Proof.
  intros H1. revert b. induction H1 as [|d ds f fs Hf _ IH]; intros b H2; inversion H2; subst; [easy|].
  f_equal; [eapply file_in_unique; eauto | auto].
Qed.

(** All results of the iterator, in closed form. *)
Definition dedup_all (home : option path) (ds : list path) : option path :=
  fold_left dedup_home ds home.
Definition walk_list ex (anc : list path) (home : option path) : list path :=
  let ds := map (fun a => join a (B ".cargo")) anc in
  flat_map (fun d => opt_list (config_path ex d)) ds
  ++ match dedup_all home ds with
     | Some h => opt_list (config_path ex h)
     | None => []
     end.

Lemma walk_next_list ex anc home :
  match walk_next_from ex anc home with
  | (Some p, s) => walk_list ex anc home = p :: walk_list ex (wk_ancestors s) (wk_home s)
                   /\ length (wk_ancestors s) <= length anc
                   /\ (length (wk_ancestors s) < length anc
                       \/ wk_ancestors s = [] /\ wk_home s = None)
  | (None, s) => walk_list ex anc home = [] /\ s = mkWalk [] None
  end.
Proof.
  revert home; induction anc as [|a anc IH]; intros home; cbn [walk_next_from].
  - destruct home as [h|]; [|easy]. destruct (config_path ex h) as [c|] eqn:E.
    + unfold walk_list. cbn. rewrite E. cbn. repeat split; auto.
    + unfold walk_list. cbn. rewrite E. cbn. repeat split; auto.
  - destruct (config_path ex (join a (B ".cargo"))) as [c|] eqn:E.
    + unfold walk_list. cbn [map flat_map dedup_all fold_left]. rewrite E. cbn. repeat split; try lia.
    + specialize (IH (dedup_home home (join a (B ".cargo")))).
      assert (W : walk_list ex (a :: anc) home = walk_list ex anc (dedup_home home (join a (B ".cargo")))).
      { unfold walk_list. cbn [map flat_map dedup_all fold_left]. rewrite E. reflexivity. }
      destruct (walk_next_from ex anc (dedup_home home (join a (B ".cargo")))) as [[p|] s].
      * destruct IH as (H1 & H2 & H3). rewrite W. repeat split; auto; cbn; lia.
      * destruct IH as (H1 & H2). rewrite W. auto.
Qed.

Lemma walk_all_fuel_list ex n s :
  length (wk_ancestors s) + 2 <= n ->
  walk_all_fuel n ex s = walk_list ex (wk_ancestors s) (wk_home s).
Proof.
  revert s; induction n as [|n IH]; intros s Hn; [lia|].
  cbn [walk_all_fuel]. unfold walk_next.
  pose proof (walk_next_list ex (wk_ancestors s) (wk_home s)) as K.
  destruct (walk_next_from ex (wk_ancestors s) (wk_home s)) as [[p|] s'].
  - destruct K as (H1 & H2 & [H3|[H3 H4]]).
    + rewrite H1. f_equal. apply IH. lia.
    + rewrite H1. f_equal. destruct s' as [a h]. cbn in *. subst.
      destruct n; reflexivity.
  - now destruct K as [-> _].
Qed.
Lemma walk_all_list ex s : walk_all ex s = walk_list ex (wk_ancestors s) (wk_home s).
Proof. now apply walk_all_fuel_list. Qed.

Lemma dedup_all_none ds : dedup_all None ds = None.
Proof. induction ds; auto. Qed.
Lemma dedup_all_some (h : path) ds :
  (dedup_all (Some h) ds = None /\ Exists (same_place h) ds)
  \/ (dedup_all (Some h) ds = Some h /\ ~ Exists (same_place h) ds).
Proof.
  induction ds as [|d ds IH].
  - right. split; [easy|]. intros H; inversion H.
  - unfold dedup_all. cbn [fold_left dedup_home]. destruct (path_eqb h d) eqn:E.
    + left. split; [apply dedup_all_none|]. left. now apply path_eqb_same.
    + destruct IH as [[H1 H2]|[H1 H2]]; [left | right]; split; auto.
      intros H; inversion H; subst; [|easy]. apply path_eqb_same in H3. congruence.
Qed.

Lemma home_last_ex (dirs : list path) (home : option path) :
  exists ds, home_last dirs home ds
             /\ ds = dirs ++ match dedup_all home dirs with Some h => [h] | None => [] end.
Proof.
  destruct home as [h|].
  - destruct (dedup_all_some h dirs) as [[-> H]|[-> H]]; eexists; (split; [|reflexivity]).
    + rewrite app_nil_r. now apply home_seen.
    + now apply home_new.
  - exists dirs. rewrite dedup_all_none, app_nil_r. split; [constructor | easy].
Qed.
Lemma home_last_unique dirs home a b : home_last dirs home a -> home_last dirs home b -> a = b.
Proof. intros H1 H2. destruct H1; inversion H2; subst; easy. Qed.

Lemma files_in_flat ex ds : files_in ex ds (flat_map (fun d => opt_list (config_path ex d)) ds).
Proof. induction ds; cbn; constructor; auto using config_path_file. Qed.

Lemma dot_cargo_map anc : map (fun a => join a (B ".cargo")) anc = map dot_cargo anc.
Proof. apply map_ext. intros a. now rewrite join_child. Qed.

Lemma walk_order ex cwd home :
  exists dirs, search_order cwd home dirs
               /\ files_in ex dirs (walk_all ex (walk_init cwd home)).
Proof.
  rewrite walk_all_list. unfold walk_list. cbn [wk_ancestors wk_home walk_init].
  rewrite dot_cargo_map.
  destruct (home_last_ex (map dot_cargo (ancestors cwd)) home) as (ds & H1 & H2).
  exists ds. split.
  - exists (ancestors cwd). split; [apply ancestors_up | exact H1].
  - assert (E : flat_map (fun d => opt_list (config_path ex d)) ds
               = flat_map (fun d => opt_list (config_path ex d)) (map dot_cargo (ancestors cwd))
                 ++ match dedup_all home (map dot_cargo (ancestors cwd)) with
                    | Some h => opt_list (config_path ex h)
                    | None => []
                    end).
    { rewrite H2, flat_map_app. f_equal.
      destruct (dedup_all home (map dot_cargo (ancestors cwd))) as [h|]; cbn; [|easy].
      now rewrite app_nil_r. }
    rewrite <- E. apply files_in_flat.
Qed.

(** ** The search order is unique *)
Lemma tidy_prefix_unique p q q' a l :
  (exists r, p = q ++ r) -> (exists r, p = q' ++ r) -> tidy q -> tidy q' ->
  reads_as q a l -> reads_as q' a l -> length q <= length q' -> q = q'.
Proof.
  intros [r Hr] [r' Hr'] T T' R R' Hl.
  rewrite Hr in Hr'. apply app_eq_app in Hr'.
  assert (exists m, q' = q ++ m) as [m Hm].
  { destruct Hr' as (m & [[E1 E2]|[E1 E2]]); [|eauto].
    subst q. rewrite app_length in Hl. destruct m; [|cbn in Hl; lia].
    exists []. now rewrite !app_nil_r. }
  destruct m as [|c m]; [subst; now rewrite app_nil_r|]. exfalso.
  clear Hr Hr' Hl r r' p.
  (* the pieces of [q] and [q'] *)
  destruct R as (ps & P1 & P2 & P3 & -> & ->). destruct R' as (ps' & P1' & P2' & P3' & P4' & P5').
  assert (E' : ps' = split_on slash q') by (rewrite <- P3'; symmetry; now apply split_intercalate).
  assert (E : ps = split_on slash q) by (rewrite <- P3; symmetry; now apply split_intercalate).
  (* last piece of [q] and the rest *)
  destruct (exists_last P1) as (init & w & Ei).
  assert (Sp : split_on slash q' = init ++ split_on slash (w ++ c :: m)).
  { rewrite Hm, <- P3, Ei. clear -Ei P2. rewrite Ei in P2. clear Ei.
    induction init as [|x init IH].
    - reflexivity.
    - cbn [app] in P2. inversion P2; subst.
      change ((x :: init) ++ [w]) with (x :: init ++ [w]).
      assert (Hn : init ++ [w] <> []) by now destruct init.
      rewrite intercalate_cons by exact Hn. rewrite <- app_assoc. cbn [app].
      change separator with slash in *. rewrite split_on_app_sep by easy. rewrite IH by easy. reflexivity. }
  assert (Fw : ~ In slash w).
  { rewrite Forall_forall in P2. apply P2. rewrite Ei. apply in_app_iff. right. now left. }
  (* first slash of the extension *)
  assert (N : filter counts [w] = filter counts (split_on slash (w ++ c :: m))).
  { rewrite E', Sp, Ei, !filter_app in P4'. now apply app_inv_head in P4'. }
  destruct (in_dec ascii_dec slash (c :: m)) as [Hin|Hnin].
  - apply in_split in Hin.
    assert (exists u v, c :: m = u ++ slash :: v /\ ~ In slash u) as (u & v & Huv & Hu).
    { destruct (split_once slash (c :: m)) as [[u v]|] eqn:Es.
      - apply split_once_some in Es. eauto.
      - apply split_once_none in Es. destruct Hin as (l1 & l2 & Hl12). exfalso. apply Es.
        rewrite Hl12. apply in_app_iff. right. now left. }
    rewrite Huv, app_assoc in N. rewrite split_on_app_sep in N by (rewrite in_app_iff; tauto).
    (* the last piece of [q'] counts, so there are too many *)
    assert (Hlast : exists i z, split_on slash v = i ++ [z]).
    { destruct (exists_last (split_on_not_nil slash v)) as (i & z & Ez). eauto. }
    destruct Hlast as (i & z & Ez).
    assert (Hz : counts z = true).
    { destruct T' as [T1 T2].
      assert (Hq' : exists y, q' = y ++ slash :: z).
      { exists (q ++ u ++ match i with [] => [] | _ => slash :: intercalate slash i end).
        rewrite Hm, Huv. rewrite <- !app_assoc. f_equal. f_equal.
        rewrite <- (intercalate_split slash v), Ez. destruct i as [|j i]; [reflexivity|].
        rewrite intercalate_snoc by easy. reflexivity. }
      destruct Hq' as [y Hy]. destruct z as [|z0 [|z1 z]]; [| |reflexivity].
      - exfalso. assert (Hroot : q' <> B "/" \/ q' = B "/") by (destruct (str_eq_dec q' (B "/")); auto).
        destruct Hroot as [Hroot|Hroot]; [now apply (T2 Hroot y)|].
        (* q' = "/" so q = "" *)
        assert (Hq : q = []).
        { rewrite Hroot in Hm. destruct q as [|x q]; [easy|]. injection Hm as _ Hm. now destruct q. }
        assert (A1 : ps = [[]]) by (rewrite E, Hq; reflexivity).
        assert (A2 : ps' = [[]; []]) by (rewrite E', Hroot; reflexivity).
        rewrite A1, A2 in P5'. discriminate P5'.
      - cbn. destruct (Ascii.eqb_spec z0 ".") as [->|]; [|easy]. exfalso. now apply (T1 y). }
    rewrite Ez in N. cbn [filter] in N. rewrite filter_app in N. cbn [filter] in N. rewrite Hz in N.
    destruct (counts w) eqn:Cw.
    + (* [w] counts: then the first piece must not, but it contains [w] *)
      assert (Cu : counts (w ++ u) = true).
      { destruct w as [|w0 [|w1 w]]; [easy| |easy]. destruct u as [|u0 u]; [exact Cw | reflexivity]. }
      rewrite Cu in N. injection N as _ N. now destruct (filter counts i).
    + destruct (counts (w ++ u)); [discriminate N|]. now destruct (filter counts i).
  - rewrite split_on_none in N by (rewrite in_app_iff; tauto).
    cbn [filter] in N. destruct (counts w) eqn:Cw.
    + destruct (counts (w ++ c :: m)); [|discriminate N]. injection N as N.
      apply (f_equal (@length ascii)) in N. rewrite app_length in N. cbn in N. lia.
    + destruct (counts (w ++ c :: m)) eqn:Cx; [discriminate N|].
      destruct w as [|w0 [|w1 w]]; [|cbn in Cx; discriminate Cx|discriminate Cw].
      destruct m as [|m0 m]; [|discriminate Cx]. cbn in Cx. apply negb_false_iff in Cx.
      apply Ascii.eqb_eq in Cx. subst c.
      (* q' = q ++ "." with q ending in a slash or empty *)
      destruct init as [|j init].
      * assert (A1 : ps = [[]]) by exact Ei.
        assert (A2 : ps' = [["."%char]]) by (rewrite E', Hm, <- P3, A1; reflexivity).
        rewrite A1, A2 in P5'. discriminate P5'.
      * destruct T' as [T1 _].
        apply (T1 (intercalate slash (j :: init))). rewrite Hm, <- P3, Ei, intercalate_snoc by easy.
        rewrite <- app_assoc. reflexivity.
Qed.

Lemma parent_dir_unique p q q' : parent_dir p q -> parent_dir p q' -> q = q'.
Proof.
  intros (Hp & T & K) (Hp' & T' & K').
  destruct K as [(a & l & n & R1 & R2)|[R1 R2]]; destruct K' as [(a' & l' & n' & R1' & R2')|[R1' R2']].
  - destruct (reads_as_unique _ _ _ _ _ R1 R1') as [<- E]. apply app_inj_tail in E. destruct E as [<- <-].
    destruct (Nat.le_ge_cases (length q) (length q')) as [Hl|Hl].
    + eapply tidy_prefix_unique; eauto.
    + symmetry. eapply tidy_prefix_unique; eauto.
  - destruct (reads_as_unique _ _ _ _ _ R1 R1') as [_ E]. now destruct l.
  - destruct (reads_as_unique _ _ _ _ _ R1 R1') as [_ E]. now destruct l'.
  - congruence.
Qed.
Lemma parent_iff p q : parent p = Some q <-> parent_dir p q.
Proof.
  split; [apply parent_some_iff|]. intros H.
  pose proof (parent_spec p) as K. destruct (parent p) as [q'|].
  - f_equal. eapply parent_dir_unique; eauto.
  - exfalso. now apply (no_parent p K q).
Qed.
Lemma upwards_unique p l l' : upwards p l -> upwards p l' -> l = l'.
Proof.
  intros H. revert l'. induction H as [p H|p q l H _ IH]; intros l' H'; inversion H'; subst; auto.
  - exfalso. eapply H. eauto.
  - exfalso. match goal with K : forall q, ~ _ |- _ => now apply (K q) end.
  - f_equal. apply IH.
    match goal with K : parent_dir p ?z |- _ => rewrite <- (parent_dir_unique p z q) in *; auto end.
Qed.
Lemma search_order_unique cwd home a b : search_order cwd home a -> search_order cwd home b -> a = b.
Proof.
  intros (u & H1 & H2) (u' & H1' & H2'). rewrite <- (upwards_unique _ _ _ H1 H1') in H2'.
  eapply home_last_unique; eauto.
Qed.

(** ** Termination *)
Fixpoint after_calls ex (n : nat) (s : walk_state) : walk_state :=
  match n with
  | O => s
  | S n' => after_calls ex n' (snd (walk_next ex s))
  end.
(** The result of call number [n] (starting at 0). *)
Definition call ex (s : walk_state) (n : nat) : option path := fst (walk_next ex (after_calls ex n s)).

Lemma walk_next_done ex s : fst (walk_next ex s) = None -> snd (walk_next ex s) = mkWalk [] None.
Proof.
  unfold walk_next. pose proof (walk_next_list ex (wk_ancestors s) (wk_home s)) as K.
  destruct (walk_next_from ex (wk_ancestors s) (wk_home s)) as [[p|] s']; [easy|]. now destruct K.
Qed.
Lemma after_calls_done ex n : after_calls ex n (mkWalk [] None) = mkWalk [] None.
Proof. induction n; auto. Qed.
Lemma after_calls_add ex n m s : after_calls ex (n + m) s = after_calls ex m (after_calls ex n s).
Proof. revert s; induction n as [|n IH]; intros s; cbn; auto. Qed.

Lemma walk_fused ex s n m : call ex s n = None -> n <= m -> call ex s m = None.
Proof.
  intros H Hm. destruct (Nat.eq_dec n m) as [->|Hne]; [easy|].
  replace m with (n + S (m - n - 1)) by lia. unfold call in *. rewrite after_calls_add.
  cbn [after_calls]. rewrite (walk_next_done _ _ H), after_calls_done. reflexivity.
Qed.

Lemma calls_list ex s n :
  call ex s n = nth_error (walk_list ex (wk_ancestors s) (wk_home s)) n.
Proof.
  revert s; induction n as [|n IH]; intros s; unfold call; cbn [after_calls].
  - unfold walk_next. pose proof (walk_next_list ex (wk_ancestors s) (wk_home s)) as K.
    destruct (walk_next_from ex (wk_ancestors s) (wk_home s)) as [[p|] s'].
    + destruct K as [-> _]. reflexivity.
    + destruct K as [-> _]. reflexivity.
  - fold (call ex (snd (walk_next ex s)) n). rewrite IH.
    unfold walk_next. pose proof (walk_next_list ex (wk_ancestors s) (wk_home s)) as K.
    destruct (walk_next_from ex (wk_ancestors s) (wk_home s)) as [[p|] s'].
    + destruct K as [-> _]. reflexivity.
    + destruct K as [-> ->]. cbn. now destruct n.
Qed.
Lemma calls_all ex s n : call ex s n = nth_error (walk_all ex s) n.
Proof. rewrite walk_all_list. apply calls_list. Qed.

Lemma ancestors_length p : length (ancestors p) <= length p + 1.
Proof.
  unfold ancestors. assert (K : forall n q, length (ancestors_fuel n q) <= S n).
  { induction n as [|n IH]; intros q; cbn; [lia|]. destruct (parent q) as [r|]; cbn; [|lia].
    specialize (IH r). lia. }
  specialize (K (length p) p). lia.
Qed.
Lemma walk_all_length ex cwd home : length (walk_all ex (walk_init cwd home)) <= length cwd + 2.
Proof.
  rewrite walk_all_list. unfold walk_list. rewrite app_length. cbn [wk_ancestors walk_init wk_home].
  pose proof (ancestors_length cwd).
  assert (K : forall (ds : list path), length (flat_map (fun d => opt_list (config_path ex d)) ds) <= length ds).
  { induction ds as [|d ds IH]; cbn; [lia|]. rewrite app_length. destruct (config_path ex d); cbn; lia. }
  specialize (K (map (fun a => join a (B ".cargo")) (ancestors cwd))). rewrite map_length in K.
  unfold path in *.
  destruct (dedup_all home _) as [h|]; [destruct (config_path ex h)|]; cbn [opt_list length]; lia.
Qed.
Lemma walk_terminates ex cwd home n : length cwd + 2 <= n -> call ex (walk_init cwd home) n = None.
Proof.
  intros H. rewrite calls_all. apply nth_error_None. pose proof (walk_all_length ex cwd home). lia.
Qed.

(** ** CARGO_HOME *)
Lemma exists_map h l :
  Exists (fun d => same_place h (dot_cargo d)) l <-> Exists (same_place h) (map dot_cargo l).
Proof. rewrite Exists_map. easy. Qed.

Lemma home_seen_same ex (cwd h : path) :
  Exists (fun d => same_place h (dot_cargo d)) (ancestors cwd) ->
  walk_all ex (walk_init cwd (Some h)) = walk_all ex (walk_init cwd None).
Proof.
  intros H. apply exists_map in H.
  rewrite !walk_all_list. unfold walk_list. cbn [wk_ancestors wk_home walk_init].
  rewrite dot_cargo_map. rewrite dedup_all_none.
  destruct (dedup_all_some h (map dot_cargo (ancestors cwd))) as [[E _]|[_ N]]; [|easy].
  now rewrite E.
Qed.
Lemma home_new_last ex (cwd h : path) f :
  ~ Exists (fun d => same_place h (dot_cargo d)) (ancestors cwd) ->
  file_in ex h f ->
  walk_all ex (walk_init cwd (Some h)) = walk_all ex (walk_init cwd None) ++ f.
Proof.
  intros H Hf. rewrite exists_map in H.
  rewrite !walk_all_list. unfold walk_list. cbn [wk_ancestors wk_home walk_init].
  rewrite dot_cargo_map. rewrite dedup_all_none.
  destruct (dedup_all_some h (map dot_cargo (ancestors cwd))) as [[_ E]|[E N]]; [easy|].
  rewrite E, app_nil_r. f_equal. eapply file_in_unique; [apply config_path_file | exact Hf].
Qed.

Lemma cargo_home_spec home_var home_dir cwd :
  cargo_home_with_cwd home_var home_dir cwd
  = match home_var with
    | Some (c :: h) => Some (if Ascii.eqb c separator then c :: h else child cwd (c :: h))
    | _ => match home_dir with Some d => Some (child d (B ".cargo")) | None => None end
    end.
Proof.
  unfold cargo_home_with_cwd.
  assert (K : forall d, join d (B ".cargo") = child d (B ".cargo")) by (intros; now apply join_child).
  destruct home_var as [[|c h]|]; cbn [is_empty].
  - destruct home_dir; now rewrite ?K.
  - destruct (is_absolute (c :: h)) eqn:E.
    + cbn in E. change slash with separator in E. now rewrite E.
    + pose proof E as E'. cbn in E. change slash with separator in E. rewrite E.
      now rewrite join_child.
  - destruct home_dir; now rewrite ?K.
Qed.
Lemma cargo_home_absolute home_var home_dir cwd h :
  is_absolute cwd = true ->
  (forall d, home_dir = Some d -> is_absolute d = true) ->
  cargo_home_with_cwd home_var home_dir cwd = Some h -> is_absolute h = true.
Proof.
  intros Hc Hd. unfold cargo_home_with_cwd.
  assert (K : forall r, match home_dir with Some d => Some (join d (B ".cargo")) | None => None end = Some r ->
              is_absolute r = true).
  { destruct home_dir as [d|]; [|easy]. intros r [= <-]. apply join_is_absolute. auto. }
  destruct home_var as [v|]; [|apply K]. destruct (is_empty v); [apply K|].
  destruct (is_absolute v) eqn:E; intros [= <-]; [exact E|]. apply join_is_absolute. auto.
Qed.
