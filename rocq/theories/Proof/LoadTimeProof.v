From Coq Require Import List Lia.
From Verif.Model Require Import Base Str Path BMap Error Value De Merge SetPath Serde Walk Load Context ApplyEnv Easy LoadTime.
From Verif.Spec Require Import StrSpec PathSpec WalkSpec LoadTimeSpec.
From Verif.Proof Require Import StrFacts PathFacts WalkProof RootProof.
Import ListNotations.

(** ** The directories searched are different places *)
Lemma child_reads d a l n : PathSpec.reads_as d a l -> PathSpec.name_ok n ->
  PathSpec.reads_as (child d n) a (l ++ [n]).
Proof.
  intros R N. destruct d as [|c d]; [|now apply reads_as_child].
  destruct (reads_as_unique _ _ _ _ _ R reads_as_nil) as [-> ->]. now apply reads_as_name.
Qed.
Lemma reads_some p : exists a l, PathSpec.reads_as p a l.
Proof.
  eexists _, _. apply reads_as_iff. split; reflexivity.
Qed.
Lemma child_same d n d' n' : PathSpec.name_ok n -> PathSpec.name_ok n' ->
  same_place (child d n) (child d' n') -> same_place d d' /\ n = n'.
Proof.
  intros N N' (a & l & R & R').
  destruct (reads_some d) as (b & m & Q), (reads_some d') as (b' & m' & Q').
  destruct (reads_as_unique _ _ _ _ _ R (child_reads _ _ _ _ Q N)) as [-> ->].
  destruct (reads_as_unique _ _ _ _ _ R' (child_reads _ _ _ _ Q' N')) as [-> E].
  apply app_inj_tail in E as [-> ->]. split; [|easy]. now exists b', m'.
Qed.
Lemma same_place_refl p : same_place p p.
Proof. destruct (reads_some p) as (a & l & R). now exists a, l. Qed.
Lemma same_place_sym p q : same_place p q -> same_place q p.
Proof. intros (a & l & H & K). now exists a, l. Qed.
Lemma child_eq d n d' n' : PathSpec.name_ok n -> PathSpec.name_ok n' ->
  child d n = child d' n' -> same_place d d' /\ n = n'.
Proof. intros N N' E. apply child_same; auto. rewrite E. apply same_place_refl. Qed.

Lemma name_config : PathSpec.name_ok (B "config").
Proof. repeat split; try discriminate. cbn. intuition discriminate. Qed.
Lemma name_config_toml : PathSpec.name_ok (B "config.toml").
Proof. repeat split; try discriminate. cbn. intuition discriminate. Qed.
Lemma name_cargo : PathSpec.name_ok (B ".cargo").
Proof. repeat split; try discriminate. cbn. intuition discriminate. Qed.
Lemma config_names n : n = B "config" \/ n = B "config.toml" -> PathSpec.name_ok n.
Proof. intros [->| ->]; [apply name_config|apply name_config_toml]. Qed.

(** Number of names, a leading dot counting as one. *)
Definition height (a : anchor) (l : list str) : nat :=
  length l + match a with AtDot => 1 | _ => 0 end.
Lemma parent_height p q a l b m : parent_dir p q ->
  PathSpec.reads_as p a l -> PathSpec.reads_as q b m -> height b m < height a l.
Proof.
  intros (_ & _ & [(c & k & n & H1 & H2)|[H1 ->]]) R R'.
  - destruct (reads_as_unique _ _ _ _ _ R H1) as [-> ->].
    destruct (reads_as_unique _ _ _ _ _ R' H2) as [-> ->].
    unfold height. rewrite app_length. cbn. lia.
  - destruct (reads_as_unique _ _ _ _ _ R H1) as [-> ->].
    destruct (reads_as_unique _ _ _ _ _ R' reads_as_nil) as [-> ->]. unfold height. cbn. lia.
Qed.
Lemma upwards_height p l : upwards p l -> forall q, In q l -> q = p \/
  forall a m b k, PathSpec.reads_as p a m -> PathSpec.reads_as q b k -> height b k < height a m.
Proof.
  induction 1 as [p N|p q l P U IH]; intros r [<-|I]; auto; [easy|]. right.
  intros a m b k R R'. destruct (reads_some q) as (c & o & Q).
  pose proof (parent_height _ _ _ _ _ _ P R Q) as L.
  destruct (IH r I) as [->|K].
  - now destruct (reads_as_unique _ _ _ _ _ R' Q) as [-> ->].
  - specialize (K _ _ _ _ Q R'). lia.
Qed.

(** Pairwise different places. *)
Inductive apart : list str -> Prop :=
| apart_nil : apart []
| apart_cons d ds : ~ Exists (same_place d) ds -> apart ds -> apart (d :: ds).

Lemma upwards_apart p l : upwards p l -> apart (map dot_cargo l).
Proof.
  induction 1 as [p N|p q l P U IH]; cbn [map]; constructor; auto.
  - intros H. inversion H.
  - constructor.
  - intros H. apply Exists_exists in H as (r & I & S). apply in_map_iff in I as (s & <- & I).
    apply child_same in S as [(a & m & R & R') _]; [|apply name_cargo|apply name_cargo].
    destruct (reads_some q) as (c & o & Q).
    pose proof (parent_height _ _ _ _ _ _ P R Q) as L.
    destruct (upwards_height _ _ U s I) as [->|K].
    + destruct (reads_as_unique _ _ _ _ _ R' Q) as [-> ->]. lia.
    + specialize (K _ _ _ _ Q R'). lia.
Qed.
Lemma apart_snoc ds h : apart ds -> ~ Exists (same_place h) ds -> apart (ds ++ [h]).
Proof.
  induction 1 as [|d ds N A IH]; intros H; cbn [app].
  - constructor; [|constructor]. intros K. inversion K.
  - constructor.
    + intros K. apply Exists_app in K as [K|K]; [easy|]. inversion K; subst; [|now apply Exists_nil in H1].
      apply H. left. now apply same_place_sym.
    + apply IH. intros K. apply H. now right.
Qed.
Lemma search_apart cwd home ds : search_order cwd home ds -> apart ds.
Proof.
  intros (l & U & H). apply upwards_apart in U. inversion H; subst; auto. now apply apart_snoc.
Qed.

(** ** The loop over the directories *)
Section Loop.
  Variable F : nat -> fs.

  (** What happens to a file that was found. *)
  Definition found (p : path) (tr : asked) (base : option (path * config))
    (k : asked -> option (path * config) -> result config * asked) : result config * asked :=
    match load_file (F (length tr)) p with
    | Ok c =>
        match base with
        | None => k (ORead p :: tr) (Some (p, c))
        | Some (base_path, b) =>
            match with_context
                    (MText (B "failed to merge config from " ++ bt (lossy p)
                            ++ B " into " ++ bt (lossy base_path)))
                    (merge_config b c false) with
            | Ok b' => k (ORead p :: tr) (Some (base_path, b'))
            | Err e => (Err e, ORead p :: tr)
            | Panic x => (Panic x, ORead p :: tr)
            end
        end
    | Err e => (Err e, ORead p :: tr)
    | Panic x => (Panic x, ORead p :: tr)
    end.
  Definition finish (base : option (path * config)) : result config :=
    Ok (match base with Some (_, c) => c | None => config_default end).

  Fixpoint dirs_loop (ds : list path) (tr : asked) (base : option (path * config)) : result config * asked :=
    match ds with
    | [] => (finish base, tr)
    | d :: ds' =>
        match config_path_t F tr d with
        | (None, tr1) => dirs_loop ds' tr1 base
        | (Some p, tr1) => found p tr1 base (dirs_loop ds')
        end
    end.

  Definition dirs (anc : list path) (home : option path) : list path :=
    let ds := map (fun a => join a (B ".cargo")) anc in ds ++ opt_list (dedup_all home ds).
  Lemma dirs_cons a anc home : dirs (a :: anc) home
    = join a (B ".cargo") :: dirs anc (dedup_home home (join a (B ".cargo"))).
  Proof. reflexivity. Qed.

  Lemma next_dirs anc home tr base :
    match walk_next_t F tr anc home with
    | (None, _, tr1) => dirs_loop (dirs anc home) tr base = (finish base, tr1)
    | (Some p, s, tr1) =>
        dirs_loop (dirs anc home) tr base = found p tr1 base (dirs_loop (dirs (wk_ancestors s) (wk_home s)))
        /\ (length (wk_ancestors s) < length anc \/ s = mkWalk [] None)
    end.
  Proof.
    revert home tr; induction anc as [|a anc IH]; intros home tr.
    - cbn [walk_next_t]. destruct home as [h|]; cbn; [|reflexivity].
      destruct (config_path_t F tr h) as [[c|] tr1]; auto.
    - rewrite dirs_cons. cbn [walk_next_t dirs_loop].
      destruct (config_path_t F tr (join a (B ".cargo"))) as [[c|] tr1].
      + cbn [wk_ancestors wk_home]. split; auto.
      + specialize (IH (dedup_home home (join a (B ".cargo"))) tr1).
        destruct (walk_next_t F tr1 anc (dedup_home home (join a (B ".cargo")))) as [[[p|] s] tr2]; auto.
        destruct IH as [-> [L|L]]; split; auto; left; cbn; lia.
  Qed.
  Lemma found_ext p tr base k k' : (forall t b, k t b = k' t b) -> found p tr base k = found p tr base k'.
  Proof.
    intros H. unfold found. destruct (load_file _ _); auto. destruct base as [[bp b]|]; auto.
    destruct (with_context _ _); auto.
  Qed.
  Lemma load_loop_dirs n s tr base : length (wk_ancestors s) + 2 <= n ->
    load_loop n F tr s base = dirs_loop (dirs (wk_ancestors s) (wk_home s)) tr base.
  Proof.
    revert s tr base; induction n as [|n IH]; intros s tr base L; [lia|]. cbn [load_loop].
    pose proof (next_dirs (wk_ancestors s) (wk_home s) tr base) as K.
    destruct (walk_next_t F tr (wk_ancestors s) (wk_home s)) as [[[p|] s'] tr1]; [|now rewrite K].
    destruct K as [-> L'].
    assert (Q : forall t b, load_loop n F t s' b = dirs_loop (dirs (wk_ancestors s') (wk_home s')) t b).
    { intros t b. destruct L' as [L'| ->]; [apply IH; lia|]. destruct n; [lia|]. reflexivity. }
    rewrite <- (found_ext _ _ _ _ _ Q). reflexivity.
  Qed.
  Lemma over_time_dirs cwd home :
    load_over_time F cwd home = dirs_loop (dirs (ancestors cwd) home) [] None.
  Proof. unfold load_over_time. now rewrite load_loop_dirs. Qed.

  (** *** What is asked *)
  Definition dir_ops (d : path) (tr : asked) : option path * asked -> Prop := fun r =>
    (r = (Some (child d (B "config")), OExists (child d (B "config")) :: tr)
     /\ fs_exists (F (length tr)) (child d (B "config")) = true)
    \/ (r = (Some (child d (B "config.toml")),
             OExists (child d (B "config.toml")) :: OExists (child d (B "config")) :: tr)
        /\ fs_exists (F (S (length tr))) (child d (B "config.toml")) = true)
    \/ (r = (None, OExists (child d (B "config.toml")) :: OExists (child d (B "config")) :: tr)
        /\ fs_exists (F (length tr)) (child d (B "config")) = false
        /\ fs_exists (F (S (length tr))) (child d (B "config.toml")) = false).
  Lemma config_path_ops d tr : dir_ops d tr (config_path_t F tr d).
  Proof.
    unfold config_path_t, dir_ops. rewrite !join_child by reflexivity. cbn [length].
    destruct (fs_exists (F (length tr)) (child d (B "config"))) eqn:E1; [now left|].
    destruct (fs_exists (F (S (length tr))) (child d (B "config.toml"))) eqn:E2; right; [left|right]; auto.
  Qed.

  Lemma found_cases p tr base k r :
    found p tr base k = r -> snd r = ORead p :: tr \/ exists b, r = k (ORead p :: tr) (Some b).
  Proof.
    unfold found. intros <-. destruct (load_file _ _); auto. destruct base as [[bp b]|]; eauto.
    destruct (with_context _ _); eauto.
  Qed.

  (** The shape of what is asked: directory by directory. *)
  Inductive dirs_asked : list path -> asked -> asked -> Prop :=
  | da_end ds tr : dirs_asked ds tr tr
  | da_none d ds tr tr' :
      dirs_asked ds (OExists (child d (B "config.toml")) :: OExists (child d (B "config")) :: tr) tr' ->
      dirs_asked (d :: ds) tr tr'
  | da_plain d ds tr tr' :
      fs_exists (F (length tr)) (child d (B "config")) = true ->
      dirs_asked ds (ORead (child d (B "config")) :: OExists (child d (B "config")) :: tr) tr' ->
      dirs_asked (d :: ds) tr tr'
  | da_toml d ds tr tr' :
      fs_exists (F (S (length tr))) (child d (B "config.toml")) = true ->
      dirs_asked ds (ORead (child d (B "config.toml")) :: OExists (child d (B "config.toml"))
                       :: OExists (child d (B "config")) :: tr) tr' ->
      dirs_asked (d :: ds) tr tr'.
  Lemma dirs_loop_asked ds tr base : dirs_asked ds tr (snd (dirs_loop ds tr base)).
  Proof.
    revert tr base; induction ds as [|d ds IH]; intros tr base; [constructor|]. cbn [dirs_loop].
    destruct (config_path_ops d tr) as [[-> X]|[[-> X]|[-> _]]].
    - destruct (found_cases _ _ _ _ _ (eq_refl (found (child d (B "config"))
        (OExists (child d (B "config")) :: tr) base (dirs_loop ds)))) as [->|(b & ->)];
        apply da_plain; auto; try apply IH; constructor.
    - destruct (found_cases _ _ _ _ _ (eq_refl (found (child d (B "config.toml"))
        (OExists (child d (B "config.toml")) :: OExists (child d (B "config")) :: tr) base (dirs_loop ds))))
        as [->|(b & ->)]; apply da_toml; auto; try apply IH; constructor.
    - apply da_none. apply IH.
  Qed.

  Lemma about_ex d ds n : n = B "config" \/ n = B "config.toml" -> about (d :: ds) (OExists (child d n)).
  Proof. intros H. exists d, n. split; [now left|]. auto. Qed.
  Lemma about_rd d ds n : n = B "config" \/ n = B "config.toml" -> about (d :: ds) (ORead (child d n)).
  Proof. intros H. exists d, n. split; [now left|]. auto. Qed.
  Lemma dirs_asked_about ds tr tr' : dirs_asked ds tr tr' ->
    exists new, tr' = new ++ tr /\ Forall (about ds) new.
  Proof.
    assert (W : forall d ds l, Forall (about ds) l -> Forall (about (d :: ds)) l).
    { intros d ds0 l. apply Forall_impl. intros o (x & n & I & R). exists x, n. split; [now right|easy]. }
    induction 1 as [ds tr|d ds tr tr' D IH|d ds tr tr' X D IH|d ds tr tr' X D IH].
    - now exists [].
    - destruct IH as (new & -> & H). eexists (new ++ [_; _]). rewrite <- app_assoc. split; [reflexivity|].
      apply Forall_app. split; [now apply W|].
      repeat (apply Forall_cons || apply Forall_nil); auto using about_ex, about_rd.
    - destruct IH as (new & -> & H). eexists (new ++ [_; _]). rewrite <- app_assoc. split; [reflexivity|].
      apply Forall_app. split; [now apply W|].
      repeat (apply Forall_cons || apply Forall_nil); auto using about_ex, about_rd.
    - destruct IH as (new & -> & H). eexists (new ++ [_; _; _]). rewrite <- app_assoc. split; [reflexivity|].
      apply Forall_app. split; [now apply W|].
      repeat (apply Forall_cons || apply Forall_nil); auto using about_ex, about_rd.
  Qed.
  Lemma dirs_asked_mono ds tr tr' : dirs_asked ds tr tr' -> exists new, tr' = new ++ tr.
  Proof. intros D. destruct (dirs_asked_about _ _ _ D) as (new & E & _). eauto. Qed.

  Lemma about_other d ds n o : ~ Exists (same_place d) ds -> about ds o ->
    n = B "config" \/ n = B "config.toml" -> o <> OExists (child d n) /\ o <> ORead (child d n).
  Proof.
    intros N (x & m & I & Hm & H) Hn.
    assert (D : child x m <> child d n).
    { intros E. apply child_eq in E as [E _]; auto using config_names.
      apply N, Exists_exists. exists x. auto using same_place_sym. }
    destruct H as [-> | ->]; split; congruence.
  Qed.
  Lemma nodup_app {A} (l1 l2 : list A) : NoDup l1 -> NoDup l2 -> (forall x, In x l1 -> ~ In x l2) ->
    NoDup (l1 ++ l2).
  Proof.
    induction 1 as [|x l N D IH]; intros D2 H; cbn; auto. constructor.
    - rewrite in_app_iff. intros [K|K]; [easy|]. apply (H x); [now left|easy].
    - apply IH; auto. intros y Y. apply H. now right.
  Qed.
  Lemma names_differ d : child d (B "config") <> child d (B "config.toml").
  Proof. intros E. apply child_eq in E as [_ E]; [discriminate|apply name_config|apply name_config_toml]. Qed.

  Lemma dirs_asked_once ds tr tr' : apart ds -> dirs_asked ds tr tr' ->
    exists new, tr' = new ++ tr /\ NoDup new.
  Proof.
    intros A D. revert A.
    induction D as [ds tr|d ds tr tr' D IH|d ds tr tr' X D IH|d ds tr tr' X D IH]; intros A.
    { exists []. split; [easy|constructor]. }
    all: inversion A as [|x xs N A']; subst; destruct (IH A') as (new & E & U);
      destruct (dirs_asked_about _ _ _ D) as (new' & E' & Ab); rewrite E in E';
      apply app_inv_tail in E'; subst new'.
    all: pose proof (names_differ d) as ND.
    all: assert (O : forall o, In o new -> forall n, n = B "config" \/ n = B "config.toml" ->
             o <> OExists (child d n) /\ o <> ORead (child d n))
          by (intros o Io n Hn; rewrite Forall_forall in Ab; eapply about_other; eauto).
    all: pose proof (fun o Io => O o Io _ (or_introl eq_refl)) as O1;
         pose proof (fun o Io => O o Io _ (or_intror eq_refl)) as O2.
    - eexists (new ++ [_; _]). rewrite <- app_assoc. split; [rewrite E; reflexivity|].
      apply nodup_app; auto.
      + repeat (apply NoDup_nil || apply NoDup_cons); cbn [In]; intuition congruence.
      + intros o Io [<-|[<-|[]]]; [apply (proj1 (O2 _ Io))|apply (proj1 (O1 _ Io))]; reflexivity.
    - eexists (new ++ [_; _]). rewrite <- app_assoc. split; [rewrite E; reflexivity|].
      apply nodup_app; auto.
      + repeat (apply NoDup_nil || apply NoDup_cons); cbn [In]; intuition congruence.
      + intros o Io [<-|[<-|[]]]; [apply (proj2 (O1 _ Io))|apply (proj1 (O1 _ Io))]; reflexivity.
    - eexists (new ++ [_; _; _]). rewrite <- app_assoc. split; [rewrite E; reflexivity|].
      apply nodup_app; auto.
      + repeat (apply NoDup_nil || apply NoDup_cons); cbn [In]; intuition congruence.
      + intros o Io [<-|[<-|[<-|[]]]];
          [apply (proj2 (O2 _ Io))|apply (proj1 (O2 _ Io))|apply (proj1 (O1 _ Io))]; reflexivity.
  Qed.

  (** *** Reads follow a positive answer *)
  Definition confirmed (tr : asked) : Prop :=
    forall newer p older, tr = newer ++ ORead p :: older ->
      exists older', older = OExists p :: older' /\ fs_exists (F (length older')) p = true.
  Lemma confirmed_exists p tr : confirmed tr -> confirmed (OExists p :: tr).
  Proof.
    intros C [|o newer] q older E; [discriminate|]. injection E as <- E. now apply (C newer).
  Qed.
  Lemma confirmed_read p tr : fs_exists (F (length tr)) p = true -> confirmed tr ->
    confirmed (ORead p :: OExists p :: tr).
  Proof.
    intros X C [|o newer] q older E.
    - injection E as <- <-. eauto.
    - injection E as <- E. now apply (confirmed_exists p tr C newer).
  Qed.
  Lemma dirs_asked_confirmed ds tr tr' : dirs_asked ds tr tr' -> confirmed tr -> confirmed tr'.
  Proof.
    induction 1; intros C; auto.
    - apply IHdirs_asked. auto using confirmed_exists.
    - apply IHdirs_asked. now apply confirmed_read.
    - apply IHdirs_asked. apply confirmed_read; auto using confirmed_exists.
  Qed.

  (** *** The same as loading of the answers *)
  Variable f : fs.
  Lemma answered_suffix new tr : answered F f (new ++ tr) -> answered F f tr.
  Proof. intros H newer op older ->. apply (H (new ++ newer)). now rewrite app_assoc. Qed.
  Lemma answered_in newer op older : answered F f (newer ++ op :: older) ->
    match op with
    | OExists p => fs_exists f p = fs_exists (F (length older)) p
    | ORead p => fs_read f p = fs_read (F (length older)) p
    end.
  Proof. intros H. now apply (H newer). Qed.

  Definition load_from (base : option (path * config)) (ps : list path) : result config :=
    match base with
    | None => load_files f ps
    | Some (bp, b) => load_rest f bp b ps
    end.
  Lemma load_from_nil base : load_from base [] = finish base.
  Proof. now destruct base as [[bp b]|]. Qed.
  Lemma dirs_loop_answered ds tr base :
    answered F f (snd (dirs_loop ds tr base)) ->
    fst (dirs_loop ds tr base) = load_from base (flat_map (fun d => opt_list (config_path (fs_exists f) d)) ds).
  Proof.
    revert tr base; induction ds as [|d ds IH]; intros tr base; cbn [dirs_loop flat_map].
    { intros _. symmetry. apply load_from_nil. }
    pose proof (config_path_ops d tr) as O. unfold dir_ops in O.
    assert (CP : forall p tr1 r, config_path_t F tr d = (r, tr1) -> answered F f (p ++ tr1) ->
               config_path (fs_exists f) d = r).
    { intros p tr1 r E A. apply answered_suffix in A.
      unfold config_path_t in E. unfold config_path.
      destruct (fs_exists (F (length tr)) (join d (B "config"))) eqn:E1.
      - pose proof (f_equal fst E) as R1; pose proof (f_equal snd E) as R2; cbn [fst snd] in R1, R2; subst r tr1.
        pose proof (answered_in [] _ _ A) as A1. cbv beta iota in A1. rewrite A1, E1. reflexivity.
      - pose proof (f_equal fst E) as R1; pose proof (f_equal snd E) as R2; cbn [fst snd] in R1, R2; subst r tr1.
        pose proof (answered_in [] _ _ A) as A1.
        pose proof (answered_in [_] _ _ A) as A2. cbv beta iota in A1, A2. rewrite A2, E1, A1. reflexivity. }
    destruct (config_path_t F tr d) as [[p|] tr1].
    - intros A.
      assert (M : exists new, snd (found p tr1 base (dirs_loop ds)) = new ++ ORead p :: tr1).
      { destruct (found_cases _ _ _ _ _ (eq_refl (found p tr1 base (dirs_loop ds)))) as [->|(b & ->)].
        - now exists [].
        - eapply dirs_asked_mono, dirs_loop_asked. }
      destruct M as (new & M). pose proof A as A'. rewrite M in A'.
      assert (R := answered_in _ _ _ A').
      rewrite (CP (new ++ [ORead p]) tr1 (Some p) eq_refl) by (rewrite <- app_assoc; exact A').
      cbn [opt_list app].
      unfold found in *. unfold load_from.
      assert (E : load_file f p = load_file (F (length tr1)) p) by (unfold load_file; now rewrite R).
      destruct base as [[bp b]|]; cbn [load_files load_rest]; rewrite E;
        destruct (load_file (F (length tr1)) p) as [c|e|x]; cbn [bind fst snd] in *; try reflexivity.
      + destruct (with_context _ (merge_config b c false)) as [b'|e|x]; cbn [bind fst snd] in *; try reflexivity.
        rewrite IH by exact A. reflexivity.
      + rewrite IH by exact A. reflexivity.
    - intros A.
      destruct (dirs_asked_mono _ _ _ (dirs_loop_asked ds tr1 base)) as (new & M).
      pose proof A as A'. rewrite M in A'.
      rewrite (CP new tr1 None eq_refl A'). cbn [opt_list app]. now apply IH.
  Qed.
End Loop.

Lemma walk_all_dirs ex cwd home :
  walk_all ex (walk_init cwd home) = flat_map (fun d => opt_list (config_path ex d)) (dirs (ancestors cwd) home).
Proof.
  rewrite walk_all_list. unfold walk_list, dirs. cbn [wk_ancestors wk_home walk_init].
  rewrite flat_map_app. f_equal. destruct (dedup_all _ _); cbn; [now rewrite app_nil_r|easy].
Qed.
Lemma dirs_search cwd home : search_order cwd home (dirs (ancestors cwd) home).
Proof.
  exists (ancestors cwd). split; [apply ancestors_up|]. unfold dirs. rewrite dot_cargo_map.
  destruct (home_last_ex (map dot_cargo (ancestors cwd)) home) as (ds & H & E).
  unfold opt_list. rewrite <- E. exact H.
Qed.

Lemma over_time_answered F f cwd home :
  answered F f (snd (load_over_time F cwd home)) ->
  fst (load_over_time F cwd home) = load_with_options f cwd home.
Proof.
  rewrite over_time_dirs. intros A. rewrite (dirs_loop_answered _ f) by exact A.
  unfold load_with_options. now rewrite walk_all_dirs.
Qed.
Lemma over_time_once F cwd home : NoDup (snd (load_over_time F cwd home)).
Proof.
  rewrite over_time_dirs.
  destruct (dirs_asked_once F (dirs (ancestors cwd) home) [] _
              (search_apart _ _ _ (dirs_search cwd home)) (dirs_loop_asked F _ [] None)) as (new & E & U).
  rewrite E, app_nil_r. exact U.
Qed.
Lemma over_time_about F cwd home ds : search_order cwd home ds ->
  Forall (about ds) (snd (load_over_time F cwd home)).
Proof.
  intros S. rewrite (search_order_unique _ _ _ _ S (dirs_search cwd home)).
  rewrite over_time_dirs.
  destruct (dirs_asked_about F _ _ _ (dirs_loop_asked F (dirs (ancestors cwd) home) [] None)) as (new & E & H).
  rewrite E, app_nil_r. exact H.
Qed.
Lemma over_time_confirmed F cwd home : confirmed F (snd (load_over_time F cwd home)).
Proof.
  rewrite over_time_dirs. eapply dirs_asked_confirmed; [apply dirs_loop_asked|].
  intros newer p older E. now destruct newer.
Qed.

(** ** A file system giving the answers that were given *)
Definition op_eq_dec (a b : fs_op) : {a = b} + {a <> b}.
Proof. decide equality; apply str_eq_dec. Defined.
(** When [o] was asked, if it was. *)
Fixpoint asked_at (o : fs_op) (tr : asked) : nat :=
  match tr with
  | [] => 0
  | o' :: older => if op_eq_dec o o' then length older else asked_at o older
  end.
Lemma asked_at_in newer o older : NoDup (newer ++ o :: older) ->
  asked_at o (newer ++ o :: older) = length older.
Proof.
  induction newer as [|x newer IH]; cbn [app asked_at]; intros N.
  - now destruct (op_eq_dec o o).
  - inversion N; subst. destruct (op_eq_dec o x) as [->|_]; [|now apply IH].
    exfalso. apply H1, in_app_iff. right. now left.
Qed.
Definition seen (F : nat -> fs) (tr : asked) : fs :=
  mkFsys (fun p => fs_exists (F (asked_at (OExists p) tr)) p)
         (fun p => fs_read (F (asked_at (ORead p) tr)) p).
Lemma seen_answered F tr : NoDup tr -> answered F (seen F tr) tr.
Proof.
  intros N newer op older ->. destruct op as [p|p]; cbn [seen fs_exists fs_read];
    now rewrite asked_at_in.
Qed.
Lemma seen_was_so F tr : was_so F (seen F tr).
Proof. split; intros p; eexists; reflexivity. Qed.

Lemma dirs_asked_count F ds tr tr' : dirs_asked F ds tr tr' -> length tr' <= 3 * length ds + length tr.
Proof. induction 1; cbn [length] in *; lia. Qed.
Lemma over_time_count F cwd home ds : search_order cwd home ds ->
  length (snd (load_over_time F cwd home)) <= 3 * length ds.
Proof.
  intros S. rewrite (search_order_unique _ _ _ _ S (dirs_search cwd home)). rewrite over_time_dirs.
  pose proof (dirs_asked_count F _ _ _ (dirs_loop_asked F (dirs (ancestors cwd) home) [] None)) as H.
  cbn [length] in H. rewrite Nat.add_0_r in H. exact H.
Qed.
Lemma over_time_settled F f cwd home ds : search_order cwd home ds ->
  (forall t d n, In d ds -> n = B "config" \/ n = B "config.toml" ->
     fs_exists (F t) (child d n) = fs_exists f (child d n) /\ fs_read (F t) (child d n) = fs_read f (child d n)) ->
  fst (load_over_time F cwd home) = load_with_options f cwd home.
Proof.
  intros S H. apply over_time_answered. intros newer op older E.
  pose proof (over_time_about F cwd home ds S) as A. rewrite E in A. apply Forall_app in A as [_ A].
  inversion A as [|x l (d & n & I & N & [->| ->]) _]; subst; symmetry; now apply H.
Qed.
Lemma over_time_snapshot F cwd home :
  exists f, was_so F f /\ answered F f (snd (load_over_time F cwd home))
            /\ fst (load_over_time F cwd home) = load_with_options f cwd home.
Proof.
  exists (seen F (snd (load_over_time F cwd home))).
  assert (A := seen_answered F _ (over_time_once F cwd home)).
  split; [apply seen_was_so|]. split; [exact A|]. now apply over_time_answered.
Qed.
Lemma easy_over_time_snapshot F p cwd o :
  exists f, was_so F f /\ easy_load_over_time F p cwd o = easy_load_with_options f p cwd o.
Proof.
  unfold easy_load_over_time, easy_load_with_options.
  destruct (over_time_snapshot F (cx_current_dir (into_context p o cwd))
              (cx_cargo_home p (into_context p o cwd) cwd)) as (f & W & _ & ->).
  now exists f.
Qed.
