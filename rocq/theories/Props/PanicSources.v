(** C64 from the files, the environment and the options: when loading panics, and when nothing does. *)
From Verif.Model Require Import Base Str BMap Error Value De Serde CfgExpr Triple EasyTypes Context ApplyEnv
  Walk Load Process Resolve Easy.
From Verif.Spec Require Import StrSpec PathSpec WalkSpec ConfigSpec LoadSpec EnvSpec Utf8Spec CfgSpec TripleSpec RootSpec
  TargetSpec QuerySpec PanicSpec FinalSpec PanicSourcesSpec.
From Verif.Proof Require Import Utf8Proof BMapFacts WalkProof LoadProof EnvProof EnvVarsProof MergeProof RootProof PanicProof FinalProof.
From Verif.Props Require Import Panic.
From Verif.Spec Require Import TargetSpec QuerySpec PanicSpec FinalSpec PanicSourcesSpec.

Lemma steps f p cwd o env l : sources f p cwd o env l -> let cx := into_context p o cwd in
  same_shapes (map snd l) /\ variables_readable env l <->
  exists c de, load_with_options f cwd (cx_cargo_home p cx cwd) = Ok c /\ apply_env (cx_env cx) c = Ok de.
Proof.
  intros S cx. destruct (sources_cx _ _ _ _ _ _ S) as (N & G & ps & V & R). fold cx in N, G, V. rewrite (visited_load f cwd _ ps V).
  split.
  - intros (Sh & R1 & R2 & R3).
    assert (E : is_ok (load_files f ps) = true) by (apply load_files_ok; eauto). apply fine_ok in E as (c & Hc).
    assert (L3 := load_program f ps c l Hc R).
    assert (Ok1 : is_ok (apply_env (cx_env cx) c) = true).
    { apply apply_env_ok; [assumption|]. split; [|split].
      - intros A k. apply (readable_ext _ _ _ G). apply R1.
      - intros k. apply (readable_ext _ _ _ G). apply R2.
      - intros K. apply (readable_ext _ _ _ G). apply R3. rewrite L3 in K. now apply no_browser. }
    apply fine_ok in Ok1 as (de & Ha). eauto.
  - intros (c & de & Hc & Ha). split.
    + assert (E : is_ok (load_files f ps) = true) by (now rewrite Hc). apply load_files_ok in E as (l' & R' & Sh).
      now rewrite (reads_unique f ps l l' R R').
    + assert (L3 := load_program f ps c l Hc R).
      assert (T : is_ok (apply_env (cx_env cx) c) = true) by (now rewrite Ha).
      apply apply_env_ok in T; [|assumption]. destruct T as (T1 & T2 & T3). split; [|split].
      * intros A k. apply (readable_ext _ _ _ (fun n => eq_sym (G n))). apply T1.
      * intros k. apply (readable_ext _ _ _ (fun n => eq_sym (G n))). apply T2.
      * intros K. apply (readable_ext _ _ _ (fun n => eq_sym (G n))). apply T3. rewrite L3. now apply no_browser.
Qed.
Lemma applied f p cwd o env l c de : sources f p cwd o env l -> let cx := into_context p o cwd in
  load_with_options f cwd (cx_cargo_home p cx cwd) = Ok c -> apply_env (cx_env cx) c = Ok de ->
  (forall A (k : scalar_key A), look k de = scalar_of env l k)
  /\ (forall k, look_list k de = words_of env l k)
  /\ (forall k, look_program k de = program_in_all env l k).
Proof.
  intros S cx Hc Ha. destruct (sources_cx _ _ _ _ _ _ S) as (N & G & ps & V & R). fold cx in N, G, V.
  rewrite (visited_load f cwd _ ps V) in Hc. split; [|split].
  - intros A k. rewrite (apply_env_scalar _ _ _ N Ha), (load_scalar f ps c l Hc R). symmetry. now apply scalar_after_ext.
  - intros k. rewrite (apply_env_list _ _ _ N Ha), (load_list f ps c l Hc R). symmetry. now apply words_after_ext.
  - intros k. rewrite (apply_env_program _ _ _ Ha), (load_program f ps c l Hc R). symmetry. now apply program_after_ext.
Qed.
(** Loading panics if, and only if, nothing else is wrong and a value has no meaning. *)
Theorem C64_load_sources f p cwd o env l x : sources f p cwd o env l ->
  easy_load_with_options f p cwd o = Panic x <->
  x = PUnwrapNone /\ same_shapes (map snd l) /\ variables_readable env l /\ unnamed_in cwd env l.
Proof.
  intros S. rewrite (C64_load f p cwd o x). assert (W := steps f p cwd o env l S). cbv zeta in *. split.
  - intros (-> & c & de & Hc & Ha & U). split; [reflexivity|].
    assert (Both : same_shapes (map snd l) /\ variables_readable env l) by (apply W; eauto).
    split; [apply Both|]. split; [apply Both|]. destruct (applied f p cwd o env l c de S Hc Ha) as (D1 & D2 & D3).
    destruct U as [k v I L P|k v I L P|ws L P|fm ws v L I P|n v r L Lr T P].
    + rewrite D1 in L. now apply unnamed_in_program with k v.
    + rewrite D1 in L. now apply unnamed_in_path with k v.
    + rewrite D3 in L. now apply unnamed_in_browser with ws.
    + rewrite D2 in L. now apply unnamed_in_target with fm ws v.
    + rewrite D1 in L, Lr. now apply unnamed_in_variable with n v r.
  - intros (-> & Sh & Vr & U). split; [reflexivity|]. destruct (proj1 W (conj Sh Vr)) as (c & de & Hc & Ha). exists c, de.
    split; [exact Hc|]. split; [exact Ha|]. destruct (applied f p cwd o env l c de S Hc Ha) as (D1 & D2 & D3).
    destruct U as [k v I L P|k v I L P|ws L P|fm ws v L I P|n v r L Lr T P].
    + rewrite <- D1 in L. now apply unnamed_program with k v.
    + rewrite <- D1 in L. now apply unnamed_path with k v.
    + rewrite <- D3 in L. now apply unnamed_browser with ws.
    + rewrite <- D2 in L. now apply unnamed_target with fm ws v.
    + rewrite <- D1 in L, Lr. now apply unnamed_variable with n v r.
Qed.
Print Assumptions C64_load_sources.

(** No question panics, in a build without checks, with a home below a root and names that are names. *)
Theorem C64_safe_sources f p cwd o env l ec pr w s q x :
  sources f p cwd o env l -> easy_load_with_options f p cwd o = Ok ec ->
  Forall (fun y => text_keys (c_target (snd y))) l ->
  (forall h, home_of p o cwd (Some h) -> ~ rootish h) ->
  overflow_checks pr = false -> debug_assertions pr = false ->
  reached pr w ec s -> real_query q ->
  (forall t, target_query q (ArgText t) \/ (exists args, q = QBuildTargetForConfig args /\ In (ArgText t) args) ->
     ~ nameless t) ->
  (forall h, q = QBuildTargetForConfig [] -> fst (run_query pr w ec QHostTriple s) = Ok (AStr h) -> ~ nameless h) ->
  fst (run_query pr w ec q s) <> Panic x.
Proof.
  intros S H U Hh Ov Da Rs Rq Nt Nh. set (cx := into_context p o cwd).
  assert (K := H). apply bind_okk in K as (c & Hl & Hc). fold cx in Hl, Hc. change (cx_current_dir cx) with cwd in Hl.
  assert (Uc : text_keys (c_target c)).
  { destruct (load_of_sources _ _ _ _ _ _ _ S H) as (c' & Hc' & _).
    assert (Tb := tables_loaded _ _ _ _ _ _ _ S H). destruct (from_unresolved_ok c _ ec Hc) as (de & Ha & _ & _ & _ & Et & _).
    rewrite Et, (proj2 (proj2 (apply_env_env _ _ _ Ha))) in Tb. destruct Tb as (Od & En & _).
    intros k v I. specialize (En k). apply in_order_sorted in Od. rewrite (sorted_in_bget _ _ _ Od I) in En. cbn in En.
    symmetry in En. apply existsb_exists in En as ((q0 & c0) & Ix & Hx).
    cbn in Hx. destruct (bget k (c_target c0)) as [v0|] eqn:E; [|discriminate]. apply bget_in in E.
    rewrite Forall_forall in U. exact (U _ Ix _ _ E). }
  apply (C64_safe f p cwd o c ec pr w s q x Hl Uc H); try assumption.
  - intros h E. apply Hh. now apply home_cx.
  - intros a t Q ->. apply Nt. now left.
  - intros args t E I. apply Nt. right. eauto.
Qed.
Print Assumptions C64_safe_sources.

(** ** Examples *)
Lemma ex_sources f p cwd o c : (forall e, o_env o = Some e -> one_value_each e) ->
  load_with_options f cwd (cx_cargo_home p (into_context p o cwd) cwd) = Ok c ->
  exists l, sources f p cwd o (cx_env (into_context p o cwd)) l.
Proof.
  intros No H. destruct (visited_ex f cwd (cx_cargo_home p (into_context p o cwd) cwd)) as (ps & V).
  rewrite (visited_load f cwd _ ps V) in H.
  assert (E : exists l, reads f ps l /\ same_shapes (map snd l)) by (apply load_files_ok; now rewrite H).
  destruct E as (l & R & _). exists l. split; [now apply environment_ex|].
  exists (cx_cargo_home p (into_context p o cwd) cwd), ps. split; [now apply home_cx|auto].
Qed.
(** The home is the root: the file in it has no directory its values could be relative to. *)
Example C64_ex_load_sources : exists env l,
  sources ex_root_env (mkProcess [] None) (B "/p") (ex_home (B "/")) env l
  /\ same_shapes (map snd l) /\ variables_readable env l /\ unnamed_in (B "/p") env l.
Proof.
  destruct (load_with_options ex_root_env (B "/p") (Some (B "/"))) as [c|e|y] eqn:E; [|vm_compute in E; discriminate..].
  destruct (ex_sources ex_root_env (mkProcess [] None) (B "/p") (ex_home (B "/")) c) as (l & S); [discriminate|exact E|].
  eexists. exists l. split; [exact S|].
  assert (P : easy_load_with_options ex_root_env (mkProcess [] None) (B "/p") (ex_home (B "/")) = Panic PUnwrapNone)
    by (vm_compute; reflexivity).
  apply (C64_load_sources _ _ _ _ _ _ _ S) in P. tauto.
Qed.
(** A configuration that loads, and from which no question panics. *)
Example C64_ex_safe_sources : exists env l ec,
  sources ex_safe_fs (mkProcess [] None) (B "/p") ex_below env l
  /\ easy_load_with_options ex_safe_fs (mkProcess [] None) (B "/p") ex_below = Ok ec
  /\ ~ unnamed_in (B "/p") env l
  /\ Forall (fun y => text_keys (c_target (snd y))) l
  /\ (forall h, home_of (mkProcess [] None) ex_below (B "/p") (Some h) -> ~ rootish h).
Proof.
  destruct (load_with_options ex_safe_fs (B "/p") (Some (B "/home/u/.cargo"))) as [c|e|y] eqn:E; [|vm_compute in E; discriminate..].
  destruct (easy_load_with_options ex_safe_fs (mkProcess [] None) (B "/p") ex_below) as [ec|e|y] eqn:E'; [|vm_compute in E'; discriminate..].
  destruct (ex_sources ex_safe_fs (mkProcess [] None) (B "/p") ex_below c) as (l & S); [discriminate|exact E|].
  eexists. exists l, ec. split; [exact S|]. split; [reflexivity|]. split; [|split].
  - intros K.
    assert (P := proj2 (C64_load_sources _ _ _ _ _ _ PUnwrapNone S)). rewrite E' in P.
    assert (W := proj2 (steps _ _ _ _ _ _ S)). cbv zeta in W.
    assert (Q : same_shapes (map snd l) /\ variables_readable (cx_env (into_context (mkProcess [] None) ex_below (B "/p"))) l).
    { apply W. apply bind_okk in E' as (c0 & Hl & Hc). destruct (from_unresolved_ok c0 _ ec Hc) as (de & Ha & _). eauto. }
    discriminate P. tauto.
  - destruct S as (_ & home & ps & Hh & V & R). apply visited_walk in V. apply home_cx in Hh. subst home. vm_compute in V. subst ps.
    destruct R as [M F]. apply Forall_forall. intros (q & c0) I k v Ik. rewrite Forall_forall in F. specialize (F _ I). cbn in F.
    destruct F as (t & Ft & Dt). injection Ft as <-. vm_compute in Dt. injection Dt as <-.
    destruct Ik as [[= <- <-]|[]]. apply utf8_valid_iff. reflexivity.
  - intros h Hh R. apply home_cx in Hh. injection Hh as <-. assert (P : Path.parent (B "/home/u/.cargo") = Some (B "/home/u")) by reflexivity.
    apply WalkProof.parent_iff in P. exact (PathFacts.no_parent _ R _ P).
Qed.
