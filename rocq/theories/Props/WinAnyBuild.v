(** C90: build targets, keys and panics on Windows, from any directory. *)
From Verif.Model Require Import Base Str Path StdPath OsPaths BMap Error Value De CfgExpr Triple EasyTypes Serde Context ApplyEnv
  Process Walk Load Resolve Easy OsLoad ErrorText.
From Verif.Spec Require WinAnySpec.
From Verif.Spec Require Import StrSpec ConfigSpec LoadSpec EnvSpec CfgSpec CfgErrorSpec TargetSpec FinalSpec QuerySpec WinSpec WinLoadSpec
  OsTargetSpec WinTargetSpec OsQuerySpec ErrorSpec BlameSpec QueryBlameSpec WinPanicSpec WinAnyLoadSpec WinAnyTargetSpec WinExactSpec WinAnyBlameSpec.
From Verif.Proof Require Import LoadProof StateProof EnvProof FinalProof CfgEvalProof OsTargetProof OsQueryProof WinQueryProof
  WinTargetProof WinLoadProof WinPanicProof WinAnyLoadProof WinAnyTargetProof.
From Verif.Props Require Panic.
From Verif.Props Require Import WinTools WinBlame WinPanic KeyBlame WinAnyTarget WinAnyBlame WinExact.

Lemma any_build_targets f p cwd o env l ps ec :
  os_walk windows (fs_exists f) cwd (os_cx_cargo_home windows p (into_context p o cwd) cwd) = ps ->
  environment p o env -> reads f ps l -> os_easy_load windows f p cwd o = Ok ec ->
  match words_of env l BuildTarget with
  | None => eb_target (ec_build ec) = None
  | Some ws => exists ts, eb_target (ec_build ec) = Some ts
      /\ Forall2 (fun v t => os_triple (E := error) windows (val v) (def v) (Some cwd) = Ok t) (snd ws) ts
  end.
Proof.
  intros Wk En R L. destruct (any_parts f p cwd o ec L) as (c & de & Hc & Ha & H).
  destruct (any_applied f p cwd o env l ps Wk En R c de Hc Ha) as (_ & D2 & _).
  rewrite <- (D2 BuildTarget). clear D2. unfold os_from_unresolved in H. rewrite Ha in H. cbn [bind] in H. cbv zeta in H.
  change (cx_current_dir (into_context p o cwd)) with cwd in H.
  apply bind_okk in H as (b & Hb & H). apply bind_okk in H as (d & _ & H). apply bind_okk in H as (en & _ & H).
  assert (E : forall x y : econfig, Ok (E := error) x = Ok y -> y = x) by (intros ? ? [= ->]; reflexivity).
  apply E in H. subst ec. cbn [ec_build]. unfold os_ebuild_of in Hb. cbv zeta in Hb.
  do 4 (apply bind_okk in Hb as (? & _ & Hb)). apply bind_okk in Hb as (ts & Ht & Hb). do 2 (apply bind_okk in Hb as (? & _ & Hb)).
  assert (Eb : forall u v : ebuild, Ok (E := error) u = Ok v -> v = u) by (intros ? ? [= ->]; reflexivity).
  apply Eb in Hb. subst b. cbn [eb_target]. cbn [look_list].
  destruct (b_target (c_build de)) as [t|]; cbn [opt_traverse] in Ht.
  - apply bind_okk in Ht as (ts' & Ht & E'). injection E' as <-.
    destruct t as [v|vs]; exists ts'; (split; [reflexivity|]); now apply traverse_all.
  - now injection Ht as <-.
Qed.

Section Query.
Context (ec : econfig) (pr : profile) (w : world) (s : state) (ws : option (form * list word)) (cwd : str).
Context (R : match ws with
  | None => eb_target (ec_build ec) = None
  | Some ws => exists ts, eb_target (ec_build ec) = Some ts
      /\ Forall2 (fun v t => os_triple (E := error) windows (val v) (def v) (Some cwd) = Ok t) (snd ws) ts
  end).
Lemma no_args args : traverse (os_to_triple windows) args = Ok [] -> args = [].
Proof.
  destruct args as [|a args]; [reflexivity|]. cbn. destruct (os_to_triple windows a); [|discriminate..]. cbn.
  destruct (traverse (os_to_triple windows) args); discriminate.
Qed.
Lemma unset_host : none_set ws ->
  os_q_build_target_for_config windows (B ".exe") pr w ec [] s
  = (h <~ os_cx_host_triple windows (B ".exe") pr w (ec_cx ec) (ec_build ec) ;; t <~ lift (os_triple windows h None None) ;; ret [t]) s.
Proof.
  intros N. unfold os_q_build_target_for_config. cbn [traverse]. rewrite bindM_eq. unfold lift at 1. unfold none_set in N.
  destruct ws as [x|]; [destruct R as (ts & -> & F); rewrite N in F; inversion F; reflexivity|]. now rewrite R.
Qed.
Lemma set_own : ~ none_set ws -> exists t ts, eb_target (ec_build ec) = Some (t :: ts)
  /\ os_q_build_target_for_config windows (B ".exe") pr w ec [] s = (Ok (t :: ts), s).
Proof.
  intros N. unfold os_q_build_target_for_config. cbn [traverse]. rewrite bindM_eq. unfold lift at 1. unfold none_set in N.
  destruct ws as [x|]; [|now destruct N]. destruct R as (ts & Et & F). rewrite Et.
  destruct F as [|v t vs ts]; [now destruct N|]. eauto.
Qed.
Lemma none_set_dec : none_set ws \/ ~ none_set ws.
Proof. destruct ws as [[fm [|v l]]|]; cbn; auto. right. discriminate. Qed.
Lemma build_err args e s' : os_run_query windows (B ".exe") pr w ec (QBuildTargetForConfig args) s = (Err e, s') <->
  args = [] /\ none_set ws /\ os_run_query windows (B ".exe") pr w ec QHostTriple s = (Err e, s').
Proof.
  cbn [os_run_query]. unfold mapM. rewrite !bindM_eq.
  destruct (traverse (os_to_triple windows) args) as [[|t ts]|e'|x] eqn:E.
  - apply no_args in E. subst args. destruct none_set_dec as [N|N].
    + rewrite (unset_host N), bindM_eq.
      destruct (os_cx_host_triple windows (B ".exe") pr w (ec_cx ec) (ec_build ec) s) as [[h|e'|x] s1].
      * rewrite bindM_eq. unfold lift. destruct (os_triple windows h None None) as [t|e'|x] eqn:T.
        -- split; [discriminate|]. intros (_ & _ & K); discriminate K.
        -- exfalso. exact (win_triple_never h e' T).
        -- split; [discriminate|]. intros (_ & _ & K); discriminate K.
      * split; [auto|]. now intros (_ & _ & K).
      * split; [discriminate|]. intros (_ & _ & K); discriminate K.
    + destruct (set_own N) as (t & ts & _ & ->). split; [discriminate|]. now intros (_ & K & _).
  - unfold os_q_build_target_for_config. rewrite bindM_eq. unfold lift. rewrite E. split; [discriminate|]. intros (-> & _). discriminate E.
  - exfalso. exact (win_triples_never args e' E).
  - unfold os_q_build_target_for_config. rewrite bindM_eq. unfold lift. rewrite E. split; [discriminate|]. intros (-> & _). discriminate E.
Qed.
Lemma build_panic args x : fst (os_run_query windows (B ".exe") pr w ec (QBuildTargetForConfig args) s) = Panic x <->
  (x = PUnwrapNone /\ exists t, In (ArgText t) args /\ win_nameless t)
  \/ (args = [] /\ none_set ws
      /\ (fst (os_run_query windows (B ".exe") pr w ec QHostTriple s) = Panic x
          \/ x = PUnwrapNone /\ exists h,
               fst (os_run_query windows (B ".exe") pr w ec QHostTriple s) = Ok (AStr h) /\ win_nameless h)).
Proof.
  cbn [os_run_query]. rewrite !mapM_fst, !Panic.map_ok_panic.
  destruct (traverse_cases args) as [[(ts & E) N]|[P K]].
  2:{ unfold os_q_build_target_for_config. rewrite bindM_eq. unfold lift at 1. rewrite P. cbn [fst].
      split; [intros [= <-]; auto|]. intros [[-> _]|[-> _]]; [reflexivity|]. destruct K as (t & [] & _). }
  destruct ts as [|t ts].
  2:{ unfold os_q_build_target_for_config. rewrite bindM_eq. unfold lift at 1. rewrite E. cbn [fst ret].
      split; [discriminate|]. intros [[_ K]|[-> _]]; [contradiction|discriminate E]. }
  apply no_args in E. subst args. destruct none_set_dec as [Un|Un].
  - rewrite (unset_host Un), bindM_eq.
    destruct (os_cx_host_triple windows (B ".exe") pr w (ec_cx ec) (ec_build ec) s) as [[h|e|y] s1]; cbn [fst map_ok] in *.
    + rewrite bindM_eq. unfold lift. destruct (plain_cases h) as [[(t & T) Nh]|[T Nh]]; rewrite T; cbn.
      * split; [discriminate|]. intros [[_ (? & [] & _)]|(_ & _ & [?|(_ & h' & [= <-] & K)])]; [discriminate|contradiction].
      * split; [intros [= <-]; right; eauto 8|]. intros [[_ (? & [] & _)]|(_ & _ & [?|(-> & _)])]; [discriminate|reflexivity].
    + split; [discriminate|]. intros [[_ (? & [] & _)]|(_ & _ & [?|(_ & h' & ? & _)])]; discriminate.
    + split; [intros [= <-]; right; auto|]. intros [[_ (? & [] & _)]|(_ & _ & [H|(_ & h' & ? & _)])]; [now injection H as ->|discriminate].
  - destruct (set_own Un) as (t & ts & _ & ->). split; [discriminate|]. intros [[_ (? & [] & _)]|(_ & K & _)]. contradiction.
Qed.
End Query.

(** Targets to build for: those of the configuration, each where its text leads, without anything
    being run; the host if there are none; errors only those of the host; and what panics. *)
Theorem C90_build_target f p cwd o v r ws env ec :
  read_as cwd (Some v, r, ws) -> sturdy v -> environment p o env -> os_easy_load windows f p cwd o = Ok ec ->
  exists home ps l,
    any_home p o (Some v, r, ws) home /\ any_visited (fs_exists f) (Some v, r, ws) home ps /\ reads f ps l
    /\ forall pr w s,
       let run q := os_run_query windows (B ".exe") pr w ec q s in
       ((forall h, home = Some h -> grounded h) -> forall x xs fm, words_of env l BuildTarget = Some (fm, x :: xs) ->
          exists ts, run (QBuildTargetForConfig []) = (Ok (ATriples ts), s)
          /\ run (QBuildTargetForCli []) = (Ok (AStrs (map lossy (map cli_target ts))), s)
          /\ Forall2 (any_target_at (Some v, r, ws)) (x :: xs) (map cli_target ts))
       /\ (none_set (words_of env l BuildTarget) -> run (QBuildTargetForCli []) = (Ok (AStrs []), s)
           /\ forall h s', run QHostTriple = (Ok (AStr h), s') ->
              run (QBuildTargetForConfig []) = (t <- os_to_triple windows (ArgText h) ;; Ok (ATriples [t]), s'))
       /\ (forall args e s', run (QBuildTargetForConfig args) = (Err e, s') <->
             args = [] /\ none_set (words_of env l BuildTarget) /\ run QHostTriple = (Err e, s'))
       /\ (forall args x, fst (run (QBuildTargetForConfig args)) = Panic x <->
             (x = PUnwrapNone /\ exists t, In (ArgText t) args /\ win_nameless t)
             \/ (args = [] /\ none_set (words_of env l BuildTarget)
                 /\ (fst (run QHostTriple) = Panic x
                     \/ x = PUnwrapNone /\ exists h, fst (run QHostTriple) = Ok (AStr h) /\ win_nameless h))).
Proof.
  intros H So En L. set (home := os_cx_cargo_home windows p (into_context p o cwd) cwd).
  assert (V := visited_any cwd v r ws H So (fs_exists f) home). set (ps := os_walk windows (fs_exists f) cwd home) in *.
  assert (Rd : exists l, reads f ps l).
  { destruct (any_parts f p cwd o ec L) as (c & de & Hc & _ & _). unfold os_load_with_options in Hc. fold home ps in Hc.
    assert (T : is_ok (load_files f ps) = true) by (now rewrite Hc). apply load_files_ok in T as (l & R & _). eauto. }
  destruct Rd as (l & R). assert (T := any_build_targets f p cwd o env l ps ec eq_refl En R L). exists home, ps, l.
  split; [exact (home_any cwd v r ws H So p o)|]. split; [exact V|]. split; [exact R|].
  intros pr w s run. split; [|split; [|split]].
  - intros Gh x xs fm E. destruct (set_own ec pr w s _ cwd T) as (t & ts & Et & Q); [rewrite E; discriminate|].
    exists (t :: ts). unfold run. cbn [os_run_query]. unfold mapM. rewrite !bindM_eq, Q. split; [reflexivity|]. split.
    + unfold q_build_target_for_cli. rewrite Et. cbn [ret]. now rewrite map_map.
    + assert (Sd := fun y => words_said f env l ps R BuildTarget fm (x :: xs) y E). rewrite E in T. destruct T as (ts' & Et' & F). rewrite Et in Et'. injection Et' as <-.
      cbn [snd] in F. clear - F Sd H So V Gh.
      assert (Gr : forall q, In q ps -> grounded q) by (intros q; exact (visited_grounded _ v r ws home ps q So V Gh)).
      revert Sd. induction F as [|y u ys us Hy F IH]; intros Sd; [constructor|]. cbn [map]. constructor.
      * exact (target_at cwd v r ws H So ps Gr y u (Sd y (or_introl eq_refl)) Hy).
      * apply IH. intros z Iz. apply Sd. now right.
  - intros N. unfold run. cbn [os_run_query]. split.
    + unfold q_build_target_for_cli. unfold none_set in N. destruct (words_of env l BuildTarget) as [x|]; [|now rewrite T].
      destruct T as (ts & -> & F). rewrite N in F. now inversion F.
    + intros h s' Q. unfold mapM in *. rewrite bindM_eq in Q. rewrite bindM_eq, (unset_host ec pr w s _ cwd T N), bindM_eq.
      destruct (os_cx_host_triple windows (B ".exe") pr w (ec_cx ec) (ec_build ec) s) as [[h'|e|y] s1]; [|discriminate Q..].
      injection Q as -> ->. rewrite bindM_eq. unfold lift. cbn [os_to_triple]. now destruct (os_triple windows h None None).
  - intros args e s'. exact (build_err ec pr w s _ cwd T args e s').
  - intros args x. exact (build_panic ec pr w s _ cwd T args x).
Qed.
Print Assumptions C90_build_target.
