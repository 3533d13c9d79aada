(** When the library panics: C64. *)
From Verif.Model Require Import Base Str Path BMap Error Value De Serde CfgExpr Triple EasyTypes Context ApplyEnv
  Walk Load Process Resolve Easy.
From Verif.Spec Require Import StrSpec PathSpec ConfigSpec LoadSpec EnvSpec Utf8Spec CfgSpec CfgErrorSpec TripleSpec RootSpec
  TargetSpec QuerySpec PanicSpec.
From Verif.Proof Require Import StrFacts BMapFacts Utf8Proof CfgProof CfgGrammarProof CfgEvalProof TripleProof RootProof StateProof
  TargetProof TargetEnvProof QueryProof VersionProof CfgPanicProof PanicProof.
From Verif.Props Require Import Cfg Target Query.
From Verif.Spec Require Import TargetSpec QuerySpec PanicSpec.

(** ** Expressions *)
Theorem C64_parse pr text s p :
  utf8 text -> unwrapped text s ->
  parse_expr pr text = Panic p <-> p = POverflow /\ overflow_checks pr = true /\ crowded s.
Proof. intros V U. apply parse_panic_iff; [now apply utf8_valid_iff|assumption]. Qed.
Print Assumptions C64_parse.

(** ** Loading *)
Theorem C64_load f p cwd o x : let cx := into_context p o cwd in
  easy_load_with_options f p cwd o = Panic x <->
  x = PUnwrapNone /\ exists c de,
    load_with_options f cwd (cx_cargo_home p cx cwd) = Ok c /\ apply_env (cx_env cx) c = Ok de /\ unnamed cwd de.
Proof. exact (load_panic_iff f p cwd o x). Qed.
Print Assumptions C64_load.

(** ** Targets *)
Lemma map_ok_panic {A A'} (f : A -> A') (r : result A) x : map_ok f r = Panic x <-> r = Panic x.
Proof. destruct r; cbn; split; congruence. Qed.
Lemma map_ok_is_ok {A A'} (f : A -> A') (r : result A) : is_ok (map_ok f r) = is_ok r.
Proof. now destruct r. Qed.

(** A name that cannot be made a target panics before anything else happens ... *)
Theorem C64_argument pr w c q a s : target_query q a ->
  (exists t, a = ArgText t /\ nameless t) ->
  run_query pr w c q s = (Panic PUnwrapNone, s).
Proof.
  intros Q N. destruct (to_triple_cases a) as [[_ K]|[P _]]; [contradiction|].
  rewrite (target_query_run _ _ _ _ _ _ Q). unfold q_target. rewrite bindM_assoc, bindM_eq. unfold lift. now rewrite P.
Qed.
Print Assumptions C64_argument.
(** ... and all others can. *)
Theorem C64_argument_fine a : (forall t, a = ArgText t -> ~ nameless t) -> exists t, to_triple a = Ok t.
Proof.
  intros N. destruct (to_triple_cases a) as [[O _]|[_ (s & E & K)]]; [|now destruct (N s E)].
  destruct (to_triple a); [eauto|discriminate..].
Qed.
Print Assumptions C64_argument_fine.

Section Targets.
Context (conf : config) (cx : context) (c : econfig) (pr : profile) (w : world) (q : query) (a : target_arg) (t : triple).
Context (Hc : from_unresolved conf cx = Ok c) (U : text_keys (c_target conf)).
Context (Q : target_query q a) (Ra : real_arg a) (Ht : to_triple a = Ok t).

Lemma next_printed s : reached pr w c s -> cfgs_printed w (snd (q_target_of pr w c t s)).
Proof.
  intros Rs. rewrite <- (proj2 (target_query_of pr w c q a t s Q Ht)).
  apply (reached_known pr w c). apply reached_step; [assumption|].
  destruct Q as [->|[->|[->|[->| ->]]]]; exact Ra.
Qed.
Lemma overflow_iff s : reached pr w c s ->
  fst (run_query pr w c q s) = Panic POverflow <->
  bget (cli_target t) (s_target s) = None /\ ready (cx_env cx) (tt_triple t)
  /\ key_overflows pr w c (c_target conf) (cli_target t) s.
Proof.
  intros Rs. rewrite (proj1 (target_query_of pr w c q a t s Q Ht)), map_ok_panic. assert (P := next_printed s Rs). split.
  - intros H. destruct (q_target_of pr w c t s) as [r s'] eqn:E. cbn in H, P. subst r.
    destruct (target_panic_cases conf cx c pr w Hc (text_keys_valid _ U) t s _ s' P E) as (N & Rd & [[_ K]|[? _]]); [auto|discriminate].
  - intros (N & Rd & K). now apply (target_overflows conf cx c pr w Hc (text_keys_valid _ U)).
Qed.
Lemma path_panic s x s' : reached pr w c s -> run_query pr w c q s = (Panic x, s') -> x <> POverflow ->
  x = PUnwrapNone /\ bget (cli_target t) (s_target s) = None /\ ready (cx_env cx) (tt_triple t)
  /\ harmless pr (c_target conf) /\ (has_cfg (c_target conf) -> cfg_available pr w c s (cli_target t))
  /\ exists matches, decided_by w s' (cli_target t) (c_target conf) matches
     /\ no_program (cx_current_dir cx) (cx_env cx) (c_target conf) (tt_triple t) matches.
Proof.
  intros Rs H No. destruct (target_query_of pr w c q a t s Q Ht) as [F S]. rewrite H in F, S. cbn in F, S.
  symmetry in F. apply map_ok_panic in F. assert (P := next_printed s Rs).
  destruct (q_target_of pr w c t s) as [r s1] eqn:E. cbn in F, S, P. subst.
  destruct (target_panic_cases conf cx c pr w Hc (text_keys_valid _ U) t s x s1 P E) as (N & Rd & [[? _]|K]); [contradiction|tauto].
Qed.
Lemma goes_on s : reached pr w c s ->
  bget (cli_target t) (s_target s) = None -> ready (cx_env cx) (tt_triple t) ->
  harmless pr (c_target conf) -> (has_cfg (c_target conf) -> cfg_available pr w c s (cli_target t)) ->
  exists matches, decided_by w (snd (run_query pr w c q s)) (cli_target t) (c_target conf) matches
  /\ (fst (run_query pr w c q s) = Panic PUnwrapNone
        /\ no_program (cx_current_dir cx) (cx_env cx) (c_target conf) (tt_triple t) matches
      \/ is_ok (fst (run_query pr w c q s)) = true
        /\ ~ no_program (cx_current_dir cx) (cx_env cx) (c_target conf) (tt_triple t) matches).
Proof.
  intros Rs N Rd Hm Av. destruct (target_query_of pr w c q a t s Q Ht) as [F S]. rewrite F, S.
  destruct (target_goes_on conf cx c pr w Hc (text_keys_valid _ U) t s N Rd Hm Av (next_printed s Rs)) as (m & D & K).
  exists m. split; [assumption|]. now rewrite map_ok_panic, map_ok_is_ok.
Qed.
End Targets.

(** With overflow checks: exactly when a key has too many calls, and the work gets to it. *)
Theorem C64_overflow conf cx c pr w q a t s :
  from_unresolved conf cx = Ok c -> text_keys (c_target conf) ->
  reached pr w c s -> target_query q a -> real_arg a -> to_triple a = Ok t ->
  fst (run_query pr w c q s) = Panic POverflow <->
  bget (cli_target t) (s_target s) = None /\ ready (cx_env cx) (tt_triple t)
  /\ key_overflows pr w c (c_target conf) (cli_target t) s.
Proof. intros Hc U Rs Q Ra Ht. now apply (overflow_iff conf cx c pr w q a t). Qed.
Print Assumptions C64_overflow.
(** All other panics come from a linker or a runner that has no meaning as a program, ... *)
Theorem C64_program conf cx c pr w q a t s x s' :
  from_unresolved conf cx = Ok c -> text_keys (c_target conf) ->
  reached pr w c s -> target_query q a -> real_arg a -> to_triple a = Ok t ->
  run_query pr w c q s = (Panic x, s') -> x <> POverflow ->
  x = PUnwrapNone /\ bget (cli_target t) (s_target s) = None /\ ready (cx_env cx) (tt_triple t)
  /\ harmless pr (c_target conf) /\ (has_cfg (c_target conf) -> cfg_available pr w c s (cli_target t))
  /\ exists matches, decided_by w s' (cli_target t) (c_target conf) matches
     /\ no_program (cx_current_dir cx) (cx_env cx) (c_target conf) (tt_triple t) matches.
Proof. intros Hc U Rs Q Ra Ht. now apply (path_panic conf cx c pr w q a t). Qed.
Print Assumptions C64_program.
(** ... and if nothing else stands in the way, that decides. *)
Theorem C64_program_decides conf cx c pr w q a t s :
  from_unresolved conf cx = Ok c -> text_keys (c_target conf) ->
  reached pr w c s -> target_query q a -> real_arg a -> to_triple a = Ok t ->
  bget (cli_target t) (s_target s) = None -> ready (cx_env cx) (tt_triple t) ->
  harmless pr (c_target conf) -> (has_cfg (c_target conf) -> cfg_available pr w c s (cli_target t)) ->
  exists matches, decided_by w (snd (run_query pr w c q s)) (cli_target t) (c_target conf) matches
  /\ (fst (run_query pr w c q s) = Panic PUnwrapNone
        /\ no_program (cx_current_dir cx) (cx_env cx) (c_target conf) (tt_triple t) matches
      \/ is_ok (fst (run_query pr w c q s)) = true
        /\ ~ no_program (cx_current_dir cx) (cx_env cx) (c_target conf) (tt_triple t) matches).
Proof. intros Hc U Rs Q Ra Ht. now apply (goes_on conf cx c pr w q a t). Qed.
Print Assumptions C64_program_decides.

(** ** Tools *)
Theorem C64_host pr w c s x :
  fst (run_query pr w c QHostTriple s) = Panic x <-> x = PDebugAssert /\ told_twice pr w c s.
Proof. cbn [run_query]. rewrite mapM_fst, map_ok_panic. exact (host_panic_iff pr w c s x). Qed.
Print Assumptions C64_host.
Theorem C64_rustc_version pr w c s x :
  fst (run_query pr w c QRustcVersion s) = Panic x <->
  s_rustc_version s = None /\ x = PDebugAssert /\ told_twice pr w c s.
Proof. cbn [run_query]. rewrite mapM_fst, map_ok_panic. exact (rv_panic_iff pr w c s x). Qed.
Print Assumptions C64_rustc_version.
Theorem C64_cargo_version pr w c s x :
  fst (run_query pr w c QCargoVersion s) = Panic x <->
  s_cargo_version s = None /\ x = PDebugAssert /\ told_twice pr w c s.
Proof. cbn [run_query]. rewrite mapM_fst, map_ok_panic. exact (cv_panic_iff pr w c s x). Qed.
Print Assumptions C64_cargo_version.

(** ** Targets to build for *)
Lemma host_then (m : M str) s x :
  fst ((h <~ m ;; t <~ lift (triple_from h) ;; ret [t]) s) = Panic x <->
  fst (m s) = Panic x \/ x = PUnwrapNone /\ exists h, fst (m s) = Ok h /\ nameless h.
Proof.
  rewrite bindM_eq. destruct (m s) as [[h|e|p] s1]; cbn [fst].
  - rewrite bindM_eq. unfold lift. destruct (@triple_from_soft error h) as [(t & T & N)|[T N]]; rewrite T; cbn.
    + split; [discriminate|]. intros [?|(_ & h' & [= <-] & K)]; [discriminate|contradiction].
    + split; [intros [= <-]; eauto|]. intros [?|(-> & _)]; [discriminate|reflexivity].
  - split; [discriminate|]. intros [?|(_ & h & ? & _)]; discriminate.
  - split; [intros [= <-]; auto|]. intros [H|(_ & h & ? & _)]; [now injection H as ->|discriminate].
Qed.
Theorem C64_build_target pr w c l s x :
  fst (run_query pr w c (QBuildTargetForConfig l) s) = Panic x <->
  (x = PUnwrapNone /\ exists t, In (ArgText t) l /\ nameless t)
  \/ (l = [] /\ (eb_target (ec_build c) = None \/ eb_target (ec_build c) = Some [])
      /\ (fst (run_query pr w c QHostTriple s) = Panic x
          \/ x = PUnwrapNone /\ exists h, fst (run_query pr w c QHostTriple s) = Ok (AStr h) /\ nameless h)).
Proof.
  cbn [run_query]. rewrite !mapM_fst, !map_ok_panic. unfold q_build_target_for_config, q_host_triple.
  rewrite bindM_eq. unfold lift at 1.
  destruct (traverse_triples l) as [[O N]|[P K]].
  2:{ rewrite P. cbn. split.
      - intros [= <-]. auto.
      - intros [[-> _]|[-> _]]; [reflexivity|]. destruct K as (t & [] & _). }
  destruct (traverse to_triple l) as [ts|e|p] eqn:E; [|discriminate O..].
  destruct ts as [|t ts].
  2:{ cbn. split; [discriminate|]. intros [[_ K]|[-> _]]; [contradiction|discriminate E]. }
  assert (l = []) as ->.
  { destruct l as [|a l]; [reflexivity|]. cbn in E. destruct (to_triple a); [|discriminate..]. cbn in E.
    destruct (traverse to_triple l); discriminate. }
  destruct (eb_target (ec_build c)) as [[|t ts]|].
  2:{ cbn. split; [discriminate|]. intros [[_ K]|[_ [[?|?] _]]]; [contradiction|discriminate..]. }
  all: rewrite host_then; split;
    [intros [K|(Ex & h & K & Nh)]; right; (split; [reflexivity|]); (split; [auto|])
    |intros [[_ K]|[_ [_ [K|(Ex & h & K & Nh)]]]]; [contradiction| |]].
  1,3,5,7: now left.
  1,3: right; split; [assumption|]; exists h; now rewrite K.
  all: right; split; [assumption|]; exists h; split; [|assumption].
  all: destruct (fst (cx_host_triple pr w (ec_cx c) (ec_build c) s)); [|discriminate..]; now injection K as ->.
Qed.
Print Assumptions C64_build_target.

Theorem C64_never pr w c q s x :
  q = QRustc \/ q = QCargo \/ (exists l, q = QBuildTargetForCli l) -> fst (run_query pr w c q s) <> Panic x.
Proof.
  intros [->|[->|[l ->]]]; cbn [run_query]; [|discriminate..].
  destruct (rustc_ok w c s) as (r & s1 & H). unfold mapM, q_rustc. rewrite bindM_eq, H. discriminate.
Qed.
Print Assumptions C64_never.

(** ** A build without checks, a home below a root, and names that are names *)
Theorem C64_safe f p cwd o conf c pr w s q x : let cx := into_context p o cwd in
  load_with_options f cwd (cx_cargo_home p cx cwd) = Ok conf -> text_keys (c_target conf) ->
  easy_load_with_options f p cwd o = Ok c ->
  (forall h, cx_cargo_home p cx cwd = Some h -> ~ rootish h) ->
  overflow_checks pr = false -> debug_assertions pr = false ->
  reached pr w c s -> real_query q ->
  (forall a t, target_query q a -> a = ArgText t -> ~ nameless t) ->
  (forall l t, q = QBuildTargetForConfig l -> In (ArgText t) l -> ~ nameless t) ->
  (forall h, q = QBuildTargetForConfig [] -> fst (run_query pr w c QHostTriple s) = Ok (AStr h) -> ~ nameless h) ->
  fst (run_query pr w c q s) <> Panic x.
Proof.
  intros cx Hl U He Hh Ov Da Rs Rq Na Nl Nh H.
  assert (Hc : from_unresolved conf cx = Ok c).
  { unfold easy_load_with_options in He. fold cx in He. change (cx_current_dir cx) with cwd in He. rewrite Hl in He. exact He. }
  assert (Tq : forall a, target_query q a -> real_arg a -> False).
  { intros a Q Ra. destruct (C64_argument_fine a) as (t & Ht); [intros t E; exact (Na a t Q E)|].
    destruct (run_query pr w c q s) as [r s'] eqn:E. cbn in H. subst r.
    assert (No : x <> POverflow).
    { intros ->. assert (K := C64_overflow conf cx c pr w q a t s Hc U Rs Q Ra Ht). rewrite E in K.
      destruct (proj1 K eq_refl) as (_ & _ & O & _). congruence. }
    destruct (C64_program conf cx c pr w q a t s x s' Hc U Rs Q Ra Ht E No) as (_ & _ & [_ Rd] & _ & _ & m & _ & P).
    exact (loaded_programs f cwd _ conf (cx_env cx) m (tt_triple t) Hl Hh Rd P). }
  assert (Nt : ~ told_twice pr w c s) by (intros [D _]; congruence).
  unfold target_query in Tq. destruct q as [a|a|a|a|a|l|l| | | | |]; try (apply (Tq a); [tauto|exact Rq]).
  - apply C64_build_target in H as [[_ (t & I & N)]|(-> & _ & [H|(_ & h & H & N)])].
    + exact (Nl l t eq_refl I N).
    + apply C64_host in H as [_ H]. contradiction.
    + exact (Nh h eq_refl H N).
  - apply C64_never in H; eauto.
  - apply C64_never in H; auto.
  - apply C64_never in H; auto.
  - apply C64_host in H as [_ H]. contradiction.
  - apply C64_rustc_version in H as (_ & _ & H). contradiction.
  - apply C64_cargo_version in H as (_ & _ & H). contradiction.
Qed.
Print Assumptions C64_safe.

(** ** Examples *)
(** [all(any(), ..., any())] with 256 calls. *)
Definition crowded_text : str := show wide_tree.
Definition crowded_key : str := B "cfg(" ++ crowded_text ++ B ")".
Lemma crowded_unwrapped : unwrapped crowded_key crowded_text.
Proof. left. Qed.
Lemma crowded_utf8 : utf8 crowded_key.
Proof. apply utf8_valid_iff. vm_compute. reflexivity. Qed.
Example C64_ex_parse : crowded crowded_text /\ parse_expr debug crowded_key = Panic POverflow
  /\ is_ok (parse_expr release crowded_key) = true /\ is_ok (parse_expr debug (B "cfg(all(any(), not(unix)))")) = true.
Proof.
  assert (P : parse_expr debug crowded_key = Panic POverflow) by (vm_compute; reflexivity).
  split; [|split; [exact P|split; vm_compute; reflexivity]].
  now apply (C64_parse debug crowded_key crowded_text POverflow crowded_utf8 crowded_unwrapped) in P as (_ & _ & P).
Qed.

(** A value of [[env]] relative to the directory of a file in [/]: absolute or not, loading panics. *)
Definition ex_root_env : fs :=
  mkFsys (fun p => str_eqb p (B "/config.toml"))
    (fun _ => ReadTree (TomlTab [(B "env", TomlTab [(B "A", TomlTab
       [(B "value", TomlStr (B "/abs")); (B "relative", TomlBool true)])])])).
Definition ex_home (h : str) : options := opt_cargo_home options_default (Some h).
Example C64_ex_load :
  easy_load_with_options ex_root_env (mkProcess [] None) (B "/p") (ex_home (B "/")) = Panic PUnwrapNone
  /\ (exists c de, load_with_options ex_root_env (B "/p") (Some (B "/")) = Ok c /\ apply_env [] c = Ok de
        /\ unnamed (B "/p") de)
  /\ easy_load_with_options (mkFsys (fun _ => false) (fun _ => ReadBad))
       (mkProcess [(B "CARGO_BUILD_TARGET", B "t/..")] None) (B "/p") options_default = Panic PUnwrapNone
  /\ is_ok (easy_load_with_options (mkFsys (fun _ => false) (fun _ => ReadBad))
       (mkProcess [(B "CARGO_BUILD_TARGET", B "t/..json")] None) (B "/p") options_default) = true.
Proof.
  assert (P : easy_load_with_options ex_root_env (mkProcess [] None) (B "/p") (ex_home (B "/")) = Panic PUnwrapNone)
    by (vm_compute; reflexivity).
  split; [exact P|]. split; [|split; vm_compute; reflexivity].
  apply C64_load in P as (_ & c & de & H). exists c, de. exact H.
Qed.

(** A configuration read as if its file were [/x]. *)
Definition ex_adrift : config :=
  mkConfig [] (c_build config_default) (c_doc config_default) [] (c_future_incompat_report config_default)
    (c_cargo_new config_default) (c_http config_default) (c_net config_default) [] (c_registry config_default)
    [(B "t", mkTarget (Some (mkValue (B "bin/ld") (Some (DefPath (B "/x"))))) None None None)] (c_term config_default).
Definition ex_crowd : config :=
  mkConfig [] (c_build config_default) (c_doc config_default) [] (c_future_incompat_report config_default)
    (c_cargo_new config_default) (c_http config_default) (c_net config_default) [] (c_registry config_default)
    [(crowded_key, target_default)] (c_term config_default).
Definition ex_ask (pr : profile) (conf : config) (q : query) : option (result answer) :=
  match from_unresolved conf (ex_cx []) with
  | Ok c => Some (fst (run_query pr ex_world c q (state_init (ec_cx c))))
  | _ => None
  end.
Example C64_ex_target :
  ex_ask release ex_adrift (QRunner (ArgText (B "t"))) = Some (Panic PUnwrapNone)
  /\ ex_ask release ex_adrift (QRunner (ArgText (B "u"))) = Some (Ok (APa None))
  /\ ex_ask release ex_adrift (QTarget (ArgText (B "u/"))) = Some (Ok (ATarget (mkEtarget None None None None)))
  /\ ex_ask release ex_adrift (QTarget (ArgText (B "u/.."))) = Some (Panic PUnwrapNone)
  /\ ex_ask debug ex_crowd (QLinker (ArgText (B "t"))) = Some (Panic POverflow)
  /\ ex_ask release ex_crowd (QLinker (ArgText (B "t"))) = Some (Ok (APath None))
  /\ nameless (B "u/..").
Proof.
  repeat (split; [vm_compute; reflexivity|]). apply nameless_iff. vm_compute. auto.
Qed.
Example C64_ex_no_program : no_program (B "/cwd") [] (c_target ex_adrift) (B "t") (fun _ => false).
Proof.
  left. exists (mkValue (B "bin/ld") (Some (DefPath (B "/x")))). split; [reflexivity|]. intros p P.
  apply (program_ok (E := error)) in P. vm_compute in P. discriminate P.
Qed.
(** The second call in a debug build, where cargo tells its version and no host. *)
Example C64_ex_tools :
  let w := ex_tools (ex_says (B "release: 1.75.0")) (NotStarted KNotFound) in
  exists c, from_unresolved ex_config ex_context = Ok c
  /\ told_twice debug w c (run_queries debug w c [QCargoVersion] (state_init (ec_cx c)))
  /\ ~ told_twice debug w c (state_init (ec_cx c))
  /\ ex_after debug w [QCargoVersion] QRustcVersion = Some (Panic PDebugAssert)
  /\ ex_after debug w [QCargoVersion] (QBuildTargetForConfig []) = Some (Panic PDebugAssert)
  /\ ex_after debug w [QCargoVersion] QCargoVersion = Some (Ok (ACargoVersion (mkCargoVersion 1 75 0 false))).
Proof.
  intros w. destruct (from_unresolved ex_config ex_context) as [c|e|p] eqn:E; [|vm_compute in E; discriminate..].
  exists c. split; [reflexivity|]. vm_compute in E. injection E as <-.
  split. { apply (C64_host debug w _ _ PDebugAssert). vm_compute. reflexivity. }
  split. { intros (_ & _ & [[K _]|[K _]]); now apply K. }
  repeat split; vm_compute; reflexivity.
Qed.
Definition ex_safe_fs : fs :=
  mkFsys (fun p => str_eqb p (B "/p/.cargo/config.toml"))
    (fun _ => ReadTree (TomlTab [(B "target", TomlTab [(B "cfg(unix)", TomlTab [(B "linker", TomlStr (B "bin/ld"))])])])).
Definition ex_below : options := opt_cargo_home options_default (Some (B "/home/u/.cargo")).
Example C64_ex_safe :
  let p := mkProcess [] None in let cx := into_context p ex_below (B "/p") in
  exists conf c,
    load_with_options ex_safe_fs (B "/p") (cx_cargo_home p cx (B "/p")) = Ok conf /\ text_keys (c_target conf)
    /\ easy_load_with_options ex_safe_fs p (B "/p") ex_below = Ok c
    /\ (forall h, cx_cargo_home p cx (B "/p") = Some h -> ~ rootish h)
    /\ ~ nameless (B "x/y.json")
    /\ fst (run_query release ex_world c (QLinker (ArgText (B "x/y.json"))) (state_init (ec_cx c)))
       = Ok (APath (Some (B "/p/bin/ld"))).
Proof.
  intros p cx.
  destruct (load_with_options ex_safe_fs (B "/p") (cx_cargo_home p cx (B "/p"))) as [conf|e|x] eqn:E;
    [|vm_compute in E; discriminate..].
  destruct (easy_load_with_options ex_safe_fs p (B "/p") ex_below) as [c|e|x] eqn:E';
    [|vm_compute in E'; discriminate..].
  exists conf, c. split; [reflexivity|]. split.
  { vm_compute in E. injection E as <-. intros k v [[= <- <-]|[]]. apply utf8_valid_iff. reflexivity. }
  split; [reflexivity|]. split.
  { intros h [= <-] R. assert (P : Path.parent (B "/home/u/.cargo") = Some (B "/home/u")) by reflexivity.
    apply WalkProof.parent_iff in P. exact (PathFacts.no_parent _ R _ P). }
  split.
  { intros N. apply nameless_iff in N as [_ N]. vm_compute in N. discriminate N. }
  vm_compute in E'. injection E' as <-. vm_compute. reflexivity.
Qed.
