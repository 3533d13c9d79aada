(** C90: nothing panics on Windows with a home below a root, from any directory; invalid keys. *)
From Verif.Model Require Import Base Str Path StdPath OsPaths BMap Error Value De CfgExpr Triple EasyTypes Serde Context ApplyEnv
  Process Walk Load Resolve Easy OsLoad ErrorText.
From Verif.Spec Require WinAnySpec.
From Verif.Spec Require Import StrSpec ConfigSpec LoadSpec EnvSpec CfgSpec CfgErrorSpec TargetSpec FinalSpec QuerySpec WinSpec WinLoadSpec
  OsTargetSpec WinTargetSpec OsQuerySpec ErrorSpec BlameSpec QueryBlameSpec WinPanicSpec WinAnyLoadSpec WinAnyTargetSpec WinExactSpec WinAnyBlameSpec.
From Verif.Proof Require Import StrFacts BMapFacts LoadProof TargetProof StateProof EnvProof FinalProof CfgEvalProof OsTargetProof OsQueryProof WinQueryProof WinQueryPanicProof
  WinTargetProof WinLoadProof WinPanicProof WinAnyLoadProof WinAnyTargetProof.
From Verif.Proof Require OsQueryBlameProof.
From Verif.Props Require Panic.
From Verif.Props Require Import WinTools WinBlame WinPanic KeyBlame WinAnyTarget WinAnyBlame WinAnyBuild WinExact.

Lemma searched_deep ex m fs q : snd m <> [] -> searched ex m fs -> In q fs -> exists k, read_as q k /\ 2 <= length (snd k).
Proof.
  intros N S I. assert (L : forall n, 2 <= length (snd (into m n))).
  { intros n. unfold into. cbn [snd]. rewrite app_length. cbn. destruct (snd m); [now destruct N|cbn; lia]. }
  destruct S as [a A E|a b A E C E'|a b A E C E']; [destruct I as [<-|[]]|destruct I as [<-|[]]|destruct I]; eauto.
Qed.
Lemma visited_deep ex v r ws home ps q : any_visited ex (Some v, r, ws) home ps ->
  (forall h, home = Some h -> roomy h) -> In q ps -> exists k, read_as q k /\ 2 <= length (snd k).
Proof.
  intros V Gh. assert (Nr : forall ps, any_near ex (Some v, r, ws) ps -> In q ps -> exists k, read_as q k /\ 2 <= length (snd k)).
  { intros qs (pss & -> & F) I. cbn [fst snd] in F. induction F as [|k fs ks pss Sr F IH]; [destruct I|].
    cbn [concat] in I. apply in_app_iff in I as [I|I]; [|now apply IH]. apply (searched_deep ex _ fs q) in Sr; [exact Sr| |exact I].
    unfold into. cbn [snd]. now destruct k. }
  destruct V as [qs N|h m qs N _ _|h m qs fs N Rm _ Sr]; try now apply Nr. intros I. apply in_app_iff in I as [I|I]; [now apply (Nr qs)|].
  destruct (Gh h eq_refl) as (vh & rh & wh & Rh & Sh & Ne). assert (E := read_unique _ _ _ Rm Rh). subst m.
  exact (searched_deep ex (Some vh, rh, wh) fs q Ne (Sr (sturdy_solid h vh Sh)) I).
Qed.
Lemma deep_based ps d : (forall q, In q ps -> exists k, read_as q k /\ 2 <= length (snd k)) -> said ps d -> ~ baseless d.
Proof.
  intros D [(n & ->)|(q & I & ->)] Bl; inversion Bl as [q' m Rm Lm]; subst.
  destruct (D q I) as (k & Rk & Lk). rewrite (read_unique _ _ _ Rm Rk) in Lm. lia.
Qed.

(** Loading: with such a home only a target without a name stops it. *)
Theorem C90_load_fine f p cwd o v r ws env :
  read_as cwd (Some v, r, ws) -> sturdy v -> environment p o env ->
  exists home ps, any_home p o (Some v, r, ws) home /\ any_visited (fs_exists f) (Some v, r, ws) home ps
    /\ ((forall h, home = Some h -> roomy h) -> forall l, reads f ps l -> same_shapes (map snd l) -> variables_readable env l ->
        (forall fm xs x, words_of env l BuildTarget = Some (fm, xs) -> In x xs -> ~ win_nameless (val x)) ->
        exists ec, os_easy_load windows f p cwd o = Ok ec).
Proof.
  intros H So En. set (home := os_cx_cargo_home windows p (into_context p o cwd) cwd).
  assert (V := visited_any cwd v r ws H So (fs_exists f) home). set (ps := os_walk windows (fs_exists f) cwd home) in *.
  exists home, ps. split; [exact (home_any cwd v r ws H So p o)|]. split; [exact V|].
  intros Gh l R Sh Vr T. apply (any_load_ok f p cwd o env l ps eq_refl En R). split; [exact Sh|]. split; [exact Vr|].
  assert (Bd := fun d => deep_based ps d (fun q => visited_deep _ v r ws home ps q V Gh)).
  intros [k x _ E A _ _|k x _ E A _|fm x args E A _ _|fm xs x E I [N|[_ A]]|n x y E _ _ A].
  - exact (Bd _ (scalar_said f env l ps R _ k x E) A).
  - exact (Bd _ (scalar_said f env l ps R _ k x E) A).
  - exact (Bd _ (program_said f env l ps R _ _ _ x E (or_introl eq_refl)) A).
  - exact (T fm xs x E I N).
  - exact (Bd _ (words_said f env l ps R _ _ _ x E I) A).
  - exact (Bd _ (scalar_said f env l ps R _ _ x E) A).
Qed.
Print Assumptions C90_load_fine.

Lemma deep_target f p cwd o env l ps ec pr w q a t s x :
  os_walk windows (fs_exists f) cwd (os_cx_cargo_home windows p (into_context p o cwd) cwd) = ps ->
  environment p o env -> reads f ps l -> os_easy_load windows f p cwd o = Ok ec ->
  (forall q, In q ps -> exists k, read_as q k /\ 2 <= length (snd k)) ->
  Forall (fun x => text_keys (c_target (snd x))) l -> overflow_checks pr = false ->
  target_query q a -> os_to_triple windows a = Ok t ->
  fst (os_run_query windows (B ".exe") pr w ec q s) <> Panic x.
Proof.
  intros Wk En R L Dp U O Q Ht.
  rewrite (target_query_run windows (B ".exe") _ _ _ _ _ _ Q). unfold os_q_target. rewrite bindM_assoc, bindM_eq.
  unfold lift. rewrite Ht. unfold os_q_target_of. rewrite !bindM_eq. unfold os_init_target_config. rewrite bindM_eq.
  cbn [get]. destruct (bget (cli_target t) (s_target s)) as [y|] eqn:E.
  - unfold ret. rewrite !bindM_eq. cbn [get]. rewrite E. discriminate.
  - rewrite bindM_eq.
    assert (Np := resolve_target_panic windows (B ".exe") pr w (ec_cx ec) (ec_build ec) t (ec_de_target ec) s x
                    (any_keys f p cwd o env l ps ec Wk En R L U)).
    assert (Kp := resolved_kept f p cwd o env l ps ec Wk En R L pr w t s).
    destruct (os_resolve_target windows _ _ _ _ _ _ _ _) as [[de|e|y] s1]; [|discriminate|].
    + rewrite bindM_eq. unfold lift. rewrite (any_cx f p cwd o ec L) in *.
      change (cx_current_dir (into_context p o cwd)) with cwd. specialize (Kp de s1 eq_refl).
      destruct (etarget_cases cwd ps de Kp) as [((et & ->) & _)|[_ Lt]].
      * cbn. rewrite bget_binsert, str_eqb_refl. discriminate.
      * exfalso. destruct Kp as [K1 K2]. destruct Lt as [(y & E1 & A & _)|(y & E1 & A & _)].
        -- exact (deep_based ps _ Dp (K1 y E1) A).
        -- exact (deep_based ps _ Dp (K2 y E1) A).
    + cbn. intros [= ->]. destruct (Np eq_refl) as (_ & O' & _). congruence.
Qed.

(** Queries: nothing panics, without checks and with targets that are such. *)
Theorem C90_safe f p cwd o v r ws env cargo ec :
  read_as cwd (Some v, r, ws) -> sturdy v -> environment p o env -> cargo_of f p cwd o cargo ec ->
  exists home ps l,
    any_home p o (Some v, r, ws) home /\ any_visited (fs_exists f) (Some v, r, ws) home ps /\ reads f ps l
    /\ ((forall h, home = Some h -> roomy h) -> Forall (fun y => text_keys (c_target (snd y))) l ->
        forall pr w s q x, os_reached windows (B ".exe") pr w ec s -> overflow_checks pr = false -> debug_assertions pr = false ->
        (forall t, target_query q (ArgText t) \/ (exists args, q = QBuildTargetForConfig args /\ In (ArgText t) args) -> ~ win_nameless t) ->
        (forall h, fst (os_run_query windows (B ".exe") pr w ec QHostTriple s) = Ok (AStr h) -> ~ win_nameless h) ->
        fst (os_run_query windows (B ".exe") pr w ec q s) <> Panic x).
Proof.
  intros H So En Ca. assert (L := proj1 Ca).
  set (home := os_cx_cargo_home windows p (into_context p o cwd) cwd).
  assert (V := visited_any cwd v r ws H So (fs_exists f) home). set (ps := os_walk windows (fs_exists f) cwd home) in *.
  assert (Rd : exists l, reads f ps l).
  { destruct (any_parts f p cwd o ec L) as (c & de & Hc & _ & _). unfold os_load_with_options in Hc. fold home ps in Hc.
    assert (T : is_ok (load_files f ps) = true) by (now rewrite Hc). apply load_files_ok in T as (l & R & _). eauto. }
  destruct Rd as (l & R). assert (Bt := any_build_targets f p cwd o env l ps ec eq_refl En R L). exists home, ps, l.
  split; [exact (home_any cwd v r ws H So p o)|]. split; [exact V|]. split; [exact R|].
  intros Gh U pr w s q x Rs Ov Da T Hh K.
  assert (Vq : version_query q -> False).
  { intros Q. destruct (C89_panic _ _ _ _ _ _ _ _ _ _ _ Ca Rs Q K) as (_ & D & _). congruence. }
  assert (Nh : fst (os_run_query windows (B ".exe") pr w ec QHostTriple s) <> Panic x).
  { intros Kh. destruct (C89_panic _ _ _ _ _ _ _ _ _ _ _ Ca Rs (or_introl eq_refl) Kh) as (_ & D & _). congruence. }
  assert (Tq : forall a, target_query q a -> False).
  { intros a Q. destruct (arg_cases a) as [[(t & Ht) _]|[_ (t & -> & N)]].
    - exact (deep_target f p cwd o env l ps ec pr w q a t s x eq_refl En R L (fun q => visited_deep _ v r ws home ps q V Gh) U Ov Q Ht K).
    - exact (T t (or_introl Q) N). }
  unfold target_query, version_query in *. destruct q as [a|a|a|a|a|args|args| | | | |]; try (apply (Tq a); tauto); try (apply Vq; tauto).
  - apply (build_panic ec pr w s _ cwd Bt) in K. destruct K as [[_ (t & I & N)]|(_ & _ & [K|(_ & h & K & N)])]; [|contradiction|exact (Hh h K N)].
    apply (T t); eauto.
  - exact (C83_never pr w ec _ s x (or_intror (or_intror (ex_intro _ args eq_refl))) K).
  - exact (C83_never pr w ec _ s x (or_introl eq_refl) K).
  - exact (C83_never pr w ec _ s x (or_intror (or_introl eq_refl)) K).
Qed.
Print Assumptions C90_safe.

(** ** Keys *)
(** The first key that is not valid is reported, if the compiler answers where it is asked before. *)
Theorem C90_key f p cwd o v r ws env ec :
  read_as cwd (Some v, r, ws) -> sturdy v -> environment p o env -> os_easy_load windows f p cwd o = Ok ec ->
  exists home ps l tables,
    any_home p o (Some v, r, ws) home /\ any_visited (fs_exists f) (Some v, r, ws) home ps /\ reads f ps l /\ tables_of l tables
    /\ ((forall h, home = Some h -> roomy h) -> Forall (fun y => text_keys (c_target (snd y))) l ->
        forall pr w q a t s pre k c post,
        os_reached windows (B ".exe") pr w ec s -> overflow_checks pr = false ->
        target_query q a -> os_real_arg windows a -> os_to_triple windows a = Ok t ->
        is_cfg (tt_triple t) = false -> first_defined (target_turn env (tt_triple t)) = None ->
        tables = pre ++ (k, c) :: post -> valid_keys pre -> is_cfg k = true -> ~ valid_cfg k ->
        ~ has_cfg pre \/ (forall r n x, ~ failure (cfg_question r (cli_target t)) (w_run w n (cfg_question r (cli_target t))) x) ->
        exists e, fst (os_run_query windows (B ".exe") pr w ec q s) = Err (ECfgExprParse e)
        /\ unwrapped k (pe_original e) /\ explains (pe_original e) (pe_span e) (pe_reason e)).
Proof.
  intros H So En L. set (home := os_cx_cargo_home windows p (into_context p o cwd) cwd).
  assert (V := visited_any cwd v r ws H So (fs_exists f) home). set (ps := os_walk windows (fs_exists f) cwd home) in *.
  assert (Rd : exists l, reads f ps l).
  { destruct (any_parts f p cwd o ec L) as (c & de & Hc & _ & _). unfold os_load_with_options in Hc. fold home ps in Hc.
    assert (T : is_ok (load_files f ps) = true) by (now rewrite Hc). apply load_files_ok in T as (l & R & _). eauto. }
  destruct Rd as (l & R). assert (Wk : os_walk windows (fs_exists f) cwd home = ps) by reflexivity.
  assert (T := any_tables f p cwd o env l ps ec Wk En R L).
  assert (G : forall n, env_get n env = env_get n (cx_env (ec_cx ec))).
  { intros n. rewrite (any_cx f p cwd o ec L). exact (any_env p cwd o env En n). }
  exists home, ps, l, (ec_de_target ec).
  split; [exact (home_any cwd v r ws H So p o)|]. split; [exact V|]. split; [exact R|]. split; [exact T|].
  intros Gh U pr w q a t s pre k c post Rs O Q Ra Ht C F E Vk K Bad Fl. assert (Ku := win_keys l U _ T).
  destruct (os_run_query windows (B ".exe") pr w ec q s) as [[x|e|x] s'] eqn:Hq; cbn [fst].
  - exfalso.
    assert (Gr : forall y, In y ps -> grounded y).
    { intros y. apply (visited_grounded _ v r ws home ps y So V). intros h Eh. destruct (Gh h Eh) as (vh & rh & wh & Rh & Sh & _).
      now exists vh, rh, wh. }
    destruct (any_target_final f p cwd o env l ps ec Wk En R L U pr w q a t s Rs Q Ra Ht v r ws x s' H So Gr Hq) as (m & e & (out & _ & D) & _).
    destruct (D k c) as (y & roots & Y1 & Y2 & _); [rewrite E; apply in_elt | assumption |]. apply Bad. now exists y, roots.
  - assert (P := OsQueryBlameProof.target_err windows (B ".exe") ec pr w q a t s e s' Ku Q Ht Hq).
    apply (problem_ext w (cx_env (ec_cx ec)) env) in P; [|intros n; symmetry; apply G].
    destruct (problem_key _ _ _ _ _ _ _ pre k c post P C F E Vk K Bad Fl) as (pe & -> & X). now exists pe.
  - exfalso. apply (deep_target f p cwd o env l ps ec pr w q a t s x Wk En R L (fun q => visited_deep _ v r ws home ps q V Gh) U O Q Ht).
    now rewrite Hq.
Qed.
Print Assumptions C90_key.

(** ** Examples *)
Definition c90_near : toml :=
  TomlTab [(B "build", TomlTab [(B "target", TomlArr [TomlStr (B "x-y"); TomlStr (B "t/my.json")])]);
           (B "target", TomlTab [(B "cfg(unix)", TomlTab [(B "rustflags", TomlStr (B "-u"))]);
                                 (B "cfg(x", TomlTab [(B "linker", TomlStr (B "l"))])])].
Definition c90_far : toml := TomlTab [(B "build", TomlTab [(B "rustdoc", TomlStr (B "./rd"))])].
Definition c90_fs (far : read_result) : fs :=
  mkFsys (fun a => existsb (std_eqb windows a) [B "C:\p\.cargo\config"; B "D:\h\config.toml"])
         (fun a => if std_eqb windows a (B "C:\p\.cargo\config") then ReadTree c90_near
                   else if std_eqb windows a (B "D:\h\config.toml") then far else ReadErr KNotFound).
Definition c90_process (vars : list (str * str)) : process_env := mkProcess ((B "CARGO_HOME", B "d:/h/") :: vars) None.
Definition c90_cwd : str := B "c:/p//a\.".
Definition c90_load (far : read_result) (vars : list (str * str)) :=
  os_easy_load windows (c90_fs far) (c90_process vars) c90_cwd options_default.
Definition c90_world (cfg : outcome) : world := mkWorld (fun _ _ => false) (fun _ _ => cfg).
Definition c90_ask (cfg : outcome) (vars : list (str * str)) (q : query) :=
  match c90_load (ReadTree c90_far) vars with
  | Ok ec => let (x, s) := os_run_query windows (B ".exe") release (c90_world cfg) ec q (state_init (ec_cx ec)) in
      Some (match x with Err e => Err (error_text (fun _ => B "not found") (fun _ => []) e) | Ok a => Ok a | Panic y => Panic y end,
            length (s_trace s))
  | _ => None
  end.
Definition c90_unix : outcome := Exited true (B "0") (B "unix" ++ ["010"%char]) [].
Example C90_ex_load :
  c90_load (ReadErr KPermissionDenied) [(B "CARGO_BUILD_JOBS", B "x")]
    = Err (EWithContext (MText (B "failed to read `d:/h/config.toml`")) (Some (SIo KPermissionDenied)))
  /\ c90_load (ReadTree c90_far) [(B "CARGO_TERM_COLOR", B "x"); (B "CARGO_BUILD_JOBS", B "x")]
    = Err (not_parsed (B "CARGO_BUILD_JOBS") SParse).
Proof. vm_compute. split; reflexivity. Qed.
Example C90_ex_asked :
  c90_ask c90_unix [] (QBuildTargetForConfig [])
    = Some (Ok (ATriples [mkTriple (B "x-y") None; mkTriple (B "my") (Some (B "c:/p\t/my.json"))]), 0)
  /\ c90_ask c90_unix [] (QBuildTargetForConfig [ArgText (B "a\..")]) = Some (Panic PUnwrapNone, 0)
  /\ c90_ask c90_unix [(B "CARGO_TARGET_T_RUNNER", B " ")] (QLinker (ArgText (B "t")))
    = Some (Err (B "invalid length 0, expected at least one element"), 0)
  /\ option_map snd (c90_ask c90_unix [] (QLinker (ArgText (B "t")))) = Some 1
  /\ c90_ask (NotStarted KNotFound) [] (QLinker (ArgText (B "t")))
    = Some (Err (B "could not execute process `rustc --print cfg --target t` (never executed)"), 1).
Proof. vm_compute. repeat split. Qed.
(** What the theorems ask for: the directory, the environment, a home with room, and a key that is not valid after one that is. *)
Ltac read := WinAnyLoad.read.
Definition c90_env : env_map := Eval vm_compute in cx_env (into_context (c90_process []) options_default c90_cwd).
Lemma c90_read : read_as c90_cwd (Some (WinAnySpec.AtDrive "C"), true, [B "p"; B "a"]).
Proof. change [B "p"; B "a"] with (WinSpec.pieces (B "/p//a\.")). read. Qed.
Lemma c90_environment : environment (c90_process []) options_default c90_env.
Proof. change c90_env with (cx_env (into_context (c90_process []) options_default c90_cwd)). apply environment_ex. discriminate. Qed.
Lemma c90_home : forall h, any_home (c90_process []) options_default (Some (WinAnySpec.AtDrive "C"), true, [B "p"; B "a"]) (Some h) -> roomy h.
Proof.
  assert (V : variable_is (p_vars (c90_process [])) (B "CARGO_HOME") (Some (B "d:/h/"))).
  { apply variable_set with (before := []) (n := B "CARGO_HOME") (after := []); [reflexivity|reflexivity|constructor]. }
  assert (Vu : forall x, variable_is (p_vars (c90_process [])) (B "CARGO_HOME") x -> x = Some (B "d:/h/")).
  { intros x X. apply var_spec in X, V. congruence. }
  assert (Rh : read_as (B "d:/h/") (Some (WinAnySpec.AtDrive "D"), true, WinSpec.pieces (B "/h/"))) by read.
  intros h H. inversion H as [|? E'|s x E' Vs Ns Lc|d m x var E' Vs Em D R S|]; subst.
  - discriminate E'.
  - apply Vu in Vs. injection Vs as ->. destruct (located_unique _ (B "d:/h/") h (B "d:/h/") Lc) as (m & M & M').
    { now apply located_volume with (WinAnySpec.AtDrive "D") true (WinSpec.pieces (B "/h/")). }
    assert (Em := read_unique _ _ _ Rh M'). subst m. do 3 eexists. split; [exact M|]. split; [repeat split; discriminate|discriminate].
  - apply Vu in Vs. subst var. destruct Em; discriminate.
Qed.
Example C90_ex_meets : exists ec,
  read_as c90_cwd (Some (WinAnySpec.AtDrive "C"), true, [B "p"; B "a"]) /\ sturdy (WinAnySpec.AtDrive "C")
  /\ environment (c90_process []) options_default c90_env /\ c90_load (ReadTree c90_far) [] = Ok ec
  /\ cargo_of (c90_fs (ReadTree c90_far)) (c90_process []) c90_cwd options_default (B "cargo") ec
  /\ (forall h, any_home (c90_process []) options_default (Some (WinAnySpec.AtDrive "C"), true, [B "p"; B "a"]) (Some h) -> roomy h)
  /\ (exists u c, ec_de_target ec = [(B "cfg(unix)", u)] ++ (B "cfg(x", c) :: [])
  /\ valid_cfg (B "cfg(unix)") /\ ~ valid_cfg (B "cfg(x") /\ first_defined (target_turn c90_env (B "t")) = None.
Proof.
  destruct (c90_load (ReadTree c90_far) []) as [ec| |] eqn:Eq; [|vm_compute in Eq; discriminate Eq..]. exists ec.
  split; [exact c90_read|]. split; [repeat split; discriminate|]. split; [exact c90_environment|]. split; [reflexivity|]. split; [|split; [exact c90_home|split]].
  - split; [exact Eq|]. exists c90_env. split; [exact c90_environment|]. apply cargo_default; reflexivity.
  - vm_compute in Eq. injection Eq as <-. eexists. eexists. vm_compute. reflexivity.
  - split; [apply (parse_ok_accepted release); reflexivity|]. split; [|vm_compute; reflexivity].
    intros K. apply (accepted_parse_ok release) in K; [discriminate K|reflexivity..].
Qed.
