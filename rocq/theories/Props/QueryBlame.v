(** Why queries fail (C57). *)
From Verif.Model Require Import Base Str Path BMap Error Value De CfgExpr Triple EasyTypes Context ApplyEnv Load Process
  Resolve Easy ErrorText.
From Verif.Spec Require Import StrSpec ConfigSpec EnvSpec Utf8Spec CfgSpec.
From Verif.Proof Require Import Utf8Proof ErrorProof BlameProof CfgEvalProof StateProof TargetProof QueryProof QueryBlameProof.
From Verif.Props Require Import Query.
From Verif.Spec Require Import CfgErrorSpec TripleSpec TargetSpec QuerySpec ErrorSpec BlameSpec QueryBlameSpec.

(** ** C57 *)

(** All the ways in which a query about a target fails. *)
Theorem C57_target conf cx c pr w q a t s e s' :
  from_unresolved conf cx = Ok c -> text_keys (c_target conf) ->
  target_query q a -> to_triple a = Ok t -> run_query pr w c q s = (Err e, s') ->
  target_problem w (cx_env cx) (c_target conf) t s s' e.
Proof.
  intros Hc U. apply (target_err conf cx c pr w q a t s e s' Hc).
  intros k v I. apply utf8_valid_iff. exact (U k v I).
Qed.
Print Assumptions C57_target.
(** A variable that cannot be read stops every query about the target, before anything is run,
    and the first of them is reported.  (For a name beginning with [cfg(] see C23.) *)
Theorem C57_variable conf cx c pr w q a t s name v e :
  from_unresolved conf cx = Ok c -> text_keys (c_target conf) ->
  reached pr w c s -> target_query q a -> real_arg a -> to_triple a = Ok t ->
  is_cfg (tt_triple t) = false ->
  first_defined (target_turn (cx_env cx) (tt_triple t)) = Some name -> env_get name (cx_env cx) = Some v ->
  target_complaint (tt_triple t) name v e ->
  run_query pr w c q s = (Err e, s).
Proof.
  intros Hc U. apply (target_variable_err conf cx c pr w q a t s name v e Hc).
  intros k x I. apply utf8_valid_iff. exact (U k x I).
Qed.
Print Assumptions C57_variable.
Theorem C57_one_complaint triple n v e e' : target_complaint triple n v e -> target_complaint triple n v e' -> e = e'.
Proof. exact (target_complaint_unique triple n v e e'). Qed.
Print Assumptions C57_one_complaint.
(** A failing rustc is reported, if the first [cfg(..)] key needs it. *)
Theorem C57_rustc conf cx c pr w q a t s pre k v post r s1 e :
  from_unresolved conf cx = Ok c -> text_keys (c_target conf) -> overflow_checks pr = false ->
  target_query q a -> to_triple a = Ok t -> is_cfg (tt_triple t) = false ->
  target_vars_readable (cx_env cx) (tt_triple t) ->
  c_target conf = pre ++ (k, v) :: post -> ~ has_cfg pre -> is_cfg k = true -> valid_cfg k ->
  bget (cli_target t) (s_target s) = None -> cfg_get (cli_target t) (s_cfg s) = None ->
  run_query pr w c QRustc s = (Ok (AProgram r), s1) ->
  failure (cfg_question r (cli_target t)) (w_run w (s_clock s1) (cfg_question r (cli_target t))) e ->
  fst (run_query pr w c q s) = Err e.
Proof.
  intros Hc U. apply (target_rustc_err conf cx c pr w q a t s pre k v post r s1 e Hc).
  intros k' x I. apply utf8_valid_iff. exact (U k' x I).
Qed.
Print Assumptions C57_rustc.

(** The host: first cargo and then rustc have been asked in this call, and neither told it.  The
    error is that of rustc. *)
Theorem C57_host pr w c s e s' :
  reached pr w c s -> run_query pr w c QHostTriple s = (Err e, s') ->
  let cx := ec_cx c in
  cx_host0 cx = None /\ exists e' n cmd, s_clock s < n
  /\ tool_problem w (tells_host tells_cargo) (cargo_question cx) (s_clock s) e'
  /\ rustc_question w cx (ec_build c) n cmd /\ tool_problem w (tells_host tells_rustc) cmd n e
  /\ s_clock s' = S n /\ s_trace s' = cmd :: cargo_question cx :: s_trace s.
Proof.
  intros Rs H cx. apply (reached_told pr) in Rs. cbn [run_query] in H. unfold mapM, q_host_triple in H. rewrite bindM_eq in H.
  destruct (cx_host_triple pr w (ec_cx c) (ec_build c) s) as [[h|e'|p] s1] eqn:E; [discriminate| |discriminate].
  injection H as <- <-. destruct (host_query_err pr w c s e' s1 Rs E) as (N & m & e2 & n & cmd & -> & R).
  split; [exact (QueryProof.told_no_host w c s Rs N)|]. exists e2, n, cmd. exact R.
Qed.
Print Assumptions C57_host.
Theorem C57_rustc_version pr w c s e s' :
  reached pr w c s -> run_query pr w c QRustcVersion s = (Err e, s') ->
  exists n cmd, s_clock s <= n /\ rustc_question w (ec_cx c) (ec_build c) n cmd
  /\ tool_problem w tells_rustc cmd n e /\ s_clock s' = S n /\ exists before, s_trace s' = cmd :: before.
Proof.
  intros Rs H. apply (reached_told pr) in Rs. cbn [run_query] in H. unfold mapM, q_rustc_version in H. rewrite bindM_eq in H.
  destruct (cx_rustc_version pr w (ec_cx c) (ec_build c) s) as [[h|e'|p] s1] eqn:E; [discriminate| |discriminate].
  injection H as <- <-. exact (proj2 (rustc_version_query_err pr w c s e' s1 Rs E)).
Qed.
Print Assumptions C57_rustc_version.
Theorem C57_cargo_version pr w c s e s' :
  reached pr w c s -> run_query pr w c QCargoVersion s = (Err e, s') ->
  exists n, s_clock s <= n /\ tool_problem w tells_cargo (cargo_question (ec_cx c)) n e
  /\ s_clock s' = S n /\ exists before, s_trace s' = cargo_question (ec_cx c) :: before.
Proof.
  intros Rs H. apply (reached_told pr) in Rs. cbn [run_query] in H. unfold mapM, q_cargo_version in H. rewrite bindM_eq in H.
  destruct (cx_cargo_version pr w (ec_cx c) (ec_build c) s) as [[h|e'|p] s1] eqn:E; [discriminate| |discriminate].
  injection H as <- <-. exact (proj2 (cargo_version_query_err pr w c s e' s1 Rs E)).
Qed.
Print Assumptions C57_cargo_version.
Lemma triple_never s e : @triple_from error s <> Err e.
Proof. intros E. discriminate (n_triple s None None e E). Qed.
Lemma triples_never l e : traverse to_triple l <> Err e.
Proof.
  induction l as [|[s|t] l IH]; [discriminate|..]; cbn [traverse to_triple].
  - destruct (triple_from s) as [t|e'|p] eqn:E; cbn; [|exfalso; exact (triple_never s e' E)|discriminate].
    destruct (traverse to_triple l); cbn; congruence.
  - cbn. destruct (traverse to_triple l); cbn; congruence.
Qed.
(** The other queries: build targets fail only as the host does, all others never. *)
Theorem C57_build_target pr w c l s e s' :
  run_query pr w c (QBuildTargetForConfig l) s = (Err e, s') ->
  l = [] /\ (eb_target (ec_build c) = None \/ eb_target (ec_build c) = Some [])
  /\ run_query pr w c QHostTriple s = (Err e, s').
Proof.
  cbn [run_query]. unfold mapM, q_build_target_for_config, q_host_triple. rewrite !bindM_eq. unfold lift at 1.
  destruct (traverse to_triple l) as [ts|e'|p] eqn:E; [| |discriminate].
  - destruct ts as [|t ts]; [|discriminate].
    destruct l as [|a l]; [|cbn in E; destruct (to_triple a); [|discriminate..]; cbn in E; destruct (traverse to_triple l); discriminate].
    intros H. split; [reflexivity|].
    destruct (eb_target (ec_build c)) as [[|t ts]|]; [|discriminate|].
    all: (split; [auto|]); rewrite bindM_eq in H;
      destruct (cx_host_triple pr w (ec_cx c) (ec_build c) s) as [[h|e'|p] s1]; [|assumption|discriminate];
      rewrite bindM_eq in H; unfold lift in H; destruct (triple_from h) eqn:T; [discriminate| |discriminate];
      exfalso; exact (triple_never h _ T).
  - intros H. exfalso. exact (triples_never l e' E).
Qed.
Print Assumptions C57_build_target.
Theorem C57_never pr w c q s e :
  q = QRustc \/ q = QCargo \/ (exists l, q = QBuildTargetForCli l) -> fst (run_query pr w c q s) <> Err e.
Proof.
  intros [->|[->|[l ->]]]; cbn [run_query]; [|discriminate..].
  destruct (rustc_ok w c s) as (r & s1 & H). unfold mapM, q_rustc. rewrite bindM_eq, H. discriminate.
Qed.
Print Assumptions C57_never.

(** The text says what it is about: the triple, the variable, the key or the command. *)
Theorem C57_target_named io dbg w env tables t s s' e :
  target_problem w env tables t s s' e ->
  (exists v, env_get (target_variable (tt_triple t) (B "RUNNER")) env = Some v /\ split_space_separated v = [])
  \/ exists what, mentions what (error_text io dbg e) /\
     (what = tt_triple t
      \/ first_defined (map (option_map quoted_name) (target_turn env (tt_triple t))) = Some what
      \/ (exists k v, In (k, v) tables /\ is_cfg k = true /\ ~ valid_cfg k /\ unwrapped k what)
      \/ (exists cmd, In cmd (s_trace s') /\ what = shown cmd)).
Proof. exact (target_names io dbg w env tables t s s' e). Qed.
Print Assumptions C57_target_named.
Theorem C57_tool_named io dbg w tells cmd n e :
  tool_problem w tells cmd n e -> mentions (shown cmd) (error_text io dbg e).
Proof. exact (tool_names io dbg w tells cmd n e). Qed.
Print Assumptions C57_tool_named.

(** The full claim, "the text always says what it is about", is false: a blank variable of a
    runner gives a text with neither its name nor the triple. *)
Definition ex_failing (env : env_map) (tables : list string) (cargo rustc : outcome) (cfg : outcome) (q : query)
  : option (result answer * list command) :=
  let conf := mkConfig [] ex_build (c_doc config_default) [] (c_future_incompat_report config_default)
    (c_cargo_new config_default) (c_http config_default) (c_net config_default) [] (c_registry config_default)
    (map (fun k => (B k, mkTarget None None None None)) tables) (c_term config_default) in
  let w := mkWorld (fun _ p => str_eqb p (B "/bin/rustc"))
    (fun _ c => if str_eqb (cmd_program c) (B "/bin/cargo") then cargo
                else if str_eqb (last (cmd_args c) []) (B "-vV") then rustc else cfg) in
  match from_unresolved conf (mkContext env (B "/bin/cargo") (B "/cwd") None None None) with
  | Ok c => let r := run_query release w c q (state_init (ec_cx c)) in Some (fst r, s_trace (snd r))
  | _ => None
  end.
Definition ex_text (e : error) : str := error_text (fun _ => B "not found") (fun _ => []) e.
Definition ex_failing_text env tables cargo rustc cfg q : option (str * list command) :=
  match ex_failing env tables cargo rustc cfg q with
  | Some (Err e, tr) => Some (ex_text e, tr)
  | _ => None
  end.
Theorem C57_always_named_refuted :
  exists env q e, ex_failing env [] (NotStarted KNotFound) (NotStarted KNotFound) (NotStarted KNotFound) q = Some (Err e, [])
  /\ q = QRunner (ArgText (B "zz")) /\ env = [(B "CARGO_TARGET_ZZ_RUNNER", B " ")]
  /\ ~ mentions (B "zz") (ex_text e) /\ ~ mentions (B "RUNNER") (ex_text e).
Proof.
  exists [(B "CARGO_TARGET_ZZ_RUNNER", B " ")], (QRunner (ArgText (B "zz"))),
    (EWithContext (MText (B "invalid length 0, expected at least one element")) None).
  split; [vm_compute; reflexivity|]. split; [reflexivity|]. split; [reflexivity|].
  assert (K : forall c p l, mentions (c :: p) l -> existsb (Ascii.eqb c) l = true).
  { intros c p l (a & z & ->). apply existsb_exists. exists c. split; [|apply Ascii.eqb_refl].
    apply in_or_app. right. now left. }
  split; intros M; apply K in M; vm_compute in M; discriminate.
Qed.
Print Assumptions C57_always_named_refuted.

(** *** Examples *)
Example C57_ex_variable :
  let env := [(B "CARGO_TARGET_A_B_LINKER", [Ascii.ascii_of_nat 255]); (B "CARGO_TARGET_A_B_RUNNER", B "")] in
  option_map fst (ex_failing_text env ["cfg(unix)"]%string (ex_says []) (ex_says []) (ex_says []) (QRustflags (ArgText (B "a-b"))))
  = Some (B "failed to parse environment variable `CARGO_TARGET_A_B_LINKER`")
  /\ option_map fst (ex_failing_text (tl env) ["cfg(unix)"]%string (ex_says []) (ex_says []) (ex_says []) (QLinker (ArgText (B "a-b"))))
  = Some (B "invalid length 0, expected at least one element")
  /\ first_defined (target_turn env (B "a-b")) = Some (B "CARGO_TARGET_A_B_LINKER").
Proof. vm_compute. repeat split. Qed.
Definition ex_cmd (l : list string) : command :=
  match l with [] => mkCommand [] [] | p :: a => mkCommand (B p) (map B a) end.
Definition ex_asked : command := ex_cmd ["/wrap"; "/wswrap"; "/bin/rustc"; "--print"; "cfg"; "--target"; "t"]%string.
Definition ex_rustc_asked : command := ex_cmd ["/wrap"; "/bin/rustc"; "-vV"]%string.
Definition ex_cargo_asked : command := ex_cmd ["/bin/cargo"; "-vV"]%string.
Example C57_ex_key :
  ex_failing_text [] ["cfg(not(unix))"; "cfg(unix a)"; "t"]%string (ex_says []) (ex_says []) (ex_says (B "unix")) (QLinker (ArgText (B "t")))
  = Some (B "unix a" ++ [nl] ++ B "     ^ expected one of `=`, `,`, `)` here", [ex_asked])
  /\ ex_failing_text [] ["cfg(not(unix))"; "cfg(unix a)"; "t"]%string (ex_says []) (ex_says []) (NotStarted KNotFound) (QLinker (ArgText (B "t")))
  = Some (B "could not execute process `/wrap /wswrap /bin/rustc --print cfg --target t` (never executed)", [ex_asked])
  /\ ex_failing_text [] [] (ex_says []) (ex_says []) (ex_says []) (QLinker (ArgText (B "cfg(a)")))
  = Some (B "'cfg(a)' is not valid target triple", []).
Proof. vm_compute. repeat split. Qed.
Example C57_ex_tools :
  let q := ex_failing_text [] [] (ex_says (B "hello")) (ex_says (B "world")) (ex_says []) in
  let unclear_rustc := B "unexpected version output from `/wrap /bin/rustc -vV`: world" in
  q QHostTriple = Some (unclear_rustc, [ex_rustc_asked; ex_cargo_asked])
  /\ q QRustcVersion = Some (unclear_rustc, [ex_rustc_asked; ex_rustc_asked; ex_cargo_asked])
  /\ q QCargoVersion = Some (B "unexpected version output from `/bin/cargo -vV`: hello", [ex_cargo_asked; ex_rustc_asked; ex_cargo_asked])
  /\ q (QBuildTargetForConfig []) = q QHostTriple.
Proof. vm_compute. repeat split. Qed.
(** The hypotheses of [C57_rustc] and [C57_variable] in a fresh state. *)
Example C57_ex_rustc :
  exists c, from_unresolved ex_config ex_context = Ok c /\ overflow_checks release = false
  /\ text_keys (c_target ex_config) /\ target_vars_readable (cx_env ex_context) (B "t")
  /\ (exists v, c_target ex_config = [] ++ (B "cfg(unix)", v) :: []) /\ is_cfg (B "cfg(unix)") = true
  /\ valid_cfg (B "cfg(unix)")
  /\ let w := mkWorld (fun _ _ => false) (fun _ _ => NotStarted KNotFound) in
     let s := state_init (ec_cx c) in
     bget (B "t") (s_target s) = None /\ cfg_get (B "t") (s_cfg s) = None
     /\ exists r s1, run_query release w c QRustc s = (Ok (AProgram r), s1)
        /\ exists e, failure (cfg_question r (B "t")) (w_run w (s_clock s1) (cfg_question r (B "t"))) e.
Proof.
  destruct (from_unresolved ex_config ex_context) as [c|e|p] eqn:E; [|vm_compute in E; discriminate..].
  exists c. split; [reflexivity|]. split; [reflexivity|].
  split; [intros k v [[= <- <-]|[]]; apply utf8_valid_iff; reflexivity|].
  split; [|].
  { split; [intros key v _ H|intros v H]; discriminate H. }
  split; [eexists; reflexivity|]. split; [reflexivity|].
  split; [|].
  { apply (parse_ok_accepted release); reflexivity. }
  split; [reflexivity|]. split; [reflexivity|].
  vm_compute in E. injection E as <-.
  eexists _, _. split; [vm_compute; reflexivity|]. eexists. constructor.
Qed.
