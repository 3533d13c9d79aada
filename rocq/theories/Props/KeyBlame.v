(** The first key that is no valid expression is the one that is reported (C57). *)
From Verif.Model Require Import Base Str Path BMap Error Value De CfgExpr Triple EasyTypes Context ApplyEnv Load Process
  Resolve Easy ErrorText.
From Verif.Spec Require Import StrSpec ConfigSpec EnvSpec Utf8Spec CfgSpec.
From Verif.Proof Require Import Utf8Proof CfgEvalProof.
From Verif.Props Require Import Query Target QueryBlame.
From Verif.Spec Require Import CfgErrorSpec TripleSpec TargetSpec QuerySpec ErrorSpec BlameSpec QueryBlameSpec.

(** The list up to the first bad key, and the bad key, are determined. *)
Lemma first_bad (pre pre' : bmap target_config) k v post k' v' post' :
  pre ++ (k, v) :: post = pre' ++ (k', v') :: post' ->
  valid_keys pre -> is_cfg k = true -> ~ valid_cfg k ->
  valid_keys pre' -> is_cfg k' = true -> ~ valid_cfg k' -> k = k'.
Proof.
  intros E V K Bad V' K' Bad'. revert pre' E V'. induction pre as [|[k0 v0] pre IH]; intros [|[k1 v1] pre'] E V'; cbn in E.
  - congruence.
  - injection E as <- <- E. exfalso. apply Bad. apply (V' k v); [now left | assumption].
  - injection E as <- <- E. exfalso. apply Bad'. apply (V k0 v0); [now left | assumption].
  - injection E as <- <- E. apply (IH (fun a b I => V a b (or_intror I)) pre' E (fun a b I => V' a b (or_intror I))).
Qed.
Lemma first_cfg (pre pre' : bmap target_config) k v post k' v' post' :
  pre ++ (k, v) :: post = pre' ++ (k', v') :: post' ->
  ~ has_cfg pre -> is_cfg k = true -> ~ has_cfg pre' -> is_cfg k' = true -> k = k'.
Proof.
  intros E N K N' K'. revert pre' E N'. induction pre as [|[k0 v0] pre IH]; intros [|[k1 v1] pre'] E N'; cbn in E.
  - congruence.
  - injection E as <- <- E. exfalso. apply N'. exists k, v. split; [now left | assumption].
  - injection E as <- <- E. exfalso. apply N. exists k0, v0. split; [now left | assumption].
  - injection E as <- <- E. refine (IH _ pre' E _); intros (a & b & I & J); [apply N | apply N']; exists a, b; split; [now right | assumption | now right | assumption].
Qed.
Lemma problem_key w env tables t s s' e pre k v post :
  target_problem w env tables t s s' e -> is_cfg (tt_triple t) = false ->
  first_defined (target_turn env (tt_triple t)) = None ->
  tables = pre ++ (k, v) :: post -> valid_keys pre -> is_cfg k = true -> ~ valid_cfg k ->
  ~ has_cfg pre \/ (forall r n x, ~ failure (cfg_question r (cli_target t)) (w_run w n (cfg_question r (cli_target t))) x) ->
  exists pe, e = ECfgExprParse pe /\ unwrapped k (pe_original pe) /\ explains (pe_original pe) (pe_span pe) (pe_reason pe).
Proof.
  intros P C F E V K Bad R.
  destruct P as [C' | name x e' _ _ F' | pre' k' v' post' x pe _ _ E' V' K' Bad' X O Ex _
                | pre' k' v' post' r n e' _ _ E' N' K' Val' _ _ _ _ Fl].
  - congruence.
  - congruence.
  - exists pe. split; [reflexivity|]. rewrite E in E'.
    rewrite (first_bad _ _ _ _ _ _ _ _ E' V K Bad V' K' Bad'), O. now split.
  - exfalso. destruct R as [N | R]; [|exact (R r n e' Fl)]. rewrite E in E'.
    apply Bad. now rewrite (first_cfg _ _ _ _ _ _ _ _ E' N K N' K').
Qed.

(** Whatever is wrong with the keys after it, and whatever was asked before. *)
Theorem C57_key conf cx c pr w q a t s pre k v post :
  from_unresolved conf cx = Ok c -> text_keys (c_target conf) -> overflow_checks pr = false ->
  reached pr w c s -> target_query q a -> real_arg a -> to_triple a = Ok t -> is_cfg (tt_triple t) = false ->
  first_defined (target_turn (cx_env cx) (tt_triple t)) = None ->
  c_target conf = pre ++ (k, v) :: post -> valid_keys pre -> is_cfg k = true -> ~ valid_cfg k ->
  ~ has_cfg pre \/ (forall r n x, ~ failure (cfg_question r (cli_target t)) (w_run w n (cfg_question r (cli_target t))) x) ->
  exists e, fst (run_query pr w c q s) = Err (ECfgExprParse e)
  /\ unwrapped k (pe_original e) /\ explains (pe_original e) (pe_span e) (pe_reason e).
Proof.
  intros Hc U O Rs Q Ra Ht C F E V K Bad R.
  assert (I : In (k, v) (c_target conf)) by (rewrite E; apply in_elt).
  destruct (C23_bad_key conf cx c pr w q a t s k v Hc U I K Bad Rs Q Ra Ht) as [_ X]. destruct (X O) as (e & He).
  destruct (run_query pr w c q s) as [r s'] eqn:H. cbn [fst] in *. subst r.
  destruct (problem_key _ _ _ _ _ _ _ pre k v post (C57_target conf cx c pr w q a t s e s' Hc U Q Ht H) C F E V K Bad R)
    as (pe & -> & P). now exists pe.
Qed.
Print Assumptions C57_key.

(** Two invalid keys after a valid one: the first is reported, though rustc has been asked. *)
Definition ex_keys_config : config :=
  mkConfig [] ex_build (c_doc config_default) [] (c_future_incompat_report config_default)
    (c_cargo_new config_default) (c_http config_default) (c_net config_default) [] (c_registry config_default)
    (map (fun k => (B k, mkTarget None None None None)) ["cfg(not(unix))"; "cfg(unix a)"; "cfg(x"]%string) (c_term config_default).
Definition ex_keys_cx : context := mkContext [] (B "/bin/cargo") (B "/cwd") None None None.
Definition ex_keys_world : world := mkWorld (fun _ _ => false) (fun _ _ => ex_says (B "unix")).
Example C57_ex_first_key :
  exists c v post, from_unresolved ex_keys_config ex_keys_cx = Ok c /\ text_keys (c_target ex_keys_config)
  /\ first_defined (target_turn (cx_env ex_keys_cx) (B "t")) = None
  /\ c_target ex_keys_config = [(B "cfg(not(unix))", v)] ++ (B "cfg(unix a)", v) :: post
  /\ valid_keys [(B "cfg(not(unix))", v)] /\ is_cfg (B "cfg(unix a)") = true /\ ~ valid_cfg (B "cfg(unix a)")
  /\ (forall r n x, ~ failure (cfg_question r (B "t")) (w_run ex_keys_world n (cfg_question r (B "t"))) x)
  /\ fst (run_query release ex_keys_world c (QLinker (ArgText (B "t"))) (state_init (ec_cx c)))
     = Err (ECfgExprParse (mkParseError (B "unix a") (5, 6) (Unexpected ["="; ","; ")"]%string))).
Proof.
  destruct (from_unresolved ex_keys_config ex_keys_cx) as [c|e|p] eqn:E; [|vm_compute in E; discriminate..].
  exists c. eexists. eexists. split; [reflexivity|].
  split. { intros k v I. apply utf8_valid_iff. repeat (destruct I as [[= <- _]|I]; [reflexivity|]). destruct I. }
  split; [vm_compute; reflexivity|]. split; [reflexivity|].
  split. { intros k v [[= <- _]|[]] _. apply (parse_ok_accepted release); reflexivity. }
  split; [reflexivity|].
  split. { intros H. apply (accepted_parse_ok release) in H; [vm_compute in H; discriminate H | reflexivity | reflexivity]. }
  split. { intros r n x F. apply ErrorProof.read_err in F. vm_compute in F. discriminate F. }
  vm_compute in E. injection E as <-. vm_compute. reflexivity.
Qed.
