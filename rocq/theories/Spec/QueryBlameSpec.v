(** Why a query fails, and what is said about it. *)
From Verif.Model Require Import Base Str BMap Error Value De CfgExpr Triple EasyTypes Context Process Resolve Easy.
From Verif.Spec Require Import StrSpec ConfigSpec EnvSpec Utf8Spec CfgSpec CfgErrorSpec TripleSpec TargetSpec QuerySpec
  ErrorSpec BlameSpec.

(** ** Queries about a target *)

(** The variables of a target, in the order in which they are looked at. *)
Definition target_turn (env : env_map) (triple : str) : list (option str) :=
  [unreadable [text (target_variable triple (B "LINKER"))] env;
   unreadable [(target_variable triple (B "RUNNER"), snd browser)] env;
   unreadable [text (target_variable triple (B "RUSTFLAGS"))] env;
   unreadable [text (target_variable triple (B "RUSTDOCFLAGS"))] env].
Inductive target_complaint (triple : str) : str -> str -> error -> Prop :=
| target_not_unicode name v :
    utf8_valid v = false -> target_complaint triple name v (not_parsed name (SVarError v))
| target_no_program v :
    utf8_valid v = true ->
    target_complaint triple (target_variable triple (B "RUNNER")) v
      (EWithContext (MText (B "invalid length 0, expected at least one element")) None).

(** Why a query about the target [t] fails in the state [s] and leaves the state [s']. *)
Section Problems.
Context (w : world) (env : env_map) (tables : bmap target_config) (t : triple) (s s' : state).

Definition valid_keys (l : bmap target_config) : Prop :=
  forall k v, In (k, v) l -> is_cfg k = true -> valid_cfg k.

Inductive target_problem : error -> Prop :=
| not_a_triple :
    is_cfg (tt_triple t) = true -> s' = s ->
    target_problem (EOther (MText (B "'" ++ tt_triple t ++ B "' is not valid target triple")))
| variable_unreadable name v e :
    is_cfg (tt_triple t) = false -> s' = s ->
    first_defined (target_turn env (tt_triple t)) = Some name -> env_get name env = Some v ->
    target_complaint (tt_triple t) name v e ->
    target_problem e
| key_invalid pre k v post x e :
    is_cfg (tt_triple t) = false -> first_defined (target_turn env (tt_triple t)) = None ->
    tables = pre ++ (k, v) :: post -> valid_keys pre ->
    is_cfg k = true -> ~ valid_cfg k -> unwrapped k x -> pe_original e = x -> explains x (pe_span e) (pe_reason e) ->
    (~ has_cfg pre -> s' = s) ->
    target_problem (ECfgExprParse e)
| rustc_failed pre k v post rustc n e :
    is_cfg (tt_triple t) = false -> first_defined (target_turn env (tt_triple t)) = None ->
    tables = pre ++ (k, v) :: post -> ~ has_cfg pre -> is_cfg k = true -> valid_cfg k ->
    cfg_get (cli_target t) (s_cfg s) = None ->
    s_rustc s' = Some rustc -> s_clock s' = S n -> s_trace s' = cfg_question rustc (cli_target t) :: s_trace s ->
    failure (cfg_question rustc (cli_target t)) (w_run w n (cfg_question rustc (cli_target t))) e ->
    target_problem e.
End Problems.

(** ** Queries about the tools *)
Definition unclear (c : command) (out : str) : error :=
  EOther (MText (B "unexpected version output from " ++ shown c ++ B ": " ++ out)).
(** The command was run at time [n], and failed or did not print what is needed. *)
Inductive tool_problem (w : world) (tells : str -> Prop) (c : command) (n : nat) : error -> Prop :=
| tool_failed e : failure c (w_run w n c) e -> tool_problem w tells c n e
| tool_unclear status out err text :
    w_run w n c = Exited true status out err -> utf8 out -> without_newlines out text -> ~ tells text ->
    tool_problem w tells c n (unclear c text).

Definition tells_cargo (out : str) : Prop := exists v, says_cargo out v.
Definition tells_rustc (out : str) : Prop := exists v, says_rustc out v.
Definition tells_host (tells : str -> Prop) (out : str) : Prop := tells out /\ exists h, says_host out h.
