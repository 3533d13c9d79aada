(** What the caller's options, the process and the defaults decide. *)
From Verif.Model Require Import Base Str Error Value De EasyTypes Context Resolve Easy.
From Verif.Spec Require Import EnvSpec TargetSpec FinalSpec.

(** ** The builder *)

(** A call of one of the methods of the builder (src/resolve.rs:49-107). *)
Inductive call :=
| CallRustc (r : epath_and_args)
| CallCargo (c : str)
| CallCargoHome (h : option str)
| CallHostTriple (t : str)
| CallEnv (vars : list (str * str)).
Definition calling (o : options) (c : call) : options :=
  match c with
  | CallRustc r => opt_rustc o r
  | CallCargo s => opt_cargo o s
  | CallCargoHome h => opt_cargo_home o h
  | CallHostTriple t => opt_host_triple o t
  | CallEnv vars => opt_env o vars
  end.
(** [ResolveOptions::default()] with these calls, in this order. *)
Definition built (l : list call) : options := fold_left calling l options_default.

(** The last call that gives something. *)
Definition last_given {A} (gives : call -> option A) (l : list call) (o : option A) : Prop :=
  match o with
  | Some a => exists l1 c l2, l = l1 ++ c :: l2 /\ gives c = Some a /\ forall c', In c' l2 -> gives c' = None
  | None => forall c, In c l -> gives c = None
  end.
Definition rustc_given (c : call) := match c with CallRustc r => Some r | _ => None end.
Definition cargo_given (c : call) := match c with CallCargo s => Some s | _ => None end.
Definition home_given (c : call) := match c with CallCargoHome h => Some h | _ => None end.
Definition host_given (c : call) := match c with CallHostTriple t => Some t | _ => None end.
Definition vars_given (c : call) := match c with CallEnv vars => Some vars | _ => None end.

(** A table of the variables that are kept, each with its last value. *)
Definition tabulated (vars : list (str * str)) (e : env_map) : Prop :=
  one_value_each e /\ forall n v, env_get n e = Some v <-> kept n /\ last_setting n vars v.
Definition given_variables (v : option (list (str * str))) (e : option env_map) : Prop :=
  match v, e with
  | Some vars, Some e => tabulated vars e
  | None, None => True
  | _, _ => False
  end.

(** ** The program [cargo] *)
Inductive cargo_of (o : options) (env : env_map) : str -> Prop :=
| cargo_option c : o_cargo o = Some c -> cargo_of o env c
| cargo_variable c : o_cargo o = None -> env_get (B "CARGO") env = Some c -> cargo_of o env c
| cargo_default : o_cargo o = None -> env_get (B "CARGO") env = None -> cargo_of o env (B "cargo").

(** ** Two ways of starting *)
Definition same_start (p p' : process_env) (cwd : str) (o o' : options) : Prop :=
  (exists env cargo, environment p o env /\ environment p' o' env
                     /\ cargo_of o env cargo /\ cargo_of o' env cargo)
  /\ (exists home, home_of p o cwd home /\ home_of p' o' cwd home)
  /\ o_rustc o = o_rustc o' /\ o_host_triple o = o_host_triple o'.

(** The two configurations have the same settings, and any sequence of calls gets the same
    answers and runs the same programs. *)
Definition same_use (c c' : econfig) : Prop :=
  c' = in_context c (ec_cx c')
  /\ forall pr w qs q,
     run_query pr w c q (run_queries pr w c qs (state_init (ec_cx c)))
     = run_query pr w c' q (run_queries pr w c' qs (state_init (ec_cx c'))).
(** Which of several complaints about variables comes first may differ. *)
Definition same_end (x y : result econfig) : Prop :=
  match x, y with
  | Ok c, Ok c' => same_use c c'
  | Err _, Err _ => True
  | Panic p, Panic p' => p = p'
  | _, _ => False
  end.

(** The variables of two processes, as far as they are read. *)
Definition same_relevant (p p' : process_env) : Prop :=
  (forall n v, kept n -> last_setting n (p_vars p) v <-> last_setting n (p_vars p') v)
  /\ env_get (B "CARGO_HOME") (p_vars p) = env_get (B "CARGO_HOME") (p_vars p')
  /\ p_home_dir p = p_home_dir p'.
