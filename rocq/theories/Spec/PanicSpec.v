(** When the library panics. *)
From Verif.Model Require Import Base Str BMap Error Value De CfgExpr Triple EasyTypes Context Process Resolve Easy.
From Verif.Spec Require Import StrSpec PathSpec ConfigSpec EnvSpec Utf8Spec CfgSpec CfgErrorSpec TripleSpec RootSpec
  TargetSpec QuerySpec.

(** ** Expressions *)

(** The text begins with something that can be written, up to the name of the 256th call
    among the arguments of one call. *)
Definition crowded (s : str) : Prop :=
  exists pre rest ts f its args g,
    s = pre ++ rest /\ parted pre rest
    /\ fine pre (ts ++ callee_token f :: TOpen :: its ++ [callee_token g])
    /\ items args its /\ calls args = 255.

(** ** Values *)

(** The value is relative to a directory that does not exist: its file is not in a directory
    that has a parent. *)
Definition afloat {A} (cwd : str) (v : value A) : Prop :=
  exists d, def v = Some d /\ forall r, ~ root_of cwd d r.
(** No name of a target can be had from the path. *)
Definition nameless (s : str) : Prop :=
  spec_like s /\ forall n st, last_name s n -> stem_of n st -> ~ utf8 st.

(** A value of the configuration that has no meaning as a path or as a target. *)
Inductive unnamed (cwd : str) (de : config) : Prop :=
| unnamed_program k v :
    In k [BuildRustc; BuildRustcWrapper; BuildRustcWorkspaceWrapper; BuildRustdoc] ->
    look k de = Some v -> (forall p, ~ program_at cwd v p) -> unnamed cwd de
| unnamed_path k v :
    In k [BuildTargetDir; BuildDepInfoBasedir] ->
    look k de = Some v -> (forall p, ~ path_at cwd v p) -> unnamed cwd de
| unnamed_browser ws :
    look_program DocBrowser de = Some ws -> (forall p, ~ command_at cwd ws p) -> unnamed cwd de
| unnamed_target fm ws v :
    look_list BuildTarget de = Some (fm, ws) -> In v ws ->
    nameless (val v) \/ spec_like (val v) /\ afloat cwd v -> unnamed cwd de
| unnamed_variable n v r :
    look (EnvVarValue n) de = Some v -> look (EnvVarRelative n) de = Some r -> val r = true ->
    afloat cwd v -> unnamed cwd de.

(** ** Settings of a target *)

(** Nothing but the [cfg(..)] tables stands in the way of the settings. *)
Definition ready (env : env_map) (triple : str) : Prop :=
  is_cfg triple = false /\ target_vars_readable env triple.

(** No key among them stops the work. *)
Definition harmless (pr : profile) (tables : bmap target_config) : Prop :=
  forall k v, In (k, v) tables -> is_cfg k = true ->
  valid_cfg k /\ forall x, unwrapped k x -> overflow_checks pr = true -> ~ crowded x.

(** A key has more arguments that are calls than can be counted, and the work gets there. *)
Definition key_overflows (pr : profile) (w : world) (c : econfig) (tables : bmap target_config) (target : str)
  (s : state) : Prop :=
  overflow_checks pr = true /\ exists pre k v post x,
    tables = pre ++ (k, v) :: post /\ harmless pr pre /\ (has_cfg pre -> cfg_available pr w c s target)
    /\ is_cfg k = true /\ unwrapped k x /\ crowded x.
(** The linker or the runner has no meaning as a program. *)
Definition no_program (cwd : str) (env : env_map) (tables : bmap target_config) (triple : str) (matches : str -> bool)
  : Prop :=
  (exists v, target_linker env tables matches triple = Some v /\ forall p, ~ program_at cwd v p)
  \/ (exists ws, target_runner env tables matches triple = Some ws /\ forall p, ~ command_at cwd ws p).

(** ** Tools *)

(** The question [q] to rustc, put together at time [n], is asked at time [m]. *)
Definition rustc_asked (w : world) (cx : context) (b : ebuild) (n m : nat) (q : command) : Prop :=
  exists p, ask (maybe (eb_rustc_wrapper b) ++ [p; B "-vV"]) q
  /\ match eb_rustc b with
     | Some r => p = r /\ m = n
     | None => exists f, next_to (cx_cargo cx) f /\ p = (if w_exists w n f then f else B "rustc") /\ m = S n
     end.
(** The answer at time [n]. *)
Definition answers (w : world) (n : nat) (q : command) (tells : str -> Prop) : Prop :=
  exists out, read_outcome q (w_run w n q) = Ok out /\ tells out.

(** The version has been had before, and is had again in the search for the host. *)
Definition told_twice (pr : profile) (w : world) (c : econfig) (s : state) : Prop :=
  let cx := ec_cx c in
  debug_assertions pr = true /\ s_host s = None
  /\ (s_cargo_version s <> None /\ answers w (s_clock s) (cargo_question cx) (fun out => exists v, says_cargo out v)
      \/ s_rustc_version s <> None
         /\ ~ answers w (s_clock s) (cargo_question cx) (fun out => (exists v, says_cargo out v) /\ exists h, says_host out h)
         /\ exists m q, rustc_asked w cx (ec_build c) (S (s_clock s)) m q
            /\ answers w m q (fun out => exists v, says_rustc out v)).
