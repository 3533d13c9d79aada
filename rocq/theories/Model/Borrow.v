(** The cells of a resolved configuration with their borrow flags: [RefCell] and
    [OnceCell] in src/easy.rs and src/resolve.rs, and code of the caller that runs in
    the middle of a call.  [Resolve] and [Easy] model the same functions without flags. *)
From Verif.Model Require Import Base Str Path BMap Error Value De Triple EasyTypes Context ApplyEnv Resolve Easy CfgExpr.

(** [RefCell]: how often it is borrowed, or that it is borrowed mutably. *)
Inductive flag := Shared (n : nat) | Unique.
Record bstate := mkB {
  b_cells : state;
  b_target : flag;   (* src/easy.rs:102 [target] *)
  b_cfg : flag       (* src/resolve.rs:157 [cfg] *)
}.

(** How a computation ends: with a result or a panic of [Easy], with a panic of a cell
    ([BorrowError], [BorrowMutError], [reentrant init]), or with a panic of the caller's
    code. *)
Inductive ending (A : Type) := Done (r : result A) | Tripped | Thrown.
Arguments Done {A} r.
Arguments Tripped {A}.
Arguments Thrown {A}.
Definition BM (A : Type) := bstate -> ending A * bstate.
Definition bret {A} (a : A) : BM A := fun s => (Done (Ok a), s).
Definition bbind {A A'} (m : BM A) (f : A -> BM A') : BM A' := fun s =>
  match m s with
  | (Done (Ok a), s') => f a s'
  | (Done (Err e), s') => (Done (Err e), s')
  | (Done (Panic p), s') => (Done (Panic p), s')
  | (Tripped, s') => (Tripped, s')
  | (Thrown, s') => (Thrown, s')
  end.
Declare Scope borrow_scope.
Notation "x <== e ;; k" := (bbind e (fun x => k))
  (at level 61, e at next level, right associativity) : borrow_scope.
Open Scope borrow_scope.

(** What does not touch a [RefCell]. *)
Definition plain {A} (m : M A) : BM A := fun s =>
  let (r, t) := m (b_cells s) in (Done r, mkB t (b_target s) (b_cfg s)).
Definition btrip {A} : BM A := fun s => (Tripped, s).
Definition bthrow {A} : BM A := fun s => (Thrown, s).

(** [RefCell::borrow_mut] and [borrow]; the guard is dropped however the body ends. *)
Definition take_unique (f : flag) : option flag := match f with Shared O => Some Unique | _ => None end.
Definition take_shared (f : flag) : option flag := match f with Shared n => Some (Shared (S n)) | Unique => None end.
Definition release (f : flag) : flag := match f with Shared (S n) => Shared n | _ => Shared O end.
Definition on_target (f : flag) (s : bstate) : bstate := mkB (b_cells s) f (b_cfg s).
Definition on_cfg (f : flag) (s : bstate) : bstate := mkB (b_cells s) (b_target s) f.
Definition with_target {A} (take : flag -> option flag) (body : BM A) : BM A := fun s =>
  match take (b_target s) with
  | None => (Tripped, s)
  | Some f => let (r, s') := body (on_target f s) in (r, on_target (release (b_target s')) s')
  end.
Definition with_cfg {A} (take : flag -> option flag) (body : BM A) : BM A := fun s =>
  match take (b_cfg s) with
  | None => (Tripped, s)
  | Some f => let (r, s') := body (on_cfg f s) in (r, on_cfg (release (b_cfg s')) s')
  end.

(** ** The library *)

(** src/resolve.rs:162-177 [rustc]: [OnceCell::get_or_init] panics if the closure has
    filled the cell. *)
Definition b_rustc (w : world) (cx : context) (b : ebuild) : BM epath_and_args :=
  s <== plain get ;;
  match s_rustc s with
  | Some r => bret r
  | None =>
      rustc <== plain (base_rustc w cx b) ;;
      let r := chain_program (opt_list (eb_rustc_wrapper b)
                                ++ opt_list (eb_rustc_workspace_wrapper b)) rustc in
      s <== plain get ;;
      match s_rustc s with
      | Some _ => btrip
      | None => _ <== plain (set_rustc r) ;; bret r
      end
  end.

(** src/resolve.rs:301-314, in the scope of the guard of src/resolve.rs:290. *)
Definition b_target_cfg (w : world) (cx : context) (b : ebuild) (t : triple) : BM cfg :=
  s <== plain get ;;
  match cfg_get (cli_target t) (s_cfg s) with
  | Some c => bret c
  | None =>
      rustc <== b_rustc w cx b ;;
      list <== plain (run_read w (cfg_command rustc t)) ;;
      let c := cfg_parse list in
      _ <== plain (add_cfg (cli_target t) c) ;;
      bret c
  end.
(** src/resolve.rs:283-292 [eval_cfg]. *)
Definition b_eval_cfg (pr : profile) (w : world) (cx : context) (b : ebuild) (expr : str) (t : triple) : BM bool :=
  e <== plain (lift (map_err ECfgExprParse (parse_expr pr expr))) ;;
  with_cfg take_unique
    (c <== b_target_cfg w cx b t ;; plain (lift (eval_expr logic_bool (cfg_pred c) e))).

(** src/de.rs:245-277 *)
Fixpoint b_resolve_cfgs (pr : profile) (w : world) (cx : context) (b : ebuild) (t : triple)
  (tables : bmap target_config) (acc : option (value str) * option path_and_args * option flags)
  : BM (option (value str) * option path_and_args * option flags) :=
  match tables with
  | [] => bret acc
  | (k, v) :: rest =>
      if negb (starts_with (B "cfg(") k) then b_resolve_cfgs pr w cx b t rest acc
      else
        m <== b_eval_cfg pr w cx b k t ;;
        let '(linker, runner, rustflags) := acc in
        b_resolve_cfgs pr w cx b t rest
          (if m then
             (match linker with Some _ => linker | None => t_linker v end,
              match runner with Some _ => runner | None => t_runner v end,
              match t_rustflags v with
              | Some f => append_flags rustflags f
              | None => rustflags
              end)
           else acc)
  end.
(** src/de.rs:190-312 [resolve_target]. *)
Definition b_resolve_target (pr : profile) (w : world) (cx : context) (b : ebuild)
  (tables : bmap target_config) (t : triple) : BM target_config :=
  let target := tt_triple t in
  if starts_with (B "cfg(") target
  then plain (lift (bail (B "'" ++ target ++ B "' is not valid target triple")))
  else
    let base := match bget target tables with Some c => c | None => target_default end in
    let u := target_u_upper target in
    let var suffix := cx_env_var (cx_env cx) (B "CARGO_TARGET_" ++ u ++ suffix) in
    linker <== plain (lift (var (B "_LINKER"))) ;;
    runner_var <== plain (lift (var (B "_RUNNER"))) ;;
    runner <== plain (lift (opt_traverse pa_of_var runner_var)) ;;
    rustflags_var <== plain (lift (var (B "_RUSTFLAGS"))) ;;
    rustdocflags_var <== plain (lift (var (B "_RUSTDOCFLAGS"))) ;;
    let add cur (v : option (value str)) :=
      match v with
      | Some v => append_flags cur (flags_from_space_separated (val v) (def v))
      | None => cur
      end in
    let rustflags := add (t_rustflags base) rustflags_var in
    let rustdocflags := add (t_rustdocflags base) rustdocflags_var in
    r <== b_resolve_cfgs pr w cx b t tables
           (or_keep linker (t_linker base), or_keep runner (t_runner base), rustflags) ;;
    let '(linker, runner, rustflags) := r in
    bret (mkTarget linker runner
           (if eb_override_target_rustflags b then eb_de_rustflags b
            else match rustflags with Some f => Some f | None => eb_de_rustflags b end)
           (if eb_override_target_rustdocflags b then eb_de_rustdocflags b
            else match rustdocflags with Some f => Some f | None => eb_de_rustdocflags b end)).

(** src/easy.rs:313-333 [init_target_config]: the guard is taken first and lives to the
    end of the function. *)
Definition b_init_target_config (pr : profile) (w : world) (c : econfig) (t : triple) : BM unit :=
  with_target take_unique (
    s <== plain get ;;
    match bget (cli_target t) (s_target s) with
    | Some _ => bret tt
    | None =>
        de <== b_resolve_target pr w (ec_cx c) (ec_build c) (ec_de_target c) t ;;
        e <== plain (lift (etarget_of (cx_current_dir (ec_cx c)) de)) ;;
        plain (add_target (cli_target t) e)
    end).
(** src/easy.rs:335-369: the conversion comes first, then the cell is filled, then read. *)
Definition b_target_query (pr : profile) (w : world) (c : econfig) (a : target_arg) : BM etarget :=
  t <== plain (lift (to_triple a)) ;;
  _ <== b_init_target_config pr w c t ;;
  with_target take_shared (
    s <== plain get ;;
    match bget (cli_target t) (s_target s) with
    | Some e => bret e
    | None => plain (lift (Panic PNoEntry))
    end).
(** src/easy.rs:379-416 [rustc]. *)
Definition b_query (pr : profile) (w : world) (c : econfig) (q : query) : BM answer :=
  match q with
  | QTarget a => e <== b_target_query pr w c a ;; bret (ATarget e)
  | QLinker a => e <== b_target_query pr w c a ;; bret (APath (et_linker e))
  | QRunner a => e <== b_target_query pr w c a ;; bret (APa (et_runner e))
  | QRustflags a => e <== b_target_query pr w c a ;; bret (AFlags (et_rustflags e))
  | QRustdocflags a => e <== b_target_query pr w c a ;; bret (AFlags (et_rustdocflags e))
  | QRustc => r <== b_rustc w (ec_cx c) (ec_build c) ;; bret (AProgram r)
  | QBuildTargetForConfig _ | QBuildTargetForCli _ | QCargo | QHostTriple | QRustcVersion | QCargoVersion =>
      plain (run_query pr w c q)
  end.

(** ** Code of the caller

    Conversions of arguments ([Into<TargetTripleRef>], iterators, [AsRef<str>]), writers
    and serializers are code of the caller, which may call the same configuration.  A
    script is such code: it makes calls, sees how they end (it may catch panics), and
    panics or ends; a conversion ends with the query to be made (for writers and
    serializers this is ignored). *)
Inductive script :=
| Throw
| Give (q : query)
| Do (c : call) (k : ending (option answer) -> script)
with call :=
| Ask (before : script)
| Show (at_target at_cfg : script)
| Store (at_target : script).

(** src/easy.rs:30 derive(Debug) and src/resolve.rs:148: [Debug for RefCell] borrows
    while the content is written, and writes a placeholder if it is mutably borrowed.
    src/easy.rs:99-123: serializing first asks if the map is empty (the derived code asks
    twice, for the number of fields and at the field).  Writing the other fields may run
    the caller's code as well; then nothing is borrowed, so that is a call before or after. *)
Definition try_show {A} (with_cell : (flag -> option flag) -> BM A -> BM A) (f : bstate -> flag) (a : A) (body : BM A) : BM A :=
  fun s => match f s with Unique => (Done (Ok a), s) | Shared _ => with_cell take_shared body s end.
Definition no_query : query := QCargo.
Fixpoint run_script (pr : profile) (w : world) (c : econfig) (sc : script) : BM query :=
  match sc with
  | Throw => bthrow
  | Give q => bret q
  | Do x k => fun s => let (r, s') := run_call pr w c x s in run_script pr w c (k r) s'
  end
with run_call (pr : profile) (w : world) (c : econfig) (x : call) : BM (option answer) :=
  match x with
  | Ask before => q <== run_script pr w c before ;; a <== b_query pr w c q ;; bret (Some a)
  | Show at_target at_cfg =>
      _ <== try_show with_target b_target no_query (run_script pr w c at_target) ;;
      _ <== try_show with_cfg b_cfg no_query (run_script pr w c at_cfg) ;;
      bret None
  | Store at_target =>
      s <== with_target take_shared (plain get) ;;
      match s_target s with
      | [] => bret None
      | _ => _ <== with_target take_shared (run_script pr w c at_target) ;; bret None
      end
  end.
