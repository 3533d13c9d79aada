(** Resolution that may run programs: src/resolve.rs:161-384, 558-650 and
    src/de.rs:189-312.  The cells of [ResolveContext] and of [easy::Config] are an
    explicit state; the operating system is an oracle indexed by time. *)
From Verif.Model Require Import Base Str Path BMap Error Value De CfgExpr EasyTypes
  Triple Context ApplyEnv Process.

(** src/resolve.rs:558-573 *)
Record rustc_version := mkRustcVersion {
  rv_major : N; rv_minor : N; rv_patch : option N; rv_nightly : bool
}.
Record cargo_version := mkCargoVersion {
  cv_major : N; cv_minor : N; cv_patch : N; cv_nightly : bool
}.

(** src/resolve.rs:334-338 [Cfg]: a set of flags and a map to sets of values. *)
Record cfg := mkCfg {
  cfg_flags : list str;
  cfg_key_values : list (str * list str)
}.

(** Every observation of the outside world takes place at its own instant. *)
Record world := mkWorld {
  w_exists : nat -> path -> bool;
  w_run : nat -> command -> outcome
}.

(** The mutable cells, the clock and the programs run so far (newest first). *)
Record state := mkState {
  s_clock : nat;
  s_trace : list command;
  s_rustc : option epath_and_args;
  s_host : option str;
  s_rustc_version : option rustc_version;
  s_cargo_version : option cargo_version;
  s_cfg : list (str * cfg);
  s_target : bmap etarget
}.

(** src/resolve.rs:132-142, src/easy.rs:182: the cells of a fresh configuration. *)
Definition state_init (cx : context) : state :=
  mkState 0 [] (cx_rustc0 cx) (cx_host0 cx) None None [] [].

(** Computations that read and write the cells. *)
Definition M (A : Type) := state -> result A * state.
Definition ret {A} (a : A) : M A := fun s => (Ok a, s).
Definition lift {A} (r : result A) : M A := fun s => (r, s).
Definition bindM {A A'} (m : M A) (f : A -> M A') : M A' := fun s =>
  match m s with
  | (Ok a, s') => f a s'
  | (Err e, s') => (Err e, s')
  | (Panic p, s') => (Panic p, s')
  end.
Notation "x <~ e ;; k" := (bindM e (fun x => k))
  (at level 61, e at next level, right associativity) : res_scope.
Definition get : M state := fun s => (Ok s, s).

Definition set_rustc (r : epath_and_args) : M unit := fun s =>
  (Ok tt, mkState (s_clock s) (s_trace s) (Some r) (s_host s) (s_rustc_version s)
            (s_cargo_version s) (s_cfg s) (s_target s)).
Definition set_host (h : str) : M unit := fun s =>
  (Ok tt, mkState (s_clock s) (s_trace s) (s_rustc s) (Some h) (s_rustc_version s)
            (s_cargo_version s) (s_cfg s) (s_target s)).
Definition set_rustc_version (v : rustc_version) : M unit := fun s =>
  (Ok tt, mkState (s_clock s) (s_trace s) (s_rustc s) (s_host s) (Some v)
            (s_cargo_version s) (s_cfg s) (s_target s)).
Definition set_cargo_version (v : cargo_version) : M unit := fun s =>
  (Ok tt, mkState (s_clock s) (s_trace s) (s_rustc s) (s_host s) (s_rustc_version s)
            (Some v) (s_cfg s) (s_target s)).
Definition add_cfg (t : str) (c : cfg) : M unit := fun s =>
  (Ok tt, mkState (s_clock s) (s_trace s) (s_rustc s) (s_host s) (s_rustc_version s)
            (s_cargo_version s) ((t, c) :: s_cfg s) (s_target s)).
Definition add_target (t : str) (c : etarget) : M unit := fun s =>
  (Ok tt, mkState (s_clock s) (s_trace s) (s_rustc s) (s_host s) (s_rustc_version s)
            (s_cargo_version s) (s_cfg s) (binsert t c (s_target s))).

(** [Path::exists] *)
Definition ask_exists (w : world) (p : path) : M bool := fun s =>
  (Ok (w_exists w (s_clock s) p),
   mkState (S (s_clock s)) (s_trace s) (s_rustc s) (s_host s) (s_rustc_version s)
     (s_cargo_version s) (s_cfg s) (s_target s)).

(** [Command::output], with the rest of src/process.rs:47-74. *)
Definition run_read (w : world) (c : command) : M str := fun s =>
  (read_outcome c (w_run w (s_clock s) c),
   mkState (S (s_clock s)) (c :: s_trace s) (s_rustc s) (s_host s) (s_rustc_version s)
     (s_cargo_version s) (s_cfg s) (s_target s)).

(** ** Programs *)

(** src/resolve.rs:637-650 [rustc_path], with the empty [EXE_SUFFIX] of Unix. *)
Definition rustc_path (w : world) (cargo : str) : M path :=
  let p := join (pop cargo) (B "rustc") in
  b <~ ask_exists w p ;;
  ret (if b then p else B "rustc").

(** src/resolve.rs:166-167, 180-181: [build.rustc] or the default. *)
Definition base_rustc (w : world) (cx : context) (b : ebuild) : M path :=
  match eb_rustc b with
  | Some r => ret r
  | None => rustc_path w (cx_cargo cx)
  end.

(** [iter.next().unwrap()] and the rest, of a wrapper chain ending in rustc. *)
Definition chain_program (wrappers : list path) (rustc : path) : epath_and_args :=
  match wrappers with
  | [] => mkEpa rustc []
  | x :: rest => mkEpa x (rest ++ [rustc])
  end.
Definition opt_list {A} (o : option A) : list A :=
  match o with Some a => [a] | None => [] end.

(** src/resolve.rs:162-177 [rustc]. *)
Definition cx_rustc (w : world) (cx : context) (b : ebuild) : M epath_and_args :=
  s <~ get ;;
  match s_rustc s with
  | Some r => ret r
  | None =>
      rustc <~ base_rustc w cx b ;;
      let r := chain_program (opt_list (eb_rustc_wrapper b)
                                ++ opt_list (eb_rustc_workspace_wrapper b)) rustc in
      _ <~ set_rustc r ;;
      ret r
  end.

(** src/resolve.rs:178-188 [rustc_for_version]. *)
Definition rustc_for_version (w : world) (cx : context) (b : ebuild) : M epath_and_args :=
  rustc <~ base_rustc w cx b ;;
  ret (chain_program (opt_list (eb_rustc_wrapper b)) rustc).

(** src/easy.rs:1233-1244 and src/resolve.rs:592-599 [verbose_version]: the
    command is kept for error messages. *)
Definition verbose_version (w : world) (p : epath_and_args) : M (str * command) :=
  let c := mkCommand (epa_path p) (epa_args p ++ [B "-vV"]) in
  out <~ run_read w c ;;
  ret (out, c).

(** [lines().find_map(|line| line.strip_prefix(p))] *)
Fixpoint find_prefix (p : str) (ls : list str) : option str :=
  match ls with
  | [] => None
  | l :: t => match strip_prefix p l with Some r => Some r | None => find_prefix p t end
  end.

(** src/resolve.rs:601-613 [parse_version]. *)
Definition parse_version (vv : str) : option (N * N * option N * bool) :=
  match find_prefix (B "release: ") (lines vv) with
  | None => None
  | Some release =>
      let (version, channel) :=
        match split_once "-"%char release with
        | Some p => p
        | None => (release, [])
        end in
      let nightly := (str_eqb channel (B "nightly") || str_eqb channel (B "dev"))%bool in
      match splitn 3 "."%char version with
      | [a; b] =>
          match parse_u32 a, parse_u32 b with
          | Some a, Some b => Some (a, b, None, nightly)
          | _, _ => None
          end
      | [a; b; c] =>
          match parse_u32 a, parse_u32 b, parse_u32 c with
          | Some a, Some b, Some c => Some (a, b, Some c, nightly)
          | _, _, _ => None
          end
      | _ => None
      end
  end.

Definition unexpected_version {A} (vc : str * command) : result A :=
  bail (B "unexpected version output from " ++ display_command (snd vc) ++ B ": " ++ fst vc).

(** src/resolve.rs:615-619 [rustc_version]. *)
Definition rustc_version_of (vc : str * command) : result rustc_version :=
  match parse_version (fst vc) with
  | Some (a, b, c, n) => Ok (mkRustcVersion a b c n)
  | None => unexpected_version vc
  end.
(** src/resolve.rs:620-625 [cargo_version]. *)
Definition cargo_version_of (vc : str * command) : result cargo_version :=
  match parse_version (fst vc) with
  | Some (a, b, Some c, n) => Ok (mkCargoVersion a b c n)
  | _ => unexpected_version vc
  end.
(** src/resolve.rs:627-635 [host_triple]. *)
Definition host_of (vc : str * command) : result str :=
  match find_prefix (B "host: ") (lines (fst vc)) with
  | Some h => Ok h
  | None => unexpected_version vc
  end.

(** [let r = cell.set(v); debug_assert!(r.is_ok());]: setting a filled cell keeps
    the old value. *)
Definition store_cargo_version (pr : profile) (v : cargo_version) : M unit :=
  s <~ get ;;
  match s_cargo_version s with
  | None => set_cargo_version v
  | Some _ => if debug_assertions pr then lift (Panic PDebugAssert) else ret tt
  end.
Definition store_rustc_version (pr : profile) (v : rustc_version) : M unit :=
  s <~ get ;;
  match s_rustc_version s with
  | None => set_rustc_version v
  | Some _ => if debug_assertions pr then lift (Panic PDebugAssert) else ret tt
  end.

(** src/resolve.rs:196-200 *)
Definition cargo_host (pr : profile) (w : world) (cx : context) : M str :=
  vv <~ verbose_version w (epa_new (cx_cargo cx)) ;;
  v <~ lift (cargo_version_of vv) ;;
  _ <~ store_cargo_version pr v ;;
  lift (host_of vv).

(** src/resolve.rs:204-207 *)
Definition rustc_host (pr : profile) (w : world) (cx : context) (b : ebuild) : M str :=
  p <~ rustc_for_version w cx b ;;
  vv <~ verbose_version w p ;;
  v <~ lift (rustc_version_of vv) ;;
  _ <~ store_rustc_version pr v ;;
  lift (host_of vv).

(** [match r { Ok(x) => x, Err(_) => alternative }] *)
Definition or_else {A} (m m' : M A) : M A := fun s =>
  match m s with
  | (Ok a, s') => (Ok a, s')
  | (Err _, s') => m' s'
  | (Panic p, s') => (Panic p, s')
  end.
(** [let _ = r;] *)
Definition ignore_err {A} (m : M A) : M unit := fun s =>
  match m s with
  | (Ok _, s') | (Err _, s') => (Ok tt, s')
  | (Panic p, s') => (Panic p, s')
  end.

(** src/resolve.rs:192-211 [host_triple]. *)
Definition cx_host_triple (pr : profile) (w : world) (cx : context) (b : ebuild) : M str :=
  s <~ get ;;
  match s_host s with
  | Some h => ret h
  | None =>
      h <~ or_else (cargo_host pr w cx) (rustc_host pr w cx b) ;;
      _ <~ set_host h ;;
      ret h
  end.

(** src/resolve.rs:212-223 [rustc_version]. *)
Definition cx_rustc_version (pr : profile) (w : world) (cx : context) (b : ebuild)
  : M rustc_version :=
  s <~ get ;;
  match s_rustc_version s with
  | Some v => ret v
  | None =>
      _ <~ ignore_err (cx_host_triple pr w cx b) ;;
      s <~ get ;;
      match s_rustc_version s with
      | Some v => ret v
      | None =>
          p <~ rustc_for_version w cx b ;;
          vv <~ verbose_version w p ;;
          v <~ lift (rustc_version_of vv) ;;
          _ <~ set_rustc_version v ;;
          ret v
      end
  end.

(** src/resolve.rs:224-235 [cargo_version]. *)
Definition cx_cargo_version (pr : profile) (w : world) (cx : context) (b : ebuild)
  : M cargo_version :=
  s <~ get ;;
  match s_cargo_version s with
  | Some v => ret v
  | None =>
      _ <~ ignore_err (cx_host_triple pr w cx b) ;;
      s <~ get ;;
      match s_cargo_version s with
      | Some v => ret v
      | None =>
          vv <~ verbose_version w (epa_new (cx_cargo cx)) ;;
          v <~ lift (cargo_version_of vv) ;;
          _ <~ set_cargo_version v ;;
          ret v
      end
  end.

(** ** cfg *)

Definition mem (s : str) (l : list str) : bool := existsb (str_eqb s) l.

Fixpoint kv_get (k : str) (l : list (str * list str)) : option (list str) :=
  match l with
  | [] => None
  | (k', v) :: t => if str_eqb k k' then Some v else kv_get k t
  end.
Fixpoint kv_add (k v : str) (l : list (str * list str)) : list (str * list str) :=
  match l with
  | [] => [(k, [v])]
  | (k', vs) :: t => if str_eqb k k' then (k', v :: vs) :: t else (k', vs) :: kv_add k v t
  end.

(** [value.len() >= 2 && starts_with('"') && ends_with('"')], and the inside. *)
Definition unquote (s : str) : option str :=
  match s with
  | q :: t =>
      if Ascii.eqb q dquote then
        match rev t with
        | q' :: r => if Ascii.eqb q' dquote then Some (rev r) else None
        | [] => None
        end
      else None
  | [] => None
  end.

(** src/resolve.rs:352-379: one line of the list. *)
Definition cfg_add_line (line : str) (c : cfg) : cfg :=
  let line := trim line in
  if is_empty line then c
  else
    match split_once "="%char line with
    | None => mkCfg (line :: cfg_flags c) (cfg_key_values c)
    | Some (name, value) =>
        match unquote value with
        | None => c
        | Some v =>
            if is_empty v then c
            else mkCfg (cfg_flags c) (kv_add name v (cfg_key_values c))
        end
    end.

(** src/resolve.rs:347-383 [Cfg::parse]. *)
Definition cfg_parse (list : str) : cfg :=
  fold_left (fun c l => cfg_add_line l c) (lines list) (mkCfg [] []).

(** src/resolve.rs:315-330: the truth of one predicate. *)
Definition cfg_pred (c : cfg) (p : predicate) : bool :=
  match p with
  | PFlag f =>
      if (str_eqb f (B "test") || str_eqb f (B "debug_assertions")
          || str_eqb f (B "proc_macro"))%bool
      then false else mem f (cfg_flags c)
  | PKeyValue k v =>
      if str_eqb k (B "feature") then false
      else match kv_get k (cfg_key_values c) with
           | Some vs => mem v vs
           | None => false
           end
  end.

(** src/resolve.rs:341-345 [Cfg::from_rustc]: the command. *)
Definition cfg_command (rustc : epath_and_args) (t : triple) : command :=
  mkCommand (epa_path rustc)
    (epa_args rustc ++ [B "--print"; B "cfg"; B "--target"; cli_target_string t]).

Fixpoint cfg_get (t : str) (l : list (str * cfg)) : option cfg :=
  match l with
  | [] => None
  | (t', c) :: rest => if str_eqb t t' then Some c else cfg_get t rest
  end.

(** src/resolve.rs:307-314: the cached or new [Cfg]. *)
Definition target_cfg (w : world) (cx : context) (b : ebuild) (t : triple) : M cfg :=
  s <~ get ;;
  match cfg_get (cli_target t) (s_cfg s) with
  | Some c => ret c
  | None =>
      rustc <~ cx_rustc w cx b ;;
      list <~ run_read w (cfg_command rustc t) ;;
      let c := cfg_parse list in
      _ <~ add_cfg (cli_target t) c ;;
      ret c
  end.

(** src/resolve.rs:283-292 [ResolveContext::eval_cfg] with src/resolve.rs:301-331
    [CfgMap::eval_cfg]. *)
Definition eval_cfg (pr : profile) (w : world) (cx : context) (b : ebuild)
  (expr : str) (t : triple) : M bool :=
  e <~ lift (map_err ECfgExprParse (parse_expr pr expr)) ;;
  c <~ target_cfg w cx b t ;;
  lift (eval_expr logic_bool (cfg_pred c) e).

(** ** [target] tables: src/de.rs:189-312 *)

(** [this.flags.append(more.flags)], or [more] if there was nothing. *)
Definition append_flags (cur : option flags) (more : flags) : option flags :=
  match cur with
  | Some f => Some (mkFlags (fl_flags f ++ fl_flags more) (fl_repr f))
  | None => Some more
  end.

(** src/de.rs:245-277: the loop over the [cfg(..)] tables. *)
Fixpoint resolve_cfgs (pr : profile) (w : world) (cx : context) (b : ebuild) (t : triple)
  (tables : bmap target_config) (acc : option (value str) * option path_and_args * option flags)
  : M (option (value str) * option path_and_args * option flags) :=
  match tables with
  | [] => ret acc
  | (k, v) :: rest =>
      if negb (starts_with (B "cfg(") k) then resolve_cfgs pr w cx b t rest acc
      else
        m <~ eval_cfg pr w cx b k t ;;
        let '(linker, runner, rustflags) := acc in
        resolve_cfgs pr w cx b t rest
          (if m then
             (match linker with Some _ => linker | None => t_linker v end,
              match runner with Some _ => runner | None => t_runner v end,
              match t_rustflags v with
              | Some f => append_flags rustflags f
              | None => rustflags
              end)
           else acc)
  end.

(** src/de.rs:190-312 [resolve_target].  The result is always [Some], see
    src/de.rs:285-310. *)
Definition resolve_target (pr : profile) (w : world) (cx : context) (b : ebuild)
  (tables : bmap target_config) (t : triple) : M target_config :=
  let target := tt_triple t in
  if starts_with (B "cfg(") target
  then lift (bail (B "'" ++ target ++ B "' is not valid target triple"))
  else
    let base := match bget target tables with Some c => c | None => target_default end in
    let u := target_u_upper target in
    let var suffix := cx_env_var (cx_env cx) (B "CARGO_TARGET_" ++ u ++ suffix) in
    linker <~ lift (var (B "_LINKER")) ;;
    runner_var <~ lift (var (B "_RUNNER")) ;;
    runner <~ lift (opt_traverse pa_of_var runner_var) ;;
    rustflags_var <~ lift (var (B "_RUSTFLAGS")) ;;
    rustdocflags_var <~ lift (var (B "_RUSTDOCFLAGS")) ;;
    let add cur (v : option (value str)) :=
      match v with
      | Some v => append_flags cur (flags_from_space_separated (val v) (def v))
      | None => cur
      end in
    let rustflags := add (t_rustflags base) rustflags_var in
    let rustdocflags := add (t_rustdocflags base) rustdocflags_var in
    r <~ resolve_cfgs pr w cx b t tables
           (or_keep linker (t_linker base), or_keep runner (t_runner base), rustflags) ;;
    let '(linker, runner, rustflags) := r in
    ret (mkTarget linker runner
           (if eb_override_target_rustflags b then eb_de_rustflags b
            else match rustflags with Some f => Some f | None => eb_de_rustflags b end)
           (if eb_override_target_rustdocflags b then eb_de_rustdocflags b
            else match rustdocflags with Some f => Some f | None => eb_de_rustdocflags b end)).
