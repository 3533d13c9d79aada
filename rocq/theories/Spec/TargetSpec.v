(** What the settings of a target are. *)
From Verif.Model Require Import Base Str BMap Error Value De CfgExpr Triple EasyTypes Context
  Process Resolve Easy.
From Verif.Spec Require Import StrSpec ConfigSpec EnvSpec Utf8Spec CfgSpec TripleSpec.

(** ** Names of variables *)

(** [-] and [.] become [_], ASCII letters become capitals. *)
Definition env_char (c : ascii) : ascii :=
  if (Ascii.eqb c "-" || Ascii.eqb c ".")%bool then "_"%char
  else if ((97 <=? nb c) && (nb c <=? 122))%N%bool then ascii_of_N (nb c - 32) else c.
Definition target_variable (triple key : str) : str :=
  B "CARGO_TARGET_" ++ map env_char triple ++ B "_" ++ key.

(** ** Sources *)
Section Sources.
Context (env : env_map) (tables : bmap target_config) (matches : str -> bool) (triple : str).

Definition var (key : str) : option word :=
  option_map (of_variable (target_variable triple key)) (env_get (target_variable triple key) env).
Definition var_words (key : str) : option (form * list word) :=
  option_map (fun v => (AsString, map (of_variable (target_variable triple key)) (split_space_separated v)))
    (env_get (target_variable triple key) env).

(** The table of the triple itself. *)
Definition own {A} (f : target_config -> option A) : option A := under tables triple f.
(** The [cfg(..)] tables that match, in the order of their keys. *)
Definition is_cfg (k : str) : bool := str_eqb (firstn 4 k) (B "cfg(").
Definition matching : list target_config :=
  map snd (filter (fun kv => (is_cfg (fst kv) && matches (fst kv))%bool) tables).

Definition runner_words (t : target_config) := option_map program_words (t_runner t).
Definition rustflags_words (t : target_config) := option_map flags_words (t_rustflags t).
Definition rustdocflags_words (t : target_config) := option_map flags_words (t_rustdocflags t).

Definition target_linker : option word :=
  first_defined ([var (B "LINKER"); own t_linker] ++ map t_linker matching).
Definition target_runner : option (form * list word) :=
  first_defined ([var_words (B "RUNNER"); own runner_words] ++ map runner_words matching).

(** All the lists there are, one after the other. *)
Definition gathered (l : list (option (form * list word))) : option (form * list word) :=
  match defined l with
  | [] => None
  | (fm, ws) :: rest => Some (fm, ws ++ flat_map snd rest)
  end.
Definition otherwise {A} (a b : option A) : option A := match a with Some _ => a | None => b end.
Definition target_rustflags (override : bool) (build : option (form * list word)) :=
  if override then build
  else otherwise
         (gathered ([own rustflags_words; var_words (B "RUSTFLAGS")] ++ map rustflags_words matching))
         build.
Definition target_rustdocflags (override : bool) (build : option (form * list word)) :=
  if override then build
  else otherwise (gathered [own rustdocflags_words; var_words (B "RUSTDOCFLAGS")]) build.
End Sources.

(** The four variables of a target can be read. *)
Definition target_vars_readable (env : env_map) (triple : str) : Prop :=
  (forall key v, In key [B "LINKER"; B "RUNNER"; B "RUSTFLAGS"; B "RUSTDOCFLAGS"] ->
     env_get (target_variable triple key) env = Some v -> utf8_valid v = true)
  /\ (forall v, env_get (target_variable triple (B "RUNNER")) env = Some v ->
        split_space_separated v <> []).

(** ** Which [cfg(..)] keys match *)

(** Predicates found in the text printed by [rustc --print cfg] (see C29 for the empty
    values). *)
Definition seen (out : str) (p : predicate) : Prop :=
  holds out p /\ match p with PKeyValue _ v => v <> [] | PFlag _ => True end.

(** [b] is the truth of the expression [k]. *)
Definition true_of (out k : str) (b : bool) : Prop :=
  exists s roots, unwrapped k s /\ accepted s roots /\
  (Forall narrow roots ->
   exists ep, (forall p, ep p = true <-> seen out p) /\
   forall d, b = meaning ep (last roots d)).

(** [out] is what the program that [rustc()] answers printed for the target, before now. *)
Definition cfg_question (rustc : epath_and_args) (target : str) : command :=
  mkCommand (epa_path rustc) (epa_args rustc ++ [B "--print"; B "cfg"; B "--target"; lossy target]).
Definition printed (w : world) (s : state) (target : str) (out : str) : Prop :=
  exists n rustc,
    let cmd := cfg_question rustc target in
    s_rustc s = Some rustc /\ n < s_clock s /\ In cmd (s_trace s) /\
    read_outcome cmd (w_run w n cmd) = Ok out.
Definition cfgs_printed (w : world) (s : state) : Prop :=
  forall target c, cfg_get target (s_cfg s) = Some c ->
  exists out, c = cfg_parse out /\ printed w s target out.

(** [matches] tells which of the [cfg(..)] keys are true of what rustc printed for the target. *)
Definition has_cfg (tables : bmap target_config) : Prop :=
  exists k v, In (k, v) tables /\ is_cfg k = true.
Definition decided_by (w : world) (s : state) (target : str) (tables : bmap target_config)
  (matches : str -> bool) : Prop :=
  exists out, (has_cfg tables -> printed w s target out) /\ forall k v, In (k, v) tables -> is_cfg k = true -> true_of out k (matches k).

(** ** Progress of the cells: what is filled stays. *)
Definition grows (s s' : state) : Prop :=
  s_clock s <= s_clock s' /\ (exists l, s_trace s' = l ++ s_trace s)
  /\ (forall r, s_rustc s = Some r -> s_rustc s' = Some r)
  /\ (forall h, s_host s = Some h -> s_host s' = Some h)
  /\ (forall v, s_rustc_version s = Some v -> s_rustc_version s' = Some v)
  /\ (forall v, s_cargo_version s = Some v -> s_cargo_version s' = Some v)
  /\ (forall t c, cfg_get t (s_cfg s) = Some c -> cfg_get t (s_cfg s') = Some c)
  /\ (forall t e, bget t (s_target s) = Some e -> bget t (s_target s') = Some e).

(** ** Calls *)

(** Callers cannot make a triple other than from text (its fields are private). *)
Definition real_arg (a : target_arg) : Prop :=
  match a with ArgText _ => True | ArgTriple t => made t end.
Definition real_query (q : query) : Prop :=
  match q with
  | QTarget a | QLinker a | QRunner a | QRustflags a | QRustdocflags a => real_arg a
  | _ => True
  end.
(** The cells after some calls on a new configuration. *)
Definition reached (pr : profile) (w : world) (c : econfig) (s : state) : Prop :=
  exists qs, Forall real_query qs /\ s = run_queries pr w c qs (state_init (ec_cx c)).

(** Queries about one target. *)
Definition target_query (q : query) (a : target_arg) : Prop :=
  q = QTarget a \/ q = QLinker a \/ q = QRunner a \/ q = QRustflags a \/ q = QRustdocflags a.

(** ** Flags for all targets *)

(** The flags for all targets: from the variables, or from the files. *)
Definition overrides_target (env : env_map) (name : str) : bool :=
  (set env (B "CARGO_ENCODED_" ++ name) || set env name)%bool.
Definition build_flags (env : env_map) (name : str) (file : option (form * list word))
  : option (form * list word) :=
  match env_get (B "CARGO_ENCODED_" ++ name) env, env_get name env, env_get (B "CARGO_BUILD_" ++ name) env with
  | Some v, _, _ => Some (AsArray, map (of_variable (B "CARGO_ENCODED_" ++ name)) (split_encoded v))
  | None, Some v, _ => Some (AsString, map (of_variable name) (split_space_separated v))
  | None, None, Some v => Some (AsString, map (of_variable (B "CARGO_BUILD_" ++ name)) (split_space_separated v))
  | None, None, None => file
  end.
Definition eflags_words (ws : form * list word) : eflags := mkEflags (map val (snd ws)).

(** Keys of TOML tables are text. *)
Definition text_keys {V} (m : bmap V) : Prop := forall k v, In (k, v) m -> utf8 k.

(** A valid key. *)
Definition valid_cfg (k : str) : Prop := exists x roots, unwrapped k x /\ accepted x roots.

(** ** Configurations that differ in their variables only *)
Definition with_env (cx : context) (env : env_map) : context :=
  mkContext env (cx_cargo cx) (cx_current_dir cx) (cx_rustc0 cx) (cx_cargo_home0 cx) (cx_host0 cx).
Definition config_with_env (c : econfig) (env : env_map) : econfig :=
  mkEconfig (ec_alias c) (ec_build c) (ec_doc c) (ec_env c) (ec_future_incompat_report c) (ec_cargo_new c)
    (ec_http c) (ec_net c) (ec_registries c) (ec_registry c) (ec_de_target c) (ec_term c) (with_env (ec_cx c) env).
Definition options_with_env (o : options) (env : env_map) : options :=
  mkOptions (Some env) (o_rustc o) (o_cargo o) (o_cargo_home o) (o_host_triple o).

(** The variables consulted for the target are the same. *)
Definition arg_vars_same (e e' : env_map) (a : target_arg) : Prop :=
  forall t key, to_triple a = Ok t -> In key [B "LINKER"; B "RUNNER"; B "RUSTFLAGS"; B "RUSTDOCFLAGS"] ->
  env_get (target_variable (tt_triple t) key) e = env_get (target_variable (tt_triple t) key) e'.

(** Loads that end in the same way, up to the error and the variables kept. *)
Definition same_load (x y : result econfig) : Prop :=
  match x, y with
  | Ok c, Ok c' =>
      (exists env, c' = config_with_env c env) /\
      forall pr w qs q,
        run_query pr w c q (run_queries pr w c qs (state_init (ec_cx c)))
        = run_query pr w c' q (run_queries pr w c' qs (state_init (ec_cx c')))
  | Err _, Err _ => True
  | Panic p, Panic p' => p = p'
  | _, _ => False
  end.

(** What rustc prints for the target is known, or can be had now. *)
Definition cfg_available (pr : profile) (w : world) (c : econfig) (s : state) (target : str) : Prop :=
  (exists x, cfg_get target (s_cfg s) = Some x) \/
  (exists rustc s1 out, run_query pr w c QRustc s = (Ok (AProgram rustc), s1) /\
     read_outcome (cfg_question rustc target) (w_run w (s_clock s1) (cfg_question rustc target)) = Ok out).
