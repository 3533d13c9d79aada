(** What Debug output shows. *)
From Verif.Model Require Import Base Str BMap Error Value De EasyTypes Triple Context Resolve Easy.
From Verif.Spec Require Import StrSpec ConfigSpec SerdeSpec.

(** ** Places: fields by name, with [_] for [-]; entries of maps by key *)
Definition underscored (k : str) : str := map (fun c => if Ascii.eqb c "-" then "_"%char else c) k.
Definition named_field (k : str) (l : list (string * dbg)) : option dbg :=
  option_map snd (find (fun e => str_eqb (underscored k) (B (fst e))) l).
Definition map_entry (k : str) (l : list (dbg * dbg)) : option dbg :=
  option_map snd (find (fun e => match fst e with DStr s => str_eqb k s | _ => false end) l).
(** [Some(x)] shows [x], [None] nothing. *)
Definition present (t : dbg) : option dbg :=
  match t with
  | DTuple "Some" [x] => Some x
  | DUnit "None" => None
  | _ => Some t
  end.
Definition and_then {A A'} (o : option A) (f : A -> option A') : option A' :=
  match o with Some a => f a | None => None end.
Fixpoint at_debug (p : list str) (t : dbg) : option dbg :=
  match p with
  | [] => Some t
  | k :: r =>
      match t with
      | DStruct _ l => and_then (named_field k l) (fun u => and_then (present u) (at_debug r))
      | DMap l => and_then (map_entry k l) (at_debug r)
      | _ => None
      end
  end.

(** ** Values *)
Definition shown_option (o : option dbg) : dbg :=
  match o with Some x => DTuple "Some" [x] | None => DUnit "None" end.
Definition shown_origin (d : definition) : dbg :=
  match d with
  | DefPath p => DTuple "Path" [DOs p]
  | DefEnv n => DTuple "Environment" [DStr n]
  | DefCli p => DTuple "Cli" [shown_option (option_map DOs p)]
  end.
Definition shown_value (x : dbg) (d : option definition) : dbg :=
  DStruct "Value" [("val"%string, x); ("definition"%string, shown_option (option_map shown_origin d))].
Definition shown_word (w : word) : dbg := shown_value (DStr (val w)) (def w).
Definition shown_form (fm : form) : dbg := DUnit match fm with AsString => "String" | AsArray => "Array" end.

Definition frequency_names : list (frequency * string) := [(FreqAlways, "Always"); (FreqNever, "Never")]%string.
Definition vcs_names : list (vcs * string) :=
  [(VcsGit, "Git"); (VcsMercurial, "Mercurial"); (VcsPijul, "Pijul"); (VcsFossil, "Fossil"); (VcsNone, "None")]%string.
Definition protocol_names : list (protocol * string) := [(ProtoGit, "Git"); (ProtoSparse, "Sparse")]%string.
Definition color_names : list (color * string) := [(ColorAuto, "Auto"); (ColorAlways, "Always"); (ColorNever, "Never")]%string.
Definition when_names : list (when * string) := [(WhenAuto, "Auto"); (WhenAlways, "Always"); (WhenNever, "Never")]%string.
Definition named {A} (names : list (A * string)) (a : A) (t : dbg) : Prop := exists n, In (a, n) names /\ t = DUnit n.

(** How the value of a key is shown: tokens are not. *)
Definition shown_as {A} (k : scalar_key A) : A -> dbg -> Prop :=
  match k in scalar_key A return A -> dbg -> Prop with
  | BuildJobs => fun z t => t = DNum z
  | HttpTimeout | HttpLowSpeedLimit | NetRetry | TermProgressWidth => fun n t => t = DNum (Z.of_N n)
  | BuildIncremental | EnvVarForce _ | EnvVarRelative _ | HttpDebug | HttpCheckRevoke
  | HttpMultiplexing | NetGitFetchWithCli | NetOffline | TermQuiet | TermVerbose => fun b t => t = DBool b
  | FutureFrequency => named frequency_names
  | CargoNewVcs => named vcs_names
  | RegistriesProtocol _ => named protocol_names
  | TermColor => named color_names
  | TermProgressWhen => named when_names
  | RegistriesToken _ | RegistryToken => fun _ t => t = DStr (B "[REDACTED]")
  | EnvVarValue _ | BuildRustc | BuildRustcWrapper | BuildRustcWorkspaceWrapper | BuildRustdoc | BuildTargetDir
  | BuildDepInfoBasedir | HttpProxy | HttpCainfo | HttpUserAgent | RegistriesIndex _
  | RegistryDefault | TargetLinker _ => fun s t => t = DStr s
  end.
Definition of_env {A} (k : scalar_key A) : Prop :=
  match k with EnvVarValue _ | EnvVarForce _ | EnvVarRelative _ => True | _ => False end.

(** The value with its origin. *)
Definition shows {A} (k : scalar_key A) (v : value A) (t : dbg) : Prop :=
  exists x, shown_as k (val v) x /\ t = shown_value x (def v).

(** Lists and programs. *)
Definition shown_words (name fieldname : string) (ws : form * list word) : dbg :=
  DStruct name [(fieldname, DList (map shown_word (snd ws))); ("deserialized_repr"%string, shown_form (fst ws))].
Definition shown_list (k : list_key) (ws : form * list word) (t : dbg) : Prop :=
  match k with
  | Alias _ => t = shown_words "StringList" "list" ws
  | BuildTarget => (exists w, ws = (AsString, [w]) /\ t = DTuple "String" [shown_word w])
                   \/ (fst ws = AsArray /\ t = DTuple "Array" [DList (map shown_word (snd ws))])
  | _ => t = shown_words "Flags" "flags" ws
  end.
Definition shown_program (ws : form * list word) (t : dbg) : Prop :=
  exists w args, snd ws = w :: args
  /\ t = DStruct "PathAndArgs" [("path", DTuple "ConfigRelativePath" [shown_word w]);
                                ("args", DList (map shown_word args));
                                ("deserialized_repr", shown_form (fst ws))]%string.

(** Entries of [env]. *)
Definition shown_flag (v : value bool) : dbg := shown_value (DBool (val v)) (def v).
Definition shown_entry (e : env_config_value) : dbg :=
  match e with
  | EnvValue v => DTuple "Value" [shown_word v]
  | EnvTable v f r =>
      DStruct "Table" [("value", shown_word v); ("force", shown_option (option_map shown_flag f));
                       ("relative", shown_option (option_map shown_flag r))]%string
  end.

(** ** The resolved configuration *)
(** Paths are shown as such; everything else as before, without origin. *)
Definition shown_plain {A} (k : scalar_key A) : A -> dbg -> Prop :=
  match k in scalar_key A return A -> dbg -> Prop with
  | BuildRustc | BuildRustcWrapper | BuildRustcWorkspaceWrapper | BuildRustdoc | BuildTargetDir | BuildDepInfoBasedir =>
      fun s t => t = DOs s
  | k => shown_as k
  end.
Definition shown_texts (name fieldname : string) (ws : list str) : dbg :=
  DStruct name [(fieldname, DList (map DStr ws))].
Definition shown_command (p : epath_and_args) : dbg :=
  DStruct "PathAndArgs" [("path"%string, DOs (epa_path p)); ("args"%string, DList (map DOs (epa_args p)))].
Definition shown_variable (e : eenv) : dbg :=
  DStruct "EnvConfigValue" [("value", DOs (ee_value e)); ("force", DBool (ee_force e));
                            ("relative", DBool (ee_relative e))]%string.
Definition shown_triple (t : triple) : dbg :=
  DStruct "TargetTripleRef" [("triple"%string, DStr (tt_triple t));
                             ("spec_path"%string, shown_option (option_map DOs (tt_spec_path t)))].

(** What the debug view shows of the context and the cells. *)
Record same_cells (c c' : econfig) (s s' : state) : Prop := mkSameCells {
  sc_env : cx_env (ec_cx c) = cx_env (ec_cx c');
  sc_rustc : s_rustc s = s_rustc s';
  sc_cargo : cx_cargo (ec_cx c) = cx_cargo (ec_cx c');
  sc_home : cx_cargo_home0 (ec_cx c) = cx_cargo_home0 (ec_cx c');
  sc_host : s_host s = s_host s';
  sc_rustc_version : s_rustc_version s = s_rustc_version s';
  sc_cargo_version : s_cargo_version s = s_cargo_version s';
  sc_cfg : s_cfg s = s_cfg s';
  sc_dir : cx_current_dir (ec_cx c) = cx_current_dir (ec_cx c');
  sc_target : s_target s = s_target s' }.
