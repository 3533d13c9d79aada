(** Which environment variables stand for which keys. *)
From Verif.Model Require Import Base Str BMap Error Value De Context.
From Verif.Spec Require Import ConfigSpec.

(** A variable and how its text is read. *)
Definition reader A := (str * (str -> option A))%type.
Definition text (name : str) : reader str := (name, Some).
Definition is_one (s : str) : option bool := Some (str_eqb s (B "1")).

(** The variables for a key, by decreasing precedence. *)
Definition variables {A} (k : scalar_key A) : list (reader A) :=
  match k in scalar_key A return list (reader A) with
  | BuildJobs => [(B "CARGO_BUILD_JOBS", parse_i32)]
  | BuildRustc => [text (B "RUSTC"); text (B "CARGO_BUILD_RUSTC")]
  | BuildRustcWrapper => [text (B "RUSTC_WRAPPER"); text (B "CARGO_BUILD_RUSTC_WRAPPER")]
  | BuildRustcWorkspaceWrapper =>
      [text (B "RUSTC_WORKSPACE_WRAPPER"); text (B "CARGO_BUILD_RUSTC_WORKSPACE_WRAPPER")]
  | BuildRustdoc => [text (B "RUSTDOC"); text (B "CARGO_BUILD_RUSTDOC")]
  | BuildTargetDir => [text (B "CARGO_TARGET_DIR"); text (B "CARGO_BUILD_TARGET_DIR")]
  | BuildIncremental => [(B "CARGO_INCREMENTAL", is_one); (B "CARGO_BUILD_INCREMENTAL", parse_bool)]
  | BuildDepInfoBasedir => [text (B "CARGO_BUILD_DEP_INFO_BASEDIR")]
  | FutureFrequency => [(B "CARGO_FUTURE_INCOMPAT_REPORT_FREQUENCY", frequency_from_str)]
  | HttpDebug => [(B "CARGO_HTTP_DEBUG", parse_bool)]
  | HttpProxy => [text (B "CARGO_HTTP_PROXY")]
  | HttpTimeout => [(B "CARGO_HTTP_TIMEOUT", parse_u32)]
  | HttpCainfo => [text (B "CARGO_HTTP_CAINFO")]
  | HttpCheckRevoke => [(B "CARGO_HTTP_CHECK_REVOKE", parse_bool)]
  | HttpLowSpeedLimit => [(B "CARGO_HTTP_LOW_SPEED_LIMIT", parse_u32)]
  | HttpMultiplexing => [(B "CARGO_HTTP_MULTIPLEXING", parse_bool)]
  | HttpUserAgent => [text (B "CARGO_HTTP_USER_AGENT")]
  | NetRetry => [(B "CARGO_NET_RETRY", parse_u32)]
  | NetGitFetchWithCli => [(B "CARGO_NET_GIT_FETCH_WITH_CLI", parse_bool)]
  | NetOffline => [(B "CARGO_NET_OFFLINE", parse_bool)]
  | RegistriesIndex n => [text (B "CARGO_REGISTRIES_" ++ n ++ B "_INDEX")]
  | RegistriesToken n => [text (B "CARGO_REGISTRIES_" ++ n ++ B "_TOKEN")]
  | RegistriesProtocol n =>
      if str_eqb n (B "crates-io")
      then [(B "CARGO_REGISTRIES_CRATES_IO_PROTOCOL", protocol_from_str)] else []
  | RegistryDefault => [text (B "CARGO_REGISTRY_DEFAULT")]
  | RegistryToken => [text (B "CARGO_REGISTRY_TOKEN")]
  | TermQuiet => [(B "CARGO_TERM_QUIET", parse_bool)]
  | TermVerbose => [(B "CARGO_TERM_VERBOSE", parse_bool)]
  | TermColor => [(B "CARGO_TERM_COLOR", color_from_str)]
  | TermProgressWhen => [(B "CARGO_TERM_PROGRESS_WHEN", when_from_str)]
  | TermProgressWidth => [(B "CARGO_TERM_PROGRESS_WIDTH", parse_u32)]
  (* no variable: the [env] table, cargo-new, target tables (see C21, C22) *)
  | EnvVarValue _ | CargoNewVcs | TargetLinker _ | EnvVarForce _ | EnvVarRelative _ => []
  end.

(** An empty wrapper variable switches the wrapper off. *)
Definition switches_off {A} (k : scalar_key A) : A -> bool :=
  match k in scalar_key A return A -> bool with
  | BuildRustcWrapper | BuildRustcWorkspaceWrapper => is_empty
  | _ => fun _ => false
  end.

Definition list_variables (k : list_key) : list (reader (form * list str)) :=
  let words s := Some (AsString, split_space_separated s) in
  match k with
  | Alias n => [(B "CARGO_ALIAS_" ++ n, words)]
  | BuildTarget => [(B "CARGO_BUILD_TARGET", fun s => Some (AsString, [s]))]
  | BuildRustflags =>
      [(B "CARGO_ENCODED_RUSTFLAGS", fun s => Some (AsArray, split_encoded s));
       (B "RUSTFLAGS", words); (B "CARGO_BUILD_RUSTFLAGS", words)]
  | BuildRustdocflags =>
      [(B "CARGO_ENCODED_RUSTDOCFLAGS", fun s => Some (AsArray, split_encoded s));
       (B "RUSTDOCFLAGS", words); (B "CARGO_BUILD_RUSTDOCFLAGS", words)]
  | TargetRustflags _ | TargetRustdocflags _ => []
  end.

(** BROWSER: a program and its arguments. *)
Definition browser : reader (form * list str) :=
  (B "BROWSER", fun s => match split_space_separated s with
                         | [] => None
                         | ws => Some (AsString, ws)
                         end).

(** The first variable that is set, with the value read from it; [None] as a value
    means that it cannot be read: it is not Unicode or not of the right form. *)
Definition consulted {A} (vars : list (reader A)) (env : env_map) : option (str * option A) :=
  first_defined (map (fun v => match env_get (fst v) env with
                               | Some t => Some (fst v, if utf8_valid t then snd v t else None)
                               | None => None
                               end) vars).
Definition readable {A} (vars : list (reader A)) (env : env_map) : Prop :=
  forall name, consulted vars env <> Some (name, None).

Definition of_variable {A} (name : str) (a : A) : value A := mkValue a (Some (DefEnv name)).

(** The value of a key after the environment has been taken into account. *)
Definition scalar_after {A} (k : scalar_key A) (env : env_map) (before : option (value A))
  : option (value A) :=
  match consulted (variables k) env with
  | Some (name, Some a) => if switches_off k a then None else Some (of_variable name a)
  | _ => before
  end.
Definition words_after (vars : list (reader (form * list str))) (env : env_map)
  (before : option (form * list word)) : option (form * list word) :=
  match consulted vars env with
  | Some (name, Some (fm, ws)) => Some (fm, map (of_variable name) ws)
  | _ => before
  end.

(** A program is only taken from the environment if the files do not give one. *)
Definition program_after (k : program_key) (env : env_map) (before : option (form * list word))
  : option (form * list word) :=
  match k, before with
  | DocBrowser, None => words_after [browser] env None
  | _, _ => before
  end.

Definition set (env : env_map) (name : str) : bool := is_some (env_get name env).
Definition entry_after (k : entry_key) (env : env_map) (before : bool) : bool :=
  match k with
  | AliasEntry n => before || set env (B "CARGO_ALIAS_" ++ n)
  | RegistriesEntry n =>
      before || set env (B "CARGO_REGISTRIES_" ++ n ++ B "_INDEX")
      || set env (B "CARGO_REGISTRIES_" ++ n ++ B "_TOKEN")
      || (str_eqb n (B "crates-io") && set env (B "CARGO_REGISTRIES_CRATES_IO_PROTOCOL"))
  | EnvEntry _ | TargetEntry _ => before
  end.

(** Every variable has one value. *)
Definition one_value_each (env : env_map) : Prop := NoDup (map fst env).

(** All variables that are consulted can be read. *)
Definition all_readable (env : env_map) (c : config) : Prop :=
  (forall A (k : scalar_key A), readable (variables k) env)
  /\ (forall k, readable (list_variables k) env)
  /\ (look_program DocBrowser c = None -> readable [browser] env).

(** ** The forms of the texts *)
Definition digit (d : N) : ascii := ascii_of_N (48 + d).
Inductive decimal : str -> N -> Prop :=
| decimal_digit d : (d < 10)%N -> decimal [digit d] d
| decimal_more s n d : decimal s n -> (d < 10)%N -> decimal (s ++ [digit d]) (10 * n + d).
Definition signed (s : str) (z : Z) : Prop :=
  exists ds n, decimal ds n
  /\ ((s = ds \/ s = B "+" ++ ds) /\ z = Z.of_N n \/ s = B "-" ++ ds /\ z = (- Z.of_N n)%Z).
Definition unsigned (s : str) (n : N) : Prop := exists ds, decimal ds n /\ (s = ds \/ s = B "+" ++ ds).

Definition bools : list (str * bool) := [(B "true", true); (B "false", false)].
Definition colors : list (str * color) :=
  [(B "auto", ColorAuto); (B "always", ColorAlways); (B "never", ColorNever)].
Definition whens : list (str * when) :=
  [(B "auto", WhenAuto); (B "always", WhenAlways); (B "never", WhenNever)].
Definition frequencies : list (str * frequency) := [(B "always", FreqAlways); (B "never", FreqNever)].
Definition protocols : list (str * protocol) := [(B "git", ProtoGit); (B "sparse", ProtoSparse)].
Definition vcss : list (str * vcs) :=
  [(B "git", VcsGit); (B "hg", VcsMercurial); (B "pijul", VcsPijul); (B "fossil", VcsFossil);
   (B "none", VcsNone)].

(** ** Which variables are kept *)
Definition begins (p s : str) : Prop := exists r, s = p ++ r.
Definition kept (name : str) : Prop :=
  utf8_valid name = true
  /\ (begins (B "CARGO") name \/ begins (B "RUST") name \/ name = B "BROWSER").
(** The value of a variable in a list of settings: the last one counts. *)
Definition last_setting (name : str) (vars : list (str * str)) (v : str) : Prop :=
  exists l r, vars = l ++ (name, v) :: r /\ ~ In name (map fst r).

(** The keys with two variables, the stronger one first. *)
Definition two_variables : list (scalar_key str * str * str) :=
  [(BuildRustc, B "RUSTC", B "CARGO_BUILD_RUSTC");
   (BuildRustcWrapper, B "RUSTC_WRAPPER", B "CARGO_BUILD_RUSTC_WRAPPER");
   (BuildRustcWorkspaceWrapper, B "RUSTC_WORKSPACE_WRAPPER", B "CARGO_BUILD_RUSTC_WORKSPACE_WRAPPER");
   (BuildRustdoc, B "RUSTDOC", B "CARGO_BUILD_RUSTDOC");
   (BuildTargetDir, B "CARGO_TARGET_DIR", B "CARGO_BUILD_TARGET_DIR")].
Definition is_wrapper (k : scalar_key str) : bool :=
  match k with BuildRustcWrapper | BuildRustcWorkspaceWrapper => true | _ => false end.
Definition from_variable (k : scalar_key str) (name v : str) : option (value str) :=
  match v with
  | [] => if is_wrapper k then None else Some (of_variable name [])
  | _ => Some (of_variable name v)
  end.
