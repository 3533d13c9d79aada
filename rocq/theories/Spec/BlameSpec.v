(** Which variable an error is about, and what it says. *)
From Verif.Model Require Import Base Str BMap Error Value De Context Load.
From Verif.Spec Require Import StrSpec ConfigSpec LoadSpec EnvSpec.

(** ** Variables that cannot be read *)

(** Of the variables for one key, the one that is consulted cannot be read. *)
Definition unreadable {A} (vars : list (reader A)) (env : env_map) : option str :=
  match consulted vars env with
  | Some (name, None) => Some name
  | _ => None
  end.

(** The variables with a fixed name, in the order in which they are looked at.  BROWSER does not
    matter if the files give a browser. *)
Definition in_turn (env : env_map) (browser_given : bool) : list (option str) :=
  [unreadable (variables BuildJobs) env;
   unreadable (variables BuildRustc) env;
   unreadable (variables BuildRustcWrapper) env;
   unreadable (variables BuildRustcWorkspaceWrapper) env;
   unreadable (variables BuildRustdoc) env;
   unreadable (list_variables BuildTarget) env;
   unreadable (variables BuildTargetDir) env;
   unreadable (list_variables BuildRustflags) env;
   unreadable (list_variables BuildRustdocflags) env;
   unreadable (variables BuildIncremental) env;
   unreadable (variables BuildDepInfoBasedir) env;
   if browser_given then None else unreadable [browser] env;
   unreadable (variables FutureFrequency) env;
   unreadable (variables HttpDebug) env;
   unreadable (variables HttpProxy) env;
   unreadable (variables HttpTimeout) env;
   unreadable (variables HttpCainfo) env;
   unreadable (variables HttpCheckRevoke) env;
   unreadable (variables HttpLowSpeedLimit) env;
   unreadable (variables HttpMultiplexing) env;
   unreadable (variables HttpUserAgent) env;
   unreadable (variables NetRetry) env;
   unreadable (variables NetGitFetchWithCli) env;
   unreadable (variables NetOffline) env;
   unreadable (variables RegistryDefault) env;
   unreadable (variables RegistryToken) env;
   unreadable (variables TermQuiet) env;
   unreadable (variables TermVerbose) env;
   unreadable (variables TermColor) env;
   unreadable (variables TermProgressWhen) env;
   unreadable (variables TermProgressWidth) env].

(** Aliases and registries: the name is not fixed. *)
Definition protocol_variable : str := B "CARGO_REGISTRIES_CRATES_IO_PROTOCOL".
Definition entry_unreadable (name v : str) : Prop :=
  ((exists n, name = B "CARGO_ALIAS_" ++ n) \/ (exists n, name = B "CARGO_REGISTRIES_" ++ n ++ B "_INDEX")
   \/ (exists n, name = B "CARGO_REGISTRIES_" ++ n ++ B "_TOKEN") \/ name = protocol_variable)
  /\ (utf8_valid v = false \/ name = protocol_variable /\ ~ In v (map fst protocols)).

(** The first variable that cannot be read: those for entries come first, in the order of the
    environment. *)
Definition first_unreadable (env : env_map) (browser_given : bool) (name v : str) : Prop :=
  (exists l r, env = l ++ (name, v) :: r /\ entry_unreadable name v
               /\ forall n' v', In (n', v') l -> ~ entry_unreadable n' v')
  \/ ((forall n' v', In (n', v') env -> ~ entry_unreadable n' v')
      /\ first_defined (in_turn env browser_given) = Some name /\ env_get name env = Some v).
(** The same, if the order of the environment is not known. *)
Definition a_first_unreadable (env : env_map) (browser_given : bool) (name v : str) : Prop :=
  env_get name env = Some v
  /\ (entry_unreadable name v
      \/ ((forall n' v', env_get n' env = Some v' -> ~ entry_unreadable n' v')
          /\ first_defined (in_turn env browser_given) = Some name)).

(** ** What is said about it *)
Definition quoted_name (name : str) : str := B "`" ++ name ++ B "`".
Definition not_parsed (name : str) (cause : source) : error :=
  EWithContext (MText (B "failed to parse environment variable " ++ quoted_name name)) (Some cause).

Definition secret_variable (name : str) : Prop :=
  name = B "CARGO_REGISTRY_TOKEN" \/ exists n, name = B "CARGO_REGISTRIES_" ++ n ++ B "_TOKEN".
Definition choices : list (str * str) :=
  [(B "CARGO_FUTURE_INCOMPAT_REPORT_FREQUENCY", B "always or never");
   (B "CARGO_TERM_COLOR", B "auto, always, or never");
   (B "CARGO_TERM_PROGRESS_WHEN", B "auto, always, or never")].
Definition numbers_and_switches : list str :=
  [B "CARGO_BUILD_JOBS"; B "CARGO_BUILD_INCREMENTAL"; B "CARGO_HTTP_DEBUG"; B "CARGO_HTTP_TIMEOUT";
   B "CARGO_HTTP_CHECK_REVOKE"; B "CARGO_HTTP_LOW_SPEED_LIMIT"; B "CARGO_HTTP_MULTIPLEXING";
   B "CARGO_NET_RETRY"; B "CARGO_NET_GIT_FETCH_WITH_CLI"; B "CARGO_NET_OFFLINE";
   B "CARGO_TERM_QUIET"; B "CARGO_TERM_VERBOSE"; B "CARGO_TERM_PROGRESS_WIDTH"].

Inductive complaint : str -> str -> error -> Prop :=
| not_unicode name v :
    utf8_valid v = false -> ~ secret_variable name ->
    complaint name v (not_parsed name (SVarError v))
| secret_not_unicode name v :
    utf8_valid v = false -> secret_variable name ->
    complaint name v (not_parsed name (SText (B "environment variable was not valid unicode: [REDACTED]")))
| no_number name v :
    utf8_valid v = true -> In name numbers_and_switches ->
    complaint name v (not_parsed name SParse)
| no_choice name v cs :
    utf8_valid v = true -> In (name, cs) choices ->
    complaint name v
      (not_parsed name (SCrate (EOther (MText (B "must be " ++ cs ++ B ", but found " ++ quoted_name v)))))
| no_protocol v :
    utf8_valid v = true ->
    complaint protocol_variable v (EOther (MText (B "must be git or sparse, but found " ++ quoted_name v)))
| no_program v :
    utf8_valid v = true ->
    complaint (B "BROWSER") v
      (EWithContext (MText (B "invalid length 0, expected at least one element")) None).

(** ** Errors of a whole load *)
(** A file gives the browser. *)
Definition browser_in (l : files) : bool := existsb (fun x => is_some (look_program DocBrowser (snd x))) l.
Definition mentions (part s : str) : Prop := exists a b, s = a ++ part ++ b.
