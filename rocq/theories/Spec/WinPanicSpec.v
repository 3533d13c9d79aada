(** When the library panics on Windows, stated without the model's functions. *)
From Verif.Model Require Import Base Str Value De Context.
From Verif.Spec Require WinAnySpec.
From Verif.Spec Require Import StrSpec ConfigSpec LoadSpec EnvSpec Utf8Spec CfgSpec TripleSpec TargetSpec FinalSpec PanicSpec WinSpec WinLoadSpec.

(** ** Texts *)

(** The last word of a path, unless it is dots. *)
Definition win_last (s n : str) : Prop :=
  (exists v r l, WinAnySpec.reads s v r (l ++ [n])) /\ n <> B "." /\ n <> B "..".
(** What is taken for the path of a specification file. *)
Definition win_spec_like (s : str) : Prop :=
  (exists st, win_last s (st ++ B ".json") /\ st <> []) \/ has_separator s.
(** No name of a target can be had from the path. *)
Definition win_nameless (s : str) : Prop :=
  win_spec_like s /\ forall n st, win_last s n -> stem_of n st -> ~ utf8 st.
(** In a volume, and from its root if that is a drive. *)
Definition complete (s : str) : Prop :=
  exists v r ws, WinAnySpec.reads s (Some v) r ws /\ (WinAnySpec.drive v -> r = true).

(** ** Values *)

(** In a file in the root of a volume, whose directory has none above it. *)
Inductive at_top : option definition -> Prop :=
| top_file v f : volume_ok v -> win_name f -> at_top (Some (DefPath (at_place (v, [f])))).
(** Relative to the directory above that. *)
Definition astray (v : value str) : Prop := at_top (def v) /\ ~ complete (val v).

(** A value of the configuration that has no meaning as a path or as a target. *)
Inductive win_unnamed (env : env_map) (l : files) : Prop :=
| win_unnamed_program k v :
    In k [BuildRustc; BuildRustcWrapper; BuildRustcWorkspaceWrapper; BuildRustdoc] ->
    scalar_of env l k = Some v -> astray v -> has_separator (val v) -> win_unnamed env l
| win_unnamed_path k v :
    In k [BuildTargetDir; BuildDepInfoBasedir] ->
    scalar_of env l k = Some v -> astray v -> win_unnamed env l
| win_unnamed_browser fm v args :
    program_in_all env l DocBrowser = Some (fm, v :: args) -> astray v -> has_separator (val v) -> win_unnamed env l
| win_unnamed_target fm ws v :
    words_of env l BuildTarget = Some (fm, ws) -> In v ws ->
    win_nameless (val v) \/ win_spec_like (val v) /\ at_top (def v) -> win_unnamed env l
| win_unnamed_variable n v r :
    scalar_of env l (EnvVarValue n) = Some v -> scalar_of env l (EnvVarRelative n) = Some r -> val r = true ->
    at_top (def v) -> win_unnamed env l.

(** ** Tables of targets *)

(** A linker, or the program of a runner. *)
Definition win_tool (env : env_map) (l : files) (v : value str) : Prop :=
  (exists k, scalar_of env l (TargetLinker k) = Some v)
  \/ exists k fm args, program_in_all env l (TargetRunner k) = Some (fm, v :: args).
(** A key of which the nesting cannot be counted. *)
Definition crowded_key (l : files) : Prop :=
  exists x k v s, In x l /\ In (k, v) (c_target (snd x)) /\ is_cfg k = true /\ unwrapped k s /\ crowded s.
