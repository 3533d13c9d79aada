(** When loading panics, from the files, the environment and the options. *)
From Verif.Model Require Import Base Str BMap Error Value De EasyTypes Context Load Easy.
From Verif.Spec Require Import StrSpec PathSpec ConfigSpec LoadSpec EnvSpec TripleSpec RootSpec TargetSpec PanicSpec FinalSpec.

(** A value that the files and variables give, and that has no meaning as a path or as a target. *)
Inductive unnamed_in (cwd : str) (env : env_map) (l : LoadSpec.files) : Prop :=
| unnamed_in_program k v :
    In k [BuildRustc; BuildRustcWrapper; BuildRustcWorkspaceWrapper; BuildRustdoc] ->
    scalar_of env l k = Some v -> (forall p, ~ program_at cwd v p) -> unnamed_in cwd env l
| unnamed_in_path k v :
    In k [BuildTargetDir; BuildDepInfoBasedir] ->
    scalar_of env l k = Some v -> (forall p, ~ path_at cwd v p) -> unnamed_in cwd env l
| unnamed_in_browser ws :
    program_in_all env l DocBrowser = Some ws -> (forall p, ~ command_at cwd ws p) -> unnamed_in cwd env l
| unnamed_in_target fm ws v :
    words_of env l BuildTarget = Some (fm, ws) -> In v ws ->
    nameless (val v) \/ spec_like (val v) /\ afloat cwd v -> unnamed_in cwd env l
| unnamed_in_variable n v r :
    scalar_of env l (EnvVarValue n) = Some v -> scalar_of env l (EnvVarRelative n) = Some r -> val r = true ->
    afloat cwd v -> unnamed_in cwd env l.
