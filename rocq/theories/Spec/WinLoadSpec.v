(** Loading on Windows, from the files, the variables and the options. *)
From Verif.Model Require Import Base Str BMap Error Value De Triple EasyTypes Context Load Easy.
From Verif.Spec Require Import StrSpec ConfigSpec LoadSpec EnvSpec FinalSpec WinSpec.

(** Names of variables are the same in any case. *)
Definition same_letters (a b : str) : Prop := map capital a = map capital b.
Inductive variable_is (vars : list (str * str)) (name : str) : option str -> Prop :=
| variable_set before n v after : vars = before ++ (n, v) :: after -> same_letters name n ->
    Forall (fun x => ~ same_letters name (fst x)) before -> variable_is vars name (Some v)
| variable_unset : Forall (fun x => ~ same_letters name (fst x)) vars -> variable_is vars name None.

(** A volume and the names of directories below it. *)
Definition place := (volume * list str)%type.
Definition place_ok (p : place) : Prop := volume_ok (fst p) /\ Forall win_name (snd p).
Definition at_place (p : place) : str := dir (fst p) (snd p).
Definition in_place (p : place) (more : list str) : place := (fst p, snd p ++ more).

(** CARGO_HOME: given as an option, or the variable of the process, or [.cargo] in the home
    directory.  (What becomes of a relative path in the variable is in C72.) *)
Inductive win_home (p : process_env) (o : options) : option place -> Prop :=
| win_home_none : o_cargo_home o = Some None -> win_home p o None
| win_home_option h : o_cargo_home o = Some (Some (at_place h)) -> place_ok h -> win_home p o (Some h)
| win_home_variable h : o_cargo_home o = None -> variable_is (p_vars p) (B "CARGO_HOME") (Some (at_place h)) ->
    place_ok h -> win_home p o (Some h)
| win_home_default h var : o_cargo_home o = None -> variable_is (p_vars p) (B "CARGO_HOME") var ->
    var = None \/ var = Some [] -> p_home_dir p = Some (at_place h) -> place_ok h ->
    win_home p o (Some (in_place h [B ".cargo"]))
| win_home_unknown var : o_cargo_home o = None -> variable_is (p_vars p) (B "CARGO_HOME") var ->
    var = None \/ var = Some [] -> p_home_dir p = None -> win_home p o None.

(** The files that are read: from the current directory up, and the one of CARGO_HOME unless it
    is the [.cargo] of one of these directories. *)
Definition near (ex : str -> bool) (cwd : place) : list str :=
  flat_map (fun k => found ex (fst cwd) (k ++ [B ".cargo"])) (above (snd cwd)).
Definition seen (cwd home : place) : Prop :=
  same_volume (fst home) (fst cwd) /\ exists k, In k (above (snd cwd)) /\ snd home = k ++ [B ".cargo"].
Inductive win_visited (ex : str -> bool) (cwd : place) : option place -> list str -> Prop :=
| visited_no_home : win_visited ex cwd None (near ex cwd)
| visited_seen home : seen cwd home -> win_visited ex cwd (Some home) (near ex cwd)
| visited_home home : ~ seen cwd home -> win_visited ex cwd (Some home) (near ex cwd ++ found ex (fst home) (snd home)).

Definition win_sources (f : fs) (p : process_env) (cwd : place) (o : options) (env : env_map) (l : files) : Prop :=
  place_ok cwd /\ environment p o env /\
  exists home ps, win_home p o home /\ win_visited (fs_exists f) cwd home ps /\ reads f ps l.

(** ** Where values are *)

(** What a value in a file or a variable is relative to. *)
Inductive relative_to (cwd : place) : definition -> place -> Prop :=
| relative_to_file d c f : place_ok d -> win_name c -> win_name f ->
    relative_to cwd (DefPath (at_place (in_place d [c; f]))) d
| relative_to_variable n : relative_to cwd (DefEnv n) cwd.

(** Texts that say where they are: [C:] and anything, or a volume and a path from its root. *)
Definition on_volume (s : str) : Prop :=
  (exists c t, is_letter c /\ s = c :: ":"%char :: t) \/ (exists v t, volume_ok v /\ s = volume_text v ++ back :: t).
(** A text taken from a directory. *)
Inductive from_dir (d : place) (s : str) : str -> Prop :=
| from_anywhere : on_volume s -> from_dir d s s
| from_below : plain_volume (fst d) -> relative s ->
    from_dir d s (at_place d ++ (match snd d with [] => [] | _ => [back] end) ++ s)
| from_below_long c ns : fst d = Long c -> names_text s ns -> from_dir d s (at_place (in_place d ns))
| from_top : plain_volume (fst d) -> rooted s -> from_dir d s (volume_text (fst d) ++ s).

Inductive win_path_at (cwd : place) (v : value str) : str -> Prop :=
| win_path d r p : def v = Some d -> relative_to cwd d r -> from_dir r (val v) p -> win_path_at cwd v p.
Inductive win_program_at (cwd : place) (v : value str) : str -> Prop :=
| win_program_name : ~ has_separator (val v) -> win_program_at cwd v (val v)
| win_program_path p : has_separator (val v) -> win_path_at cwd v p -> win_program_at cwd v p.
Definition win_command_at (cwd : place) (ws : form * list word) (p : str * list str) : Prop :=
  exists v args, snd ws = v :: args /\ win_program_at cwd v (fst p) /\ snd p = map val args.
(** Targets: triples, and specifications given by names ending in [.json]. *)
Inductive win_target_at (cwd : place) (v : value str) : str -> Prop :=
| win_target_triple : win_name (val v) -> (forall s, val v <> s ++ B ".json") -> win_target_at cwd v (val v)
| win_target_spec ns stem p : names_text (val v) (ns ++ [stem ++ B ".json"]) -> stem <> [] -> utf8_valid stem = true ->
    win_path_at cwd v p -> win_target_at cwd v p
| win_target_anywhere d r q stem : def v = Some d -> relative_to cwd d r -> val v = at_place (in_place q [stem ++ B ".json"]) ->
    place_ok q -> win_name (stem ++ B ".json") -> stem <> [] -> utf8_valid stem = true -> win_target_at cwd v (val v).

(** ** Values of the resolved configuration *)

(** What is not set is not there, and what is set is what it should be. *)
Definition agrees {A A'} (R : A -> A' -> Prop) (o : option A) (o' : option A') : Prop :=
  match o with None => o' = None | Some a => forall a', R a a' -> o' = Some a' end.
Definition win_final_at {A} (cwd : place) (k : scalar_key A) : value A -> A -> Prop :=
  match k in scalar_key A return value A -> A -> Prop with
  | BuildRustc | BuildRustcWrapper | BuildRustcWorkspaceWrapper | BuildRustdoc => win_program_at cwd
  | BuildTargetDir | BuildDepInfoBasedir => win_path_at cwd
  | _ => fun v a => a = val v
  end.
Definition win_final_words (cwd : place) (k : list_key) (ws : form * list word) (l : list str) : Prop :=
  match k with
  | BuildTarget => Forall2 (win_target_at cwd) (snd ws) l
  | _ => l = map val (snd ws)
  end.
Definition win_env_at (cwd : place) (force relative : option (value bool)) (v : value str) (x : eenv) : Prop :=
  ee_relative x = false /\ ee_force x = on force
  /\ (if on relative then win_path_at cwd v (ee_value x) else ee_value x = val v).

(** Every path that is set is one of those above. *)
Definition win_resolvable (cwd : place) (env : env_map) (l : files) : Prop :=
  (forall (k : scalar_key str) v, field k = true -> scalar_of env l k = Some v -> exists p, win_final_at cwd k v p)
  /\ (forall ws, words_of env l BuildTarget = Some ws -> exists ts, win_final_words cwd BuildTarget ws ts)
  /\ (forall ws, program_in_all env l DocBrowser = Some ws -> exists p, win_command_at cwd ws p)
  /\ (forall n v, scalar_of env l (EnvVarValue n) = Some v -> on (scalar_of env l (EnvVarRelative n)) = true ->
        exists p, win_path_at cwd v p).
