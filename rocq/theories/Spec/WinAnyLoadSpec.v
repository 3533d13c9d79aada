(** Loading on Windows from any directory: paths are what they are read as, however written. *)
From Verif.Model Require Import Base Str BMap Error Value De Triple EasyTypes Context Load Easy.
From Verif.Spec Require WinAnySpec.
From Verif.Spec Require Import StrSpec ConfigSpec LoadSpec EnvSpec FinalSpec WinSpec WinLoadSpec WinPanicSpec.

(** Where a path starts, whether from a root there, and the words. *)
Definition reading := (option WinAnySpec.start * bool * list str)%type.
Definition read_as (s : str) (m : reading) : Prop := WinAnySpec.reads s (fst (fst m)) (snd (fst m)) (snd m).
Definition into (m : reading) (w : str) : reading := (fst (fst m), WinAnySpec.entered (fst (fst m)) (snd (fst m)), snd m ++ [w]).
(** In a volume that has a name (see [WinAnySpec.solid]). *)
Definition sturdy (v : WinAnySpec.start) : Prop :=
  v <> WinAnySpec.AtDevice [] /\ v <> WinAnySpec.LongName (B "UNC") /\ forall a, v <> WinAnySpec.LongShare a [].
Definition grounded (s : str) : Prop := exists v r ws, read_as s (Some v, r, ws) /\ sturdy v.

(** ** Where values are *)

(** The name of the volume itself ends with a slash. *)
Definition slash_ended (v : WinAnySpec.start) : Prop :=
  match v with
  | WinAnySpec.LongShare _ w => exists u, w = u ++ ["/"%char]
  | WinAnySpec.LongName w => w = [] \/ exists u, w = u ++ ["/"%char]
  | _ => False
  end.
(** [x] is where the text [s] leads from a directory. *)
Inductive located : reading -> str -> str -> Prop :=
| located_volume m v r ws s : read_as s (Some v, r, ws) -> located m s s
| located_top v r ws s wq x : ~ WinAnySpec.long v ->
    read_as s (None, true, wq) -> read_as x (Some v, true, wq) -> located (Some v, r, ws) s x
| located_below v r ws s wq x : ~ WinAnySpec.long v ->
    read_as s (None, false, wq) -> read_as x (Some v, r, ws ++ WinAnySpec.after wq) -> located (Some v, r, ws) s x
| located_long v r ws s rq wq x r' : WinAnySpec.long v -> s <> [] ->
    read_as s (None, rq, wq) -> read_as x (Some v, r', WinAnySpec.onto (if rq then [] else ws) wq) ->
    (r' = false <-> r = false /\ rq = false /\ WinAnySpec.onto ws wq = []) -> located (Some v, r, ws) s x
| located_empty v r ws x r' : WinAnySpec.long v -> read_as x (Some v, r', ws) ->
    (r' = false <-> r = false /\ slash_ended v) -> located (Some v, r, ws) [] x.
(** A variable is relative to the current directory, a file to the directory above its own. *)
Inductive base_of (cwd : reading) : definition -> reading -> Prop :=
| base_variable n : base_of cwd (DefEnv n) cwd
| base_file q v r ws c f : read_as q (v, r, ws ++ [c; f]) -> base_of cwd (DefPath q) (v, r, ws).
(** In a file that has no such directory. *)
Inductive baseless : option definition -> Prop :=
| baseless_file q m : read_as q m -> (length (snd m) < 2)%nat -> baseless (Some (DefPath q)).

Inductive any_path_at (cwd : reading) (v : value str) : str -> Prop :=
| any_path_complete : complete (val v) -> any_path_at cwd v (val v)
| any_path d m x : def v = Some d -> base_of cwd d m -> located m (val v) x -> any_path_at cwd v x.
Inductive any_program_at (cwd : reading) (v : value str) : str -> Prop :=
| any_program_name : ~ has_separator (val v) -> any_program_at cwd v (val v)
| any_program_path x : has_separator (val v) -> any_path_at cwd v x -> any_program_at cwd v x.
Definition any_command_at (cwd : reading) (ws : form * list word) (p : str * list str) : Prop :=
  exists v args, snd ws = v :: args /\ any_program_at cwd v (fst p) /\ snd p = map val args.
Inductive any_target_at (cwd : reading) (v : value str) : str -> Prop :=
| any_target_triple : ~ win_spec_like (val v) -> any_target_at cwd v (val v)
| any_target_spec d m x : win_spec_like (val v) -> ~ win_nameless (val v) ->
    def v = Some d -> base_of cwd d m -> located m (val v) x -> any_target_at cwd v x.

Definition any_final_at {A} (cwd : reading) (k : scalar_key A) : value A -> A -> Prop :=
  match k in scalar_key A return value A -> A -> Prop with
  | BuildRustc | BuildRustcWrapper | BuildRustcWorkspaceWrapper | BuildRustdoc => any_program_at cwd
  | BuildTargetDir | BuildDepInfoBasedir => any_path_at cwd
  | _ => fun v a => a = val v
  end.
Definition any_final_words (cwd : reading) (k : list_key) (ws : form * list word) (l : list str) : Prop :=
  match k with
  | BuildTarget => Forall2 (any_target_at cwd) (snd ws) l
  | _ => l = map val (snd ws)
  end.
Definition any_env_at (cwd : reading) (force relative : option (value bool)) (v : value str) (x : eenv) : Prop :=
  ee_relative x = false /\ ee_force x = on force
  /\ (if on relative then exists d m, def v = Some d /\ base_of cwd d m /\ located m (val v) (ee_value x)
      else ee_value x = val v).
(** What is set is there, and nothing else. *)
Definition both {A A'} (R : A -> A' -> Prop) (o : option A) (o' : option A') : Prop :=
  match o, o' with None, None => True | Some a, Some a' => R a a' | _, _ => False end.
Definition any_values (cwd : reading) (env : env_map) (l : LoadSpec.files) (ec : econfig) : Prop :=
  (forall A (k : scalar_key A), field k = true -> both (any_final_at cwd k) (scalar_of env l k) (easy_look k ec))
  /\ (forall k, list_field k = true -> both (any_final_words cwd k) (words_of env l k) (easy_words k ec))
  /\ both (any_command_at cwd) (program_in_all env l DocBrowser)
       (option_map (fun x => (epa_path x, epa_args x)) (ed_browser (ec_doc ec)))
  /\ (forall n, both (any_env_at cwd (scalar_of env l (EnvVarForce n)) (scalar_of env l (EnvVarRelative n)))
                  (scalar_of env l (EnvVarValue n)) (bget n (ec_env ec)))
  /\ (forall k, easy_entry k ec = entry_of env l k).

(** A value that has no meaning as a path or as a target. *)
Inductive any_unnamed (env : env_map) (l : LoadSpec.files) : Prop :=
| any_unnamed_program k v :
    In k [BuildRustc; BuildRustcWrapper; BuildRustcWorkspaceWrapper; BuildRustdoc] ->
    scalar_of env l k = Some v -> baseless (def v) -> ~ complete (val v) -> has_separator (val v) -> any_unnamed env l
| any_unnamed_path k v :
    In k [BuildTargetDir; BuildDepInfoBasedir] ->
    scalar_of env l k = Some v -> baseless (def v) -> ~ complete (val v) -> any_unnamed env l
| any_unnamed_browser fm v args :
    program_in_all env l DocBrowser = Some (fm, v :: args) ->
    baseless (def v) -> ~ complete (val v) -> has_separator (val v) -> any_unnamed env l
| any_unnamed_target fm ws v :
    words_of env l BuildTarget = Some (fm, ws) -> In v ws ->
    win_nameless (val v) \/ win_spec_like (val v) /\ baseless (def v) -> any_unnamed env l
| any_unnamed_variable n v r :
    scalar_of env l (EnvVarValue n) = Some v -> scalar_of env l (EnvVarRelative n) = Some r -> val r = true ->
    baseless (def v) -> any_unnamed env l.

(** ** Which files *)

(** CARGO_HOME: as given, or [.cargo] in the home directory. *)
Inductive any_home (p : process_env) (o : options) (cwd : reading) : option str -> Prop :=
| any_home_none : o_cargo_home o = Some None -> any_home p o cwd None
| any_home_option h : o_cargo_home o = Some (Some h) -> any_home p o cwd (Some h)
| any_home_variable h x : o_cargo_home o = None -> variable_is (p_vars p) (B "CARGO_HOME") (Some h) -> h <> [] ->
    located cwd h x -> any_home p o cwd (Some x)
| any_home_default h m x var : o_cargo_home o = None -> variable_is (p_vars p) (B "CARGO_HOME") var ->
    var = None \/ var = Some [] -> p_home_dir p = Some h ->
    read_as h m -> (WinAnySpec.solid h (fst (fst m)) -> read_as x (into m (B ".cargo"))) ->
    any_home p o cwd (Some x)
| any_home_unknown var : o_cargo_home o = None -> variable_is (p_vars p) (B "CARGO_HOME") var ->
    var = None \/ var = Some [] -> p_home_dir p = None -> any_home p o cwd None.

(** The file of a directory, [config] before [config.toml]. *)
Inductive searched (ex : str -> bool) (d : reading) : list str -> Prop :=
| searched_config a : read_as a (into d (B "config")) -> ex a = true -> searched ex d [a]
| searched_toml a b : read_as a (into d (B "config")) -> ex a = false ->
    read_as b (into d (B "config.toml")) -> ex b = true -> searched ex d [b]
| searched_none a b : read_as a (into d (B "config")) -> ex a = false ->
    read_as b (into d (B "config.toml")) -> ex b = false -> searched ex d [].
(** From the current directory up. *)
Definition any_near (ex : str -> bool) (cwd : reading) (ps : list str) : Prop :=
  exists pss, ps = concat pss
    /\ Forall2 (fun ws fs => searched ex (into (fst cwd, ws) (B ".cargo")) fs) (above (snd cwd)) pss.
Definition any_seen (cwd home : reading) : Prop := exists ws, In ws (above (snd cwd)) /\ home = into (fst cwd, ws) (B ".cargo").
Inductive any_visited (ex : str -> bool) (cwd : reading) : option str -> list str -> Prop :=
| any_visited_none ps : any_near ex cwd ps -> any_visited ex cwd None ps
| any_visited_seen h m ps : any_near ex cwd ps -> read_as h m -> any_seen cwd m -> any_visited ex cwd (Some h) ps
| any_visited_home h m ps fs : any_near ex cwd ps -> read_as h m -> ~ any_seen cwd m ->
    (WinAnySpec.solid h (fst (fst m)) -> searched ex m fs) -> any_visited ex cwd (Some h) (ps ++ fs).

(** ** Spellings *)

(** Two spellings of a path; a file system that does not tell them apart. *)
Definition alike (a b : str) : Prop := exists m, read_as a m /\ read_as b m.
Definition unspelled (f : fs) : Prop := forall a b, alike a b -> fs_exists f a = fs_exists f b /\ fs_read f a = fs_read f b.
Definition alike_at {A} (k : scalar_key A) : A -> A -> Prop :=
  match k in scalar_key A return A -> A -> Prop with
  | BuildRustc | BuildRustcWrapper | BuildRustcWorkspaceWrapper | BuildRustdoc | BuildTargetDir | BuildDepInfoBasedir => alike
  | _ => eq
  end.
(** The same configuration, but for the spelling of paths. *)
Definition alike_values (c c' : econfig) : Prop :=
  (forall A (k : scalar_key A), field k = true -> both (alike_at k) (easy_look k c) (easy_look k c'))
  /\ (forall k, list_field k = true ->
        both (match k with BuildTarget => Forall2 alike | _ => eq end) (easy_words k c) (easy_words k c'))
  /\ both (fun a b => alike (epa_path a) (epa_path b) /\ epa_args a = epa_args b) (ed_browser (ec_doc c)) (ed_browser (ec_doc c'))
  /\ (forall n, both (fun a b => alike (ee_value a) (ee_value b) /\ ee_force a = ee_force b /\ ee_relative a = ee_relative b)
                  (bget n (ec_env c)) (bget n (ec_env c')))
  /\ (forall k, easy_entry k c = easy_entry k c').
