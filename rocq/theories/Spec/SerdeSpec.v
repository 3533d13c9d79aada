(** The documented keys of a configuration document and the values they may have. *)
From Verif.Model Require Import Base Str BMap Value De Serde.
From Verif.Spec Require Import StrSpec FlagsSpec ConfigSpec EnvSpec.

(** ** Documents *)
Definition entry (k : str) (l : list (str * toml)) : option toml :=
  option_map snd (find (fun e => str_eqb k (fst e)) l).
Fixpoint at_path (p : list str) (t : toml) : option toml :=
  match p with
  | [] => Some t
  | k :: r => match t with
              | TomlTab l => match entry k l with Some u => at_path r u | None => None end
              | _ => None
              end
  end.

(** Which values stand for what. *)
Definition text_value (t : toml) (s : str) : Prop := t = TomlStr s.
Definition bool_value (t : toml) (b : bool) : Prop := t = TomlBool b.
Definition i32_value (t : toml) (z : Z) : Prop := t = TomlInt z /\ (- 2 ^ 31 <= z < 2 ^ 31)%Z.
Definition u32_value (t : toml) (n : N) : Prop := t = TomlInt (Z.of_N n) /\ (n < 2 ^ 32)%N.
(** One of some texts, or a table with this text as key for something empty. *)
Definition one_of {A} (texts : list (str * A)) (t : toml) (a : A) : Prop :=
  exists s, In (s, a) texts
  /\ (t = TomlStr s \/ t = TomlTab [(s, TomlArr [])] \/ t = TomlTab [(s, TomlTab [])]).
(** A text, or a table with key [value]. *)
Definition env_value (t : toml) (s : str) : Prop :=
  t = TomlStr s \/ exists l, t = TomlTab l /\ entry (B "value") l = Some (TomlStr s).

(** The place of a key and its values. *)
Definition place {A} (k : scalar_key A) : list str :=
  match k with
  | BuildJobs => [B "build"; B "jobs"]
  | BuildRustc => [B "build"; B "rustc"]
  | BuildRustcWrapper => [B "build"; B "rustc-wrapper"]
  | BuildRustcWorkspaceWrapper => [B "build"; B "rustc-workspace-wrapper"]
  | BuildRustdoc => [B "build"; B "rustdoc"]
  | BuildTargetDir => [B "build"; B "target-dir"]
  | BuildIncremental => [B "build"; B "incremental"]
  | BuildDepInfoBasedir => [B "build"; B "dep-info-basedir"]
  | EnvVarValue n => [B "env"; n]
  | EnvVarForce n => [B "env"; n; B "force"]
  | EnvVarRelative n => [B "env"; n; B "relative"]
  | FutureFrequency => [B "future-incompat-report"; B "frequency"]
  | CargoNewVcs => [B "cargo-new"; B "vcs"]
  | HttpDebug => [B "http"; B "debug"]
  | HttpProxy => [B "http"; B "proxy"]
  | HttpTimeout => [B "http"; B "timeout"]
  | HttpCainfo => [B "http"; B "cainfo"]
  | HttpCheckRevoke => [B "http"; B "check-revoke"]
  | HttpLowSpeedLimit => [B "http"; B "low-speed-limit"]
  | HttpMultiplexing => [B "http"; B "multiplexing"]
  | HttpUserAgent => [B "http"; B "user-agent"]
  | NetRetry => [B "net"; B "retry"]
  | NetGitFetchWithCli => [B "net"; B "git-fetch-with-cli"]
  | NetOffline => [B "net"; B "offline"]
  | RegistriesIndex n => [B "registries"; n; B "index"]
  | RegistriesToken n => [B "registries"; n; B "token"]
  | RegistriesProtocol n => [B "registries"; n; B "protocol"]
  | RegistryDefault => [B "registry"; B "default"]
  | RegistryToken => [B "registry"; B "token"]
  | TargetLinker t => [B "target"; t; B "linker"]
  | TermQuiet => [B "term"; B "quiet"]
  | TermVerbose => [B "term"; B "verbose"]
  | TermColor => [B "term"; B "color"]
  | TermProgressWhen => [B "term"; B "progress"; B "when"]
  | TermProgressWidth => [B "term"; B "progress"; B "width"]
  end.
Definition stands_for {A} (k : scalar_key A) : toml -> A -> Prop :=
  match k in scalar_key A return toml -> A -> Prop with
  | BuildJobs => i32_value
  | HttpTimeout | HttpLowSpeedLimit | NetRetry | TermProgressWidth => u32_value
  | BuildIncremental | EnvVarForce _ | EnvVarRelative _ | HttpDebug | HttpCheckRevoke
  | HttpMultiplexing | NetGitFetchWithCli | NetOffline | TermQuiet | TermVerbose => bool_value
  | FutureFrequency => one_of frequencies
  | CargoNewVcs => one_of vcss
  | RegistriesProtocol _ => one_of protocols
  | TermColor => one_of colors
  | TermProgressWhen => one_of whens
  | EnvVarValue _ => env_value
  | BuildRustc | BuildRustcWrapper | BuildRustcWorkspaceWrapper | BuildRustdoc | BuildTargetDir
  | BuildDepInfoBasedir | HttpProxy | HttpCainfo | HttpUserAgent | RegistriesIndex _
  | RegistriesToken _ | RegistryDefault | RegistryToken | TargetLinker _ => text_value
  end.

(** Words separated by spaces. *)
Definition space_words (s : str) (ws : list str) : Prop :=
  exists parts, parts <> [] /\ Forall (free_of space) parts /\ intercalate space parts = s
                /\ words_of parts ws.
Inductive list_value : toml -> form * list str -> Prop :=
| list_text s ws : space_words s ws -> list_value (TomlStr s) (AsString, ws)
| list_array ws : list_value (TomlArr (map TomlStr ws)) (AsArray, ws).
Inductive target_value : toml -> form * list str -> Prop :=
| target_text s : target_value (TomlStr s) (AsString, [s])
| target_array ws : target_value (TomlArr (map TomlStr ws)) (AsArray, ws).
Definition program_value (t : toml) (w : form * list str) : Prop := list_value t w /\ snd w <> [].

Definition list_place (k : list_key) : list str :=
  match k with
  | Alias n => [B "alias"; n]
  | BuildTarget => [B "build"; B "target"]
  | BuildRustflags => [B "build"; B "rustflags"]
  | BuildRustdocflags => [B "build"; B "rustdocflags"]
  | TargetRustflags t => [B "target"; t; B "rustflags"]
  | TargetRustdocflags t => [B "target"; t; B "rustdocflags"]
  end.
Definition list_stands_for (k : list_key) : toml -> form * list str -> Prop :=
  match k with BuildTarget => target_value | _ => list_value end.
Definition program_place (k : program_key) : list str :=
  match k with
  | DocBrowser => [B "doc"; B "browser"]
  | TargetRunner t => [B "target"; t; B "runner"]
  end.
Definition entry_place (k : entry_key) : list str :=
  match k with
  | AliasEntry n => [B "alias"; n]
  | EnvEntry n => [B "env"; n]
  | RegistriesEntry n => [B "registries"; n]
  | TargetEntry n => [B "target"; n]
  end.

(** The tables of a document. *)
Inductive section : list str -> Prop :=
| section_root : section []
| section_named s :
    In s [B "alias"; B "build"; B "doc"; B "env"; B "future-incompat-report"; B "cargo-new";
          B "http"; B "net"; B "registries"; B "registry"; B "target"; B "term"] -> section [s]
| section_progress : section [B "term"; B "progress"]
| section_registry n : section [B "registries"; n]
| section_target n : section [B "target"; n].

(** Every table is written as a table, and every name in it is used once. *)
Definition laid_out (t : toml) : Prop :=
  forall p u, section p -> at_path p t = Some u -> exists l, u = TomlTab l /\ NoDup (map fst l).

(** Every documented key that is there has one of its values. *)
Definition well_typed (t : toml) : Prop :=
  (forall A (k : scalar_key A) u, at_path (place k) t = Some u -> exists a, stands_for k u a)
  /\ (forall k u, at_path (list_place k) t = Some u -> exists w, list_stands_for k u w)
  /\ (forall k u, at_path (program_place k) t = Some u -> exists w, program_value u w).

Definition unlabelled {A} (a : A) : value A := mkValue a None.
Definition unlabelled_words (w : form * list str) : form * list word :=
  (fst w, map unlabelled (snd w)).

(** What a document says about a key. *)
Definition says {A} (p : list str) (means : toml -> A -> Prop) (t : toml) (r : option A) : Prop :=
  match at_path p t with
  | None => r = None
  | Some u => exists a, means u a /\ r = Some a
  end.

(** ** Undocumented keys *)

(** Which keys a document may have: nothing is said about the inside of a leaf; of a
    table with fixed keys; of a table with any keys. *)
Inductive schema :=
| Leaf
| Fields (l : list (str * schema))
| Entries (each : schema).

Definition leaves (l : list string) : schema := Fields (map (fun k => (B k, Leaf)) l).
Definition documented : schema :=
  Fields
    [(B "alias", Entries Leaf);
     (B "build", leaves ["jobs"; "rustc"; "rustc-wrapper"; "rustc-workspace-wrapper"; "rustdoc";
                         "target"; "target-dir"; "rustflags"; "rustdocflags"; "incremental";
                         "dep-info-basedir"]%string);
     (B "doc", leaves ["browser"%string]);
     (B "env", Entries (leaves ["value"; "force"; "relative"]%string));
     (B "future-incompat-report", leaves ["frequency"%string]);
     (B "cargo-new", leaves ["vcs"%string]);
     (B "http", leaves ["debug"; "proxy"; "timeout"; "cainfo"; "check-revoke"; "low-speed-limit";
                        "multiplexing"; "user-agent"]%string);
     (B "net", leaves ["retry"; "git-fetch-with-cli"; "offline"]%string);
     (B "registries", Entries (leaves ["index"; "token"; "protocol"]%string));
     (B "registry", leaves ["default"; "token"]%string);
     (B "target", Entries (leaves ["linker"; "runner"; "rustflags"; "rustdocflags"]%string));
     (B "term", Fields [(B "quiet", Leaf); (B "verbose", Leaf); (B "color", Leaf);
                        (B "progress", leaves ["when"; "width"]%string)])].

(** The document without the keys that are not documented. *)
Fixpoint prune (s : schema) (t : toml) : toml :=
  match s, t with
  | Fields fs, TomlTab l =>
      TomlTab (flat_map (fun kv =>
        (fix known (fs : list (str * schema)) :=
           match fs with
           | [] => []
           | (k, s') :: fs' => if str_eqb k (fst kv) then [(fst kv, prune s' (snd kv))] else known fs'
           end) fs) l)
  | Entries e, TomlTab l => TomlTab (map (fun kv => (fst kv, prune e (snd kv))) l)
  | _, _ => t
  end.

(** ** Writing and reading back *)

(** A word that is still the same after being written between spaces. *)
Definition clean_word (w : word) : Prop :=
  val w <> [] /\ free_of space (val w) /\ is_trimmed (val w).
Definition in_bounds {A} (k : scalar_key A) : A -> Prop :=
  match k in scalar_key A return A -> Prop with
  | BuildJobs => fun z => (- 2 ^ 31 <= z < 2 ^ 31)%Z
  | HttpTimeout | HttpLowSpeedLimit | NetRetry | TermProgressWidth => fun n => (n < 2 ^ 32)%N
  | _ => fun _ => True
  end.
Definition storable (c : config) : Prop :=
  tables_in_order c
  /\ (forall A (k : scalar_key A) v, look k c = Some v -> in_bounds k (val v))
  /\ (forall n ws, look_list (Alias n) c = Some (AsString, ws) -> Forall clean_word ws)
  /\ (forall k ws, look_program k c = Some (AsString, ws) -> Forall clean_word ws).

(** Without where it is from. *)
Definition anonymous {A} (v : value A) : value A := unlabelled (val v).
Definition anonymous_words (w : form * list word) : form * list word :=
  (fst w, map anonymous (snd w)).
(** Flags are always written as arrays. *)
Definition stored_form (k : list_key) (w : form * list word) : form * list word :=
  match k with
  | Alias _ | BuildTarget => w
  | _ => (AsArray, snd w)
  end.

(** Nothing is configured. *)
Definition nothing_set (c : config) : Prop :=
  (forall A (k : scalar_key A), look k c = None) /\ (forall k, look_list k c = None)
  /\ (forall k, look_program k c = None) /\ (forall k, has_entry k c = false).
