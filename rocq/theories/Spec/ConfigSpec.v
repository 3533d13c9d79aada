(** The keys of a configuration and how a key is read off a configuration value. *)
From Verif.Model Require Import Base BMap Value De.

(** Keys holding one value. *)
Inductive scalar_key : Type -> Type :=
| BuildJobs : scalar_key Z
| BuildRustc : scalar_key str
| BuildRustcWrapper : scalar_key str
| BuildRustcWorkspaceWrapper : scalar_key str
| BuildRustdoc : scalar_key str
| BuildTargetDir : scalar_key str
| BuildIncremental : scalar_key bool
| BuildDepInfoBasedir : scalar_key str
| EnvVarValue (name : str) : scalar_key str          (* [env] name = ... / name.value *)
| EnvVarForce (name : str) : scalar_key bool         (* [env] name.force *)
| EnvVarRelative (name : str) : scalar_key bool      (* [env] name.relative *)
| FutureFrequency : scalar_key frequency
| CargoNewVcs : scalar_key vcs
| HttpDebug : scalar_key bool
| HttpProxy : scalar_key str
| HttpTimeout : scalar_key N
| HttpCainfo : scalar_key str
| HttpCheckRevoke : scalar_key bool
| HttpLowSpeedLimit : scalar_key N
| HttpMultiplexing : scalar_key bool
| HttpUserAgent : scalar_key str
| NetRetry : scalar_key N
| NetGitFetchWithCli : scalar_key bool
| NetOffline : scalar_key bool
| RegistriesIndex (name : str) : scalar_key str
| RegistriesToken (name : str) : scalar_key str
| RegistriesProtocol (name : str) : scalar_key protocol
| RegistryDefault : scalar_key str
| RegistryToken : scalar_key str
| TargetLinker (t : str) : scalar_key str
| TermQuiet : scalar_key bool
| TermVerbose : scalar_key bool
| TermColor : scalar_key color
| TermProgressWhen : scalar_key when
| TermProgressWidth : scalar_key N.

Definition under {V A} (m : bmap V) (name : str) (f : V -> option A) : option A :=
  match bget name m with Some v => f v | None => None end.

Definition look {A} (k : scalar_key A) (c : config) : option (value A) :=
  match k with
  | BuildJobs => b_jobs (c_build c)
  | BuildRustc => b_rustc (c_build c)
  | BuildRustcWrapper => b_rustc_wrapper (c_build c)
  | BuildRustcWorkspaceWrapper => b_rustc_workspace_wrapper (c_build c)
  | BuildRustdoc => b_rustdoc (c_build c)
  | BuildTargetDir => b_target_dir (c_build c)
  | BuildIncremental => b_incremental (c_build c)
  | BuildDepInfoBasedir => b_dep_info_basedir (c_build c)
  | EnvVarValue n => under (c_env c) n
      (fun e => Some match e with EnvValue v | EnvTable v _ _ => v end)
  | EnvVarForce n => under (c_env c) n
      (fun e => match e with EnvTable _ f _ => f | _ => None end)
  | EnvVarRelative n => under (c_env c) n
      (fun e => match e with EnvTable _ _ r => r | _ => None end)
  | FutureFrequency => f_frequency (c_future_incompat_report c)
  | CargoNewVcs => cn_vcs (c_cargo_new c)
  | HttpDebug => h_debug (c_http c)
  | HttpProxy => h_proxy (c_http c)
  | HttpTimeout => h_timeout (c_http c)
  | HttpCainfo => h_cainfo (c_http c)
  | HttpCheckRevoke => h_check_revoke (c_http c)
  | HttpLowSpeedLimit => h_low_speed_limit (c_http c)
  | HttpMultiplexing => h_multiplexing (c_http c)
  | HttpUserAgent => h_user_agent (c_http c)
  | NetRetry => n_retry (c_net c)
  | NetGitFetchWithCli => n_git_fetch_with_cli (c_net c)
  | NetOffline => n_offline (c_net c)
  | RegistriesIndex n => under (c_registries c) n r_index
  | RegistriesToken n => under (c_registries c) n r_token
  | RegistriesProtocol n => under (c_registries c) n r_protocol
  | RegistryDefault => rg_default (c_registry c)
  | RegistryToken => rg_token (c_registry c)
  | TargetLinker t => under (c_target c) t t_linker
  | TermQuiet => tm_quiet (c_term c)
  | TermVerbose => tm_verbose (c_term c)
  | TermColor => tm_color (c_term c)
  | TermProgressWhen => p_when (tm_progress (c_term c))
  | TermProgressWidth => p_width (tm_progress (c_term c))
  end.

(** How a list or program was written. *)
Inductive form := AsString | AsArray.
Definition word := value str.

(** Keys holding a list of words. *)
Inductive list_key :=
| Alias (name : str)
| BuildTarget
| BuildRustflags
| BuildRustdocflags
| TargetRustflags (t : str)
| TargetRustdocflags (t : str).

Definition form_of (r : repr) : form := match r with ReprString => AsString | ReprArray => AsArray end.
Definition flags_words (f : flags) : form * list word := (form_of (fl_repr f), fl_flags f).
Definition look_list (k : list_key) (c : config) : option (form * list word) :=
  match k with
  | Alias n => under (c_alias c) n (fun s => Some (form_of (sl_repr s), sl_list s))
  | BuildTarget =>
      match b_target (c_build c) with
      | Some (SoaString v) => Some (AsString, [v])
      | Some (SoaArray l) => Some (AsArray, l)
      | None => None
      end
  | BuildRustflags => option_map flags_words (b_rustflags (c_build c))
  | BuildRustdocflags => option_map flags_words (b_rustdocflags (c_build c))
  | TargetRustflags t => under (c_target c) t (fun x => option_map flags_words (t_rustflags x))
  | TargetRustdocflags t => under (c_target c) t (fun x => option_map flags_words (t_rustdocflags x))
  end.

(** Keys holding a program with its arguments; read as the list of all words. *)
Inductive program_key :=
| DocBrowser
| TargetRunner (t : str).
Definition program_words (p : path_and_args) : form * list word :=
  (form_of (pa_repr p), pa_path p :: pa_args p).
Definition look_program (k : program_key) (c : config) : option (form * list word) :=
  match k with
  | DocBrowser => option_map program_words (d_browser (c_doc c))
  | TargetRunner t => under (c_target c) t (fun x => option_map program_words (t_runner x))
  end.

(** Entries of tables. *)
Inductive entry_key :=
| AliasEntry (name : str)
| EnvEntry (name : str)
| RegistriesEntry (name : str)
| TargetEntry (name : str).
Definition has_entry (k : entry_key) (c : config) : bool :=
  match k with
  | AliasEntry n => is_some (bget n (c_alias c))
  | EnvEntry n => is_some (bget n (c_env c))
  | RegistriesEntry n => is_some (bget n (c_registries c))
  | TargetEntry n => is_some (bget n (c_target c))
  end.

(** Keys that can be written in two ways, and which way was used. *)
Inductive shaped_key :=
| ShapeList (k : list_key)
| ShapeProgram (k : program_key)
| ShapeEnv (name : str).
Inductive shape := Simple | Compound.   (* string or plain value / array or table *)
Definition shape_of_form (f : form) : shape := match f with AsString => Simple | AsArray => Compound end.
Definition shape_at (k : shaped_key) (c : config) : option shape :=
  match k with
  | ShapeList k => option_map (fun x => shape_of_form (fst x)) (look_list k c)
  | ShapeProgram k => option_map (fun x => shape_of_form (fst x)) (look_program k c)
  | ShapeEnv n => under (c_env c) n
      (fun e => Some match e with EnvValue _ => Simple | EnvTable _ _ _ => Compound end)
  end.

(** ** Combining the files, closest first *)
Fixpoint first_defined {A} (l : list (option A)) : option A :=
  match l with
  | [] => None
  | Some a :: _ => Some a
  | None :: l' => first_defined l'
  end.
Fixpoint defined {A} (l : list (option A)) : list A :=
  match l with
  | [] => []
  | Some a :: l' => a :: defined l'
  | None :: l' => defined l'
  end.

(** Arrays: the farthest file's words first.  Strings: the closest file's. *)
Definition join_lists (l : list (form * list word)) : option (form * list word) :=
  match l with
  | [] => None
  | (AsString, ws) :: _ => Some (AsString, ws)
  | (AsArray, _) :: _ => Some (AsArray, concat (rev (map snd l)))
  end.
(** Arrays: the closest file's words first. *)
Definition join_programs (l : list (form * list word)) : option (form * list word) :=
  match l with
  | [] => None
  | (AsString, ws) :: _ => Some (AsString, ws)
  | (AsArray, _) :: _ => Some (AsArray, concat (map snd l))
  end.

(** No key is written in two different ways. *)
Definition agree {A} (x y : option A) : Prop :=
  match x, y with Some a, Some b => a = b | _, _ => True end.
Definition same_shapes (cs : list config) : Prop :=
  forall k c c', In c cs -> In c' cs -> agree (shape_at k c) (shape_at k c').

(** Tables list every name once, in order (what a [BTreeMap] guarantees). *)
From Verif.Model Require Import Str.
Definition in_order {V} (m : bmap V) : Prop :=
  forall a x y b, m = a ++ x :: y :: b -> str_cmp (fst x) (fst y) = Lt.
Definition tables_in_order (c : config) : Prop :=
  in_order (c_alias c) /\ in_order (c_env c) /\ in_order (c_registries c) /\ in_order (c_target c).
