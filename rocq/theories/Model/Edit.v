(** Changing the public fields of a configuration between calls: src/easy.rs:33-119 and
    437-528.  The fields [target], [de_target] and [cx] of [Config] are private, and so are
    the last four of [BuildConfig]; but [BuildConfig] as a whole may be replaced by another
    one (it implements [Default] and [Clone]).  The other tables have public fields only, so
    changing one of their fields is replacing the table. *)
From Verif.Model Require Import Base Str Path BMap Error Value De Triple EasyTypes Context
  ApplyEnv Process Resolve Easy.

Inductive edit :=
| SetAlias (m : bmap estring_list)
| SetDoc (d : edoc)
| SetEnv (m : bmap eenv)
| SetFutureIncompatReport (f : efuture)
| SetCargoNew (n : ecargo_new)
| SetHttp (h : ehttp)
| SetNet (n : enet)
| SetRegistries (m : bmap eregistries)
| SetRegistry (r : eregistry)
| SetTerm (t : eterm)
| SetJobs (o : option Z)
| SetRustc (o : option path)
| SetRustcWrapper (o : option path)
| SetRustcWorkspaceWrapper (o : option path)
| SetRustdoc (o : option path)
| SetTarget (o : option (list triple))
| SetTargetDir (o : option path)
| SetRustflags (o : option eflags)
| SetRustdocflags (o : option eflags)
| SetIncremental (o : option bool)
| SetDepInfoBasedir (o : option path)
| SetBuild (b : ebuild).

(** A field of [build]. *)
Definition edit_build (e : edit) (b : ebuild) : ebuild :=
  let 'mkEbuild jobs rustc wrapper workspace rustdoc target dir flags docflags incr base
         over de_flags overdoc de_docflags := b in
  match e with
  | SetBuild b' => b'
  | SetJobs o => mkEbuild o rustc wrapper workspace rustdoc target dir flags docflags incr base over de_flags overdoc de_docflags
  | SetRustc o => mkEbuild jobs o wrapper workspace rustdoc target dir flags docflags incr base over de_flags overdoc de_docflags
  | SetRustcWrapper o => mkEbuild jobs rustc o workspace rustdoc target dir flags docflags incr base over de_flags overdoc de_docflags
  | SetRustcWorkspaceWrapper o => mkEbuild jobs rustc wrapper o rustdoc target dir flags docflags incr base over de_flags overdoc de_docflags
  | SetRustdoc o => mkEbuild jobs rustc wrapper workspace o target dir flags docflags incr base over de_flags overdoc de_docflags
  | SetTarget o => mkEbuild jobs rustc wrapper workspace rustdoc o dir flags docflags incr base over de_flags overdoc de_docflags
  | SetTargetDir o => mkEbuild jobs rustc wrapper workspace rustdoc target o flags docflags incr base over de_flags overdoc de_docflags
  | SetRustflags o => mkEbuild jobs rustc wrapper workspace rustdoc target dir o docflags incr base over de_flags overdoc de_docflags
  | SetRustdocflags o => mkEbuild jobs rustc wrapper workspace rustdoc target dir flags o incr base over de_flags overdoc de_docflags
  | SetIncremental o => mkEbuild jobs rustc wrapper workspace rustdoc target dir flags docflags o base over de_flags overdoc de_docflags
  | SetDepInfoBasedir o => mkEbuild jobs rustc wrapper workspace rustdoc target dir flags docflags incr o over de_flags overdoc de_docflags
  | _ => b
  end.

Definition apply_edit (e : edit) (c : econfig) : econfig :=
  mkEconfig
    (match e with SetAlias m => m | _ => ec_alias c end)
    (edit_build e (ec_build c))
    (match e with SetDoc d => d | _ => ec_doc c end)
    (match e with SetEnv m => m | _ => ec_env c end)
    (match e with SetFutureIncompatReport f => f | _ => ec_future_incompat_report c end)
    (match e with SetCargoNew n => n | _ => ec_cargo_new c end)
    (match e with SetHttp h => h | _ => ec_http c end)
    (match e with SetNet n => n | _ => ec_net c end)
    (match e with SetRegistries m => m | _ => ec_registries c end)
    (match e with SetRegistry r => r | _ => ec_registry c end)
    (ec_de_target c)
    (match e with SetTerm t => t | _ => ec_term c end)
    (ec_cx c).

(** What a caller does with a configuration. *)
Inductive step :=
| Call (q : query)
| Edit (e : edit).

(** The answers to the calls, the configuration and the cells in the end. *)
Fixpoint run_steps (pr : profile) (w : world) (l : list step) (c : econfig) (s : state)
  : list (result answer) * (econfig * state) :=
  match l with
  | [] => ([], (c, s))
  | Edit e :: rest => run_steps pr w rest (apply_edit e c) s
  | Call q :: rest =>
      let (r, s1) := run_query pr w c q s in
      let (rs, cs) := run_steps pr w rest c s1 in
      (r :: rs, cs)
  end.
