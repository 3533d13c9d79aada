(** Loading while the file system changes: src/de.rs:136-155 with the lazy iterator of
    src/walk.rs.  Every [Path::exists] and every [fs::read_to_string] is a moment of its
    own; [F t] is the file system at the moment [t]. *)
From Verif.Model Require Import Base Str Path BMap Error Value De Merge SetPath Serde Walk Load Context ApplyEnv Easy.

(** What is asked of the file system. *)
Inductive fs_op := OExists (p : path) | ORead (p : path).

(** What was asked so far, newest first; its length is the time. *)
Definition asked := list fs_op.

(** src/walk.rs:23-39 [config_path]. *)
Definition config_path_t (F : nat -> fs) (tr : asked) (p : path) : option path * asked :=
  let config := join p (B "config") in
  let tr1 := OExists config :: tr in
  if fs_exists (F (length tr)) config then (Some config, tr1)
  else
    let config := join p (B "config.toml") in
    (if fs_exists (F (length tr1)) config then Some config else None, OExists config :: tr1).

(** src/walk.rs:85-98 [Iterator::next]. *)
Fixpoint walk_next_t (F : nat -> fs) (tr : asked) (anc : list path) (home : option path)
  : option path * walk_state * asked :=
  match anc with
  | [] =>
      match home with
      | None => (None, mkWalk [] None, tr)
      | Some h => let (c, tr1) := config_path_t F tr h in (c, mkWalk [] None, tr1)
      end
  | a :: rest =>
      let p := join a (B ".cargo") in
      let home' := dedup_home home p in
      match config_path_t F tr p with
      | (Some c, tr1) => (Some c, mkWalk rest home', tr1)
      | (None, tr1) => walk_next_t F tr1 rest home'
      end
  end.

(** src/de.rs:136-155 [_load_with_options]; [base] is the local variable of that name.
    Every iteration consumes an ancestor or the home, so [length ancestors + 2]
    iterations are enough. *)
Fixpoint load_loop (n : nat) (F : nat -> fs) (tr : asked) (s : walk_state) (base : option (path * config))
  : result config * asked :=
  match n with
  | O => (Panic PFuel, tr)
  | S n' =>
      match walk_next_t F tr (wk_ancestors s) (wk_home s) with
      | (None, _, tr1) => (Ok (match base with Some (_, c) => c | None => config_default end), tr1)
      | (Some p, s', tr1) =>
          let tr2 := ORead p :: tr1 in
          match load_file (F (length tr1)) p with
          | Ok c =>
              match base with
              | None => load_loop n' F tr2 s' (Some (p, c))
              | Some (base_path, b) =>
                  match with_context
                          (MText (B "failed to merge config from " ++ bt (lossy p)
                                  ++ B " into " ++ bt (lossy base_path)))
                          (merge_config b c false) with
                  | Ok b' => load_loop n' F tr2 s' (Some (base_path, b'))
                  | Err e => (Err e, tr2)
                  | Panic x => (Panic x, tr2)
                  end
              end
          | Err e => (Err e, tr2)
          | Panic x => (Panic x, tr2)
          end
      end
  end.
Definition load_over_time (F : nat -> fs) (current_dir : path) (cargo_home : option path)
  : result config * asked :=
  let s := walk_init current_dir cargo_home in
  load_loop (length (wk_ancestors s) + 2) F [] s None.

(** src/easy.rs:138-144 [load_with_options]. *)
Definition easy_load_over_time (F : nat -> fs) (p : process_env) (cwd : path) (o : options)
  : result econfig :=
  let cx := into_context p o cwd in
  de <- fst (load_over_time F (cx_current_dir cx) (cx_cargo_home p cx cwd)) ;;
  from_unresolved de cx.
