(** src/walk.rs.  File existence is a predicate; the iterator is a state machine
    over the remaining ancestors and the pending [CARGO_HOME]. *)
From Verif.Model Require Import Base Str Path.

(** src/walk.rs:23-39 [config_path]. *)
Definition config_path (exists_ : path -> bool) (p : path) : option path :=
  let config := join p (B "config") in
  if exists_ config then Some config
  else
    let config := join p (B "config.toml") in
    if exists_ config then Some config else None.

(** src/walk.rs:50-65 [cargo_home_with_cwd].  [home_var] is the process
    variable [CARGO_HOME], [home_dir] the result of [std::env::home_dir]. *)
Definition cargo_home_with_cwd (home_var home_dir : option str) (cwd : path) : option path :=
  match home_var with
  | Some h =>
      if is_empty h
      then match home_dir with Some d => Some (join d (B ".cargo")) | None => None end
      else if is_absolute h then Some h else Some (join cwd h)
  | None => match home_dir with Some d => Some (join d (B ".cargo")) | None => None end
  end.

(** src/walk.rs:68-73 [WalkInner]. *)
Record walk_state := mkWalk {
  wk_ancestors : list path;
  wk_home : option path
}.

(** src/walk.rs:78-80, 114-116 [with_cargo_home]. *)
Definition walk_init (current_dir : path) (cargo_home : option path) : walk_state :=
  mkWalk (ancestors current_dir) cargo_home.

(** src/walk.rs:89-92: dedup of CARGO_HOME. *)
Definition dedup_home (home : option path) (p : path) : option path :=
  match home with
  | Some h => if path_eqb h p then None else Some h
  | None => None
  end.

(** src/walk.rs:85-98 [Iterator::next]. *)
Fixpoint walk_next_from (exists_ : path -> bool) (anc : list path) (home : option path)
  : option path * walk_state :=
  match anc with
  | [] =>
      match home with
      | None => (None, mkWalk [] None)
      | Some h => (config_path exists_ h, mkWalk [] None)
      end
  | a :: rest =>
      let p := join a (B ".cargo") in
      let home' := dedup_home home p in
      match config_path exists_ p with
      | Some c => (Some c, mkWalk rest home')
      | None => walk_next_from exists_ rest home'
      end
  end.
Definition walk_next (exists_ : path -> bool) (s : walk_state) : option path * walk_state :=
  walk_next_from exists_ (wk_ancestors s) (wk_home s).

(** A [for] loop over the iterator: calls [next] until it returns [None].
    Every returned item consumes an ancestor or the home, so
    [length ancestors + 2] calls are enough. *)
Fixpoint walk_all_fuel (n : nat) (exists_ : path -> bool) (s : walk_state) : list path :=
  match n with
  | O => []
  | S n' =>
      match walk_next exists_ s with
      | (Some p, s') => p :: walk_all_fuel n' exists_ s'
      | (None, _) => []
      end
  end.
Definition walk_all (exists_ : path -> bool) (s : walk_state) : list path :=
  walk_all_fuel (length (wk_ancestors s) + 2) exists_ s.
