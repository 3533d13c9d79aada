(** The compiler on Windows to the letter, for any text of cargo. *)
From Verif.Model Require Import Base Str StdPath Error EasyTypes Context Process Load Resolve Easy OsLoad.
From Verif.Spec Require WinAnySpec WinJoinSpec WinParentSpec.
From Verif.Spec Require Import LoadSpec EnvSpec FinalSpec TargetSpec QuerySpec WinTargetSpec.

(** The parent of cargo, or cargo itself where there is none. *)
Inductive folder (cargo : str) : str -> Prop :=
| folder_parent d : WinParentSpec.parent_text cargo d -> folder cargo d
| folder_self v r : WinAnySpec.reads cargo v r [] -> folder cargo cargo.
Inductive exact_compiler (b : ebuild) (cargo : str) (there : str -> bool) : str -> Prop :=
| exact_set r : eb_rustc b = Some r -> exact_compiler b cargo there r
| exact_beside d x : eb_rustc b = None -> folder cargo d -> WinJoinSpec.joined d (B "rustc.exe") x -> there x = true ->
    exact_compiler b cargo there x
| exact_name d x : eb_rustc b = None -> folder cargo d -> WinJoinSpec.joined d (B "rustc.exe") x -> there x = false ->
    exact_compiler b cargo there (B "rustc").
(** As it was at some moment until [now]. *)
Definition exact_found (w : world) (b : ebuild) (cargo : str) (now : nat) (p : str) : Prop :=
  exists n, n <= now /\ exact_compiler b cargo (w_exists w n) p.
(** A configuration loaded in any directory, and the cargo of its environment. *)
Definition cargo_of (f : fs) (p : process_env) (cwd : str) (o : options) (cargo : str) (ec : econfig) : Prop :=
  os_easy_load windows f p cwd o = Ok ec /\ exists env, environment p o env /\ win_cargo o env cargo.
