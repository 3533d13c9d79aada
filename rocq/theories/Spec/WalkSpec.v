(** Which configuration files exist and in which order they count. *)
From Verif.Model Require Import Base.
From Verif.Spec Require Import StrSpec PathSpec.

Section Files.
  (** Which files exist. *)
  Variable exists_ : str -> bool.

  (** The configuration file of a directory: [config] is preferred to [config.toml]. *)
  Inductive file_in (dir : str) : list str -> Prop :=
  | file_plain : exists_ (child dir (B "config")) = true ->
                 file_in dir [child dir (B "config")]
  | file_toml : exists_ (child dir (B "config")) = false ->
                exists_ (child dir (B "config.toml")) = true ->
                file_in dir [child dir (B "config.toml")]
  | file_none : exists_ (child dir (B "config")) = false ->
                exists_ (child dir (B "config.toml")) = false ->
                file_in dir [].

  (** The files of several directories, in the order of the directories. *)
  Inductive files_in : list str -> list str -> Prop :=
  | files_nil : files_in [] []
  | files_cons d ds f fs : file_in d f -> files_in ds fs -> files_in (d :: ds) (f ++ fs).

  (** The directories searched from [cwd]: [.cargo] in [cwd] and in every directory
      above it, then CARGO_HOME unless it is one of those. *)
  Definition dot_cargo (d : str) : str := child d (B ".cargo").

  Inductive home_last (dirs : list str) : option str -> list str -> Prop :=
  | home_none : home_last dirs None dirs
  | home_seen h : Exists (same_place h) dirs -> home_last dirs (Some h) dirs
  | home_new h : ~ Exists (same_place h) dirs -> home_last dirs (Some h) (dirs ++ [h]).

  Definition search_order (cwd : str) (home : option str) (dirs : list str) : Prop :=
    exists above, upwards cwd above /\ home_last (map dot_cargo above) home dirs.
End Files.
