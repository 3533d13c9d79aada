(** A configuration as a list of lines [a.b.c = value]. *)
From Coq Require Import Sorting.Sorted.
From Verif.Model Require Import Base Str BMap Error Value De Serde Load.
From Verif.Spec Require Import StrSpec Utf8Spec ConfigSpec LoadSpec SerdeSpec.

(** Values that are not tables. *)
Definition leaf (t : toml) : Prop := forall l, t <> TomlTab l.

(** Paths in the order of their keys. *)
Inductive path_lt : list str -> list str -> Prop :=
| lt_here a b p q : str_cmp a b = Lt -> path_lt (a :: p) (b :: q)
| lt_later a p q : path_lt p q -> path_lt (a :: p) (a :: q).

(** [ls] are the leaves of [t] with their places, in order and each once. *)
Definition listing (t : toml) (ls : list (list str * toml)) : Prop :=
  StronglySorted path_lt (map fst ls)
  /\ (forall p v, In (p, v) ls <-> at_path p t = Some v /\ leaf v).

Definition dotted (p : list str) : str := intercalate "." p.
Definition newline : ascii := ascii_of_N 10.
Definition line (show : toml -> str) (e : list str * toml) : str :=
  dotted (fst e) ++ B " = " ++ show (snd e) ++ [newline].
Definition lines (show : toml -> str) (ls : list (list str * toml)) : str := concat (map (line show) ls).

(** Every key is a single name. *)
Definition no_dots (ls : list (list str * toml)) : Prop :=
  Forall (fun e => Forall (fun k => ~ In "."%char k) (fst e)) ls.

(** What is shown of a file. *)
Definition block (show : toml -> str) (shown : str) (ls : list (list str * toml)) : str :=
  B "# " ++ shown ++ [newline] ++ lines show ls ++ [newline].
(** [out] shows the files [ps]. *)
Inductive shows (show : toml -> str) (f : fs) : list str -> str -> Prop :=
| shows_nil : shows show f [] []
| shows_cons p name c ls ps out :
    contents f p c -> repaired p name -> listing (ser_config c) ls -> shows show f ps out ->
    shows show f (p :: ps) (block show name ls ++ out).

(** Variables that are listed. *)
Definition listed (kv : str * str) : Prop :=
  utf8 (fst kv) /\ utf8 (snd kv) /\ exists r, fst kv = B "CARGO_" ++ r.

(** The value [u] at [p] stands for a setting of [c]. *)
Inductive setting (c : config) : list str -> toml -> Prop :=
| set_scalar A (k : scalar_key A) v u : look k c = Some v -> stands_for k u (val v) -> setting c (place k) u
| set_env_value n v u : look (EnvVarValue n) c = Some v -> u = TomlStr (val v) -> setting c [B "env"; n; B "value"] u
| set_list k v u : look_list k c = Some v -> list_stands_for k u (fst (stored_form k v), map val (snd v)) ->
                   setting c (list_place k) u
| set_program k v u : look_program k c = Some v -> program_value u (fst v, map val (snd v)) ->
                      setting c (program_place k) u.
