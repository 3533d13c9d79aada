(** What loading a set of configuration files means, key by key. *)
From Verif.Model Require Import Base Str BMap Error Value De Serde Load.
From Verif.Spec Require Import StrSpec PathSpec WalkSpec ConfigSpec.

(** The files looked at from [cwd], closest first. *)
Definition visited (f : fs) (cwd : str) (home : option str) (ps : list str) : Prop :=
  exists dirs, search_order cwd home dirs /\ files_in (fs_exists f) dirs ps.

(** The file [p] can be read and is a well-formed configuration [c]. *)
Definition contents (f : fs) (p : str) (c : config) : Prop :=
  exists t, fs_read f p = ReadTree t /\ de_config t = Some c.

(** Files together with their contents. *)
Definition files := list (str * config).
Definition reads (f : fs) (ps : list str) (l : files) : Prop :=
  map fst l = ps /\ Forall (fun x => contents f (fst x) (snd x)) l.

(** A value remembers the file it is from. *)
Definition from_file {A} (p : str) (v : value A) : value A := mkValue (val v) (Some (DefPath p)).

(** What a file says about a key. *)
Definition scalar_in {A} (k : scalar_key A) (x : str * config) : option (value A) :=
  option_map (from_file (fst x)) (look k (snd x)).
Definition words_from (p : str) (w : form * list word) : form * list word :=
  (fst w, map (from_file p) (snd w)).
Definition list_in (k : list_key) (x : str * config) : option (form * list word) :=
  option_map (words_from (fst x)) (look_list k (snd x)).
Definition program_in (k : program_key) (x : str * config) : option (form * list word) :=
  option_map (words_from (fst x)) (look_program k (snd x)).

(** Two outcomes that differ at most in the error reported. *)
Definition same_outcome {A} (x y : result A) : Prop :=
  match x, y with
  | Ok a, Ok b => a = b
  | Err _, Err _ => True
  | _, _ => False
  end.

(** No override by a RUSTFLAGS-like variable has happened yet. *)
Definition plain (c : config) : Prop :=
  b_override_target_rustflags (c_build c) = false
  /\ b_override_target_rustdocflags (c_build c) = false.

(** Why loading stops at file [p], after the files [earlier] have been accepted. *)
Definition quoted (p : str) : str := B "`" ++ lossy p ++ B "`".
Inductive stops_at (f : fs) (earlier : list str) (p : str) : error -> Prop :=
| cannot_read k :
    fs_read f p = ReadErr k ->
    stops_at f earlier p (EWithContext (MText (B "failed to read " ++ quoted p)) (Some (SIo k)))
| cannot_parse :
    fs_read f p = ReadBad \/ (exists t, fs_read f p = ReadTree t /\ de_config t = None) ->
    stops_at f earlier p
      (EWithContext (MText (B "failed to parse " ++ quoted p ++ B " as cargo configuration"))
                    (Some SToml))
| cannot_merge closest more c e :
    earlier = closest :: more -> contents f p c ->
    (exists k q c', In q earlier /\ contents f q c' /\ ~ agree (shape_at k c') (shape_at k c)) ->
    stops_at f earlier p
      (EWithContext (MText (B "failed to merge config from " ++ quoted p ++ B " into " ++ quoted closest))
                    (Some (SCrate e))).
