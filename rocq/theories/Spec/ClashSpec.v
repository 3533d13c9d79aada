(** Which key a failed merge reports, and what the report says. *)
From Verif.Model Require Import Base Str BMap Error Value De Debug SetPath Serde Load.
From Verif.Spec Require Import ConfigSpec LoadSpec.

(** The place of a key: its table, its name within the table, its number within
    the entry of that name. *)
Definition place (k : shaped_key) : nat * str * nat :=
  match k with
  | ShapeList (Alias n) => (0, n, 0)
  | ShapeList BuildTarget => (1, [], 0)
  | ShapeList BuildRustflags => (1, [], 1)
  | ShapeList BuildRustdocflags => (1, [], 2)
  | ShapeProgram DocBrowser => (2, [], 0)
  | ShapeEnv n => (3, n, 0)
  | ShapeProgram (TargetRunner t) => (4, t, 0)
  | ShapeList (TargetRustflags t) => (4, t, 1)
  | ShapeList (TargetRustdocflags t) => (4, t, 2)
  end.

Definition precedes (k k' : shaped_key) : Prop :=
  let '(t, n, i) := place k in
  let '(t', n', i') := place k' in
  t < t' \/ (t = t' /\ (str_cmp n n' = Lt \/ (n = n' /\ i < i'))).

(** The key is the first one written in two ways. *)
Definition first_clash (a b : config) (k : shaped_key) : Prop :=
  ~ agree (shape_at k a) (shape_at k b)
  /\ forall k', precedes k' k -> agree (shape_at k' a) (shape_at k' b).

(** "expected ..., but found ...". *)
Definition kind_name (k : shaped_key) (s : shape) : str :=
  match s with
  | Simple => B "string"
  | Compound => match k with ShapeEnv _ => B "table" | _ => B "array" end
  end.
Definition complaint (k : shaped_key) (s s' : shape) : error :=
  EOther (MText (B "expected " ++ kind_name k s ++ B ", but found " ++ kind_name k s')).

(** The complaint, with the name of the entry and the two entries as they are shown. *)
Definition about (name : str) (x y : dbg) (e : error) : error :=
  EWithContext (MMergeKey name x y) (Some (SCrate e)).

(** Two [target] tables, the first [i] of the keys runner, rustflags and
    rustdocflags joined. *)
Definition winner {A} (force : bool) (o o' : option A) : option A :=
  first_defined (if force then [o'; o] else [o; o']).
Definition joined (join : list (form * list word) -> option (form * list word)) (force : bool)
  (o o' : option (form * list word)) : option (form * list word) :=
  match force, o' with
  | true, Some (AsString, _) => o'
  | _, _ => join (defined [o; o'])
  end.
Definition half_joined (force : bool) (i : nat) (x y z : target_config) : Prop :=
  t_linker z = winner force (t_linker x) (t_linker y)
  /\ option_map program_words (t_runner z) =
       (let r t := option_map program_words (t_runner t) in
        if 0 <? i then joined join_programs force (r x) (r y) else r x)
  /\ option_map flags_words (t_rustflags z) =
       (let r t := option_map flags_words (t_rustflags t) in
        if 1 <? i then joined join_lists force (r x) (r y) else r x)
  /\ t_rustdocflags z = t_rustdocflags x.

(** What is reported about a key. *)
Inductive report (a b : config) (force : bool) (s s' : shape) : shaped_key -> error -> Prop :=
| report_build k : fst (fst (place k)) = 1 -> report a b force s s' k (complaint k s s')
| report_doc :
    report a b force s s' (ShapeProgram DocBrowser) (complaint (ShapeProgram DocBrowser) s s')
| report_alias n x y :
    bget n (c_alias a) = Some x -> bget n (c_alias b) = Some y ->
    report a b force s s' (ShapeList (Alias n))
      (about n (dbg_string_list x) (dbg_string_list y) (complaint (ShapeList (Alias n)) s s'))
| report_env n x y :
    bget n (c_env a) = Some x -> bget n (c_env b) = Some y ->
    report a b force s s' (ShapeEnv n)
      (about n (dbg_env_config_value x) (dbg_env_config_value y) (complaint (ShapeEnv n) s s'))
| report_target k n i x y z :
    place k = (4, n, i) ->
    bget n (c_target a) = Some x -> bget n (c_target b) = Some y -> half_joined force i x y z ->
    report a b force s s' k (about n (dbg_target z) (dbg_target y) (complaint k s s')).

Definition clash_report (a b : config) (force : bool) (e : error) : Prop :=
  exists k s s', first_clash a b k /\ shape_at k a = Some s /\ shape_at k b = Some s'
                 /\ report a b force s s' k e.

(** Why loading ends at file [p], when the files [earlier] make up [base]. *)
Inductive ends_at (f : fs) (earlier : list str) (base : config) (p : str) : error -> Prop :=
| ends_read k :
    fs_read f p = ReadErr k ->
    ends_at f earlier base p (EWithContext (MText (B "failed to read " ++ quoted p)) (Some (SIo k)))
| ends_parse :
    fs_read f p = ReadBad \/ (exists t, fs_read f p = ReadTree t /\ de_config t = None) ->
    ends_at f earlier base p
      (EWithContext (MText (B "failed to parse " ++ quoted p ++ B " as cargo configuration"))
                    (Some SToml))
| ends_merge closest more c e :
    earlier = closest :: more -> contents f p c ->
    clash_report base (sp_config p c) false e ->
    ends_at f earlier base p
      (EWithContext (MText (B "failed to merge config from " ++ quoted p ++ B " into " ++ quoted closest))
                    (Some (SCrate e))).
