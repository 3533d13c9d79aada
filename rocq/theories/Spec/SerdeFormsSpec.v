(** The other forms in which the tables of a document may be written: as arrays of the
    values in the order of the documentation, and as dates. *)
From Verif.Model Require Import Base Str BMap Value De Serde.
From Verif.Spec Require Import SerdeSpec.

(** What is at a place: a single value; a table with these fields in this order, of which
    an array must give at least the first [needed]; a table with any names. *)
Inductive layout :=
| Single
| Struct (needed : nat) (fields : list (str * layout))
| Named (each : layout).

Definition singles (l : list string) : layout :=
  Struct (length l) (map (fun k => (B k, Single)) l).
Definition reading_order : layout :=
  Struct 0
    [(B "alias", Named Single);
     (B "build", singles ["jobs"; "rustc"; "rustc-wrapper"; "rustc-workspace-wrapper"; "rustdoc";
                          "target"; "target-dir"; "rustflags"; "rustdocflags"; "incremental";
                          "dep-info-basedir"]%string);
     (B "doc", singles ["browser"%string]);
     (B "env", Named Single);
     (B "future-incompat-report", singles ["frequency"%string]);
     (B "cargo-new", singles ["vcs"%string]);
     (B "http", singles ["debug"; "proxy"; "timeout"; "cainfo"; "check-revoke"; "low-speed-limit";
                         "multiplexing"; "user-agent"]%string);
     (B "net", singles ["retry"; "git-fetch-with-cli"; "offline"]%string);
     (B "registries", Named (singles ["index"; "token"; "protocol"]%string));
     (B "registry", singles ["default"; "token"]%string);
     (B "target", Named (singles ["linker"; "runner"; "rustflags"; "rustdocflags"]%string));
     (B "term", Struct 3 [(B "quiet", Single); (B "verbose", Single); (B "color", Single);
                          (B "progress", singles ["when"; "width"]%string)])].

(** How the TOML library shows a date to who wants a table. *)
Definition date_table (d : str) : toml := TomlTab [(B "$__toml_private_datetime", TomlStr d)].

(** The same document with names: arrays that are long enough and dates become tables. *)
Fixpoint in_names (s : layout) (t : toml) : toml :=
  match s with
  | Single => t
  | Struct needed fs =>
      match t with
      | TomlTab l =>
          TomlTab (map (fun kv =>
            (fst kv,
             (fix known (fs : list (str * layout)) :=
                match fs with
                | [] => snd kv
                | (k, s') :: fs' => if str_eqb k (fst kv) then in_names s' (snd kv) else known fs'
                end) fs)) l)
      | TomlArr l =>
          if needed <=? length l
          then TomlTab
                 ((fix give (fs : list (str * layout)) (l : list toml) :=
                     match fs, l with
                     | (k, s') :: fs', u :: l' => (k, in_names s' u) :: give fs' l'
                     | _, _ => []
                     end) fs l)
          else t
      | TomlDate d => date_table d
      | _ => t
      end
  | Named e =>
      match t with
      | TomlTab l => TomlTab (map (fun kv => (fst kv, in_names e (snd kv))) l)
      | TomlDate d => date_table d
      | _ => t
      end
  end.

(** No table has a name twice; TOML does not allow it. *)
Inductive within (t : toml) : toml -> Prop :=
| within_self : within t t
| within_table k u l : In (k, u) l -> within t u -> within t (TomlTab l)
| within_array u l : In u l -> within t u -> within t (TomlArr l).
Definition no_repeats (t : toml) : Prop := forall l, within (TomlTab l) t -> NoDup (map fst l).
