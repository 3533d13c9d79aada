(** Values written in documents and values made in code. *)
From Verif.Model Require Import Base Str Serde Load Construct Process.
From Verif.Spec Require Import StrSpec ConfigSpec SerdeSpec.

(** The documents in the files [ps]. *)
Definition documents (f : fs) (ps : list str) (docs : list (str * toml)) : Prop :=
  map fst docs = ps /\ Forall (fun d : str * toml => fs_read f (fst d) = ReadTree (snd d) /\ laid_out (snd d)) docs.
(** All that the documents say at one place, closest first. *)
Definition values_at (p : list str) (docs : list (str * toml)) : list toml :=
  defined (map (fun d => at_path p (snd d)) docs).

Definition array (l : list str) : toml := TomlArr (map TomlStr l).
(** A list of words: the closest text, or all arrays together, the closest last. *)
Inductive written : list toml -> code_list -> Prop :=
| written_text s more : written (TomlStr s :: more) (FromText s)
| written_arrays ls : ls <> [] -> written (map array ls) (FromArray (concat (rev ls))).
(** A program: the same, but with the closest first. *)
Inductive written_program : list toml -> code_list -> Prop :=
| program_text s more : written_program (TomlStr s :: more) (FromText s)
| program_arrays ls : ls <> [] -> written_program (map array ls) (FromArray (concat ls)).

(** What a call of a builder method adds. *)
Definition added (c : builder_call) : list str := match c with Arg a => [a] | Args l => l end.
(** The words of a command line. *)
Definition command_words (c : command) : list str := cmd_program c :: cmd_args c.
