(** What the programs cargo and rustc are asked, and what is read from their answers. *)
From Verif.Model Require Import Base Str BMap Error Value De Triple EasyTypes Context Process Resolve Easy.
From Verif.Spec Require Import StrSpec PathSpec EnvSpec TripleSpec TargetSpec.

(** ** Reading the output of [-vV] *)

Definition line_feed : ascii := ascii_of_N 10.
Definition carriage_return : ascii := ascii_of_N 13.

(** The first line of [out] that starts with [label] goes on with [r].  A carriage return
    before a line feed belongs to the end of the line. *)
Definition labelled (label out r : str) : Prop :=
  exists before line after,
    intercalate line_feed (before ++ line :: after) = out
    /\ Forall (fun l => ~ In line_feed l) (before ++ line :: after)
    /\ (forall l x, In l before -> l <> label ++ x)
    /\ match after with
       | [] => line = label ++ r
       | _ => line = label ++ r ++ [carriage_return]
              \/ (line = label ++ r /\ forall x, r <> x ++ [carriage_return])
       end.

(** 32 bits, in decimal. *)
Definition number (s : str) (n : N) : Prop := unsigned s n /\ (n < 2 ^ 32)%N.

(** [major.minor], [major.minor.patch], with or without [-channel] *)
Definition release_text (s : str) (major minor : N) (patch : option N) (nightly : bool) : Prop :=
  exists a b p ch,
    s = a ++ "."%char :: b ++ p ++ ch
    /\ number a major /\ number b minor
    /\ match patch with
       | None => p = []
       | Some n => exists d, p = "."%char :: d /\ number d n
       end
    /\ (ch = [] \/ exists c, ch = "-"%char :: c)
    /\ (nightly = true <-> ch = B "-nightly" \/ ch = B "-dev").

Definition says_rustc (out : str) (v : rustc_version) : Prop :=
  exists r, labelled (B "release: ") out r
  /\ release_text r (rv_major v) (rv_minor v) (rv_patch v) (rv_nightly v).
Definition says_cargo (out : str) (v : cargo_version) : Prop :=
  exists r, labelled (B "release: ") out r
  /\ release_text r (cv_major v) (cv_minor v) (Some (cv_patch v)) (cv_nightly v).
Definition says_host (out h : str) : Prop := labelled (B "host: ") out h.

(** ** Programs *)

(** The file rustc next to cargo. *)
Definition next_to (cargo p : str) : Prop :=
  exists d, (parent_dir cargo d \/ ((forall q, ~ parent_dir cargo q) /\ d = cargo))
  /\ p = child d (B "rustc").

Section Programs.
Context (w : world) (cx : context) (b : ebuild).

(** The program rustc itself: [build.rustc], or next to cargo if there is such a file, or
    the one in the search path. *)
Definition compiler (now : nat) (p : str) : Prop :=
  match eb_rustc b with
  | Some r => p = r
  | None =>
      exists n q, n < now /\ next_to (cx_cargo cx) q
      /\ p = if w_exists w n q then q else B "rustc"
  end.

(** A command of several words. *)
Definition command_of (words : list str) (p : epath_and_args) : Prop := words = epa_path p :: epa_args p.
Definition maybe {A} (o : option A) : list A := match o with Some a => [a] | None => [] end.

(** What [rustc()] answers. *)
Definition rustc_command (now : nat) (r : epath_and_args) : Prop :=
  cx_rustc0 cx = Some r
  \/ (cx_rustc0 cx = None /\ exists p, compiler now p
      /\ command_of (maybe (eb_rustc_wrapper b) ++ maybe (eb_rustc_workspace_wrapper b) ++ [p]) r).

(** The questions about versions. *)
Definition ask (words : list str) (c : command) : Prop := words = cmd_program c :: cmd_args c.
Definition cargo_question : command := mkCommand (cx_cargo cx) [B "-vV"].
Definition rustc_question (now : nat) (c : command) : Prop :=
  exists p, compiler now p /\ ask (maybe (eb_rustc_wrapper b) ++ [p; B "-vV"]) c.

(** [c] was run before [now] and printed [out]. *)
Definition ran (now : nat) (c : command) (out : str) : Prop :=
  exists n, n < now /\ read_outcome c (w_run w n c) = Ok out.

(** Whatever tells a version tells the host, too. *)
Definition complete : Prop :=
  (forall n out v, read_outcome cargo_question (w_run w n cargo_question) = Ok out ->
     says_cargo out v -> exists h, says_host out h)
  /\ (forall n c out v, rustc_question n c -> read_outcome c (w_run w n c) = Ok out ->
     says_rustc out v -> exists h, says_host out h).
End Programs.

(** ** Worlds and queries *)

(** Files and programs that do not change. *)
Definition steady (w : world) : Prop :=
  (forall n m p, w_exists w n p = w_exists w m p) /\ (forall n m c, w_run w n c = w_run w m c).

Definition tool_query (q : query) : Prop :=
  q = QRustc \/ q = QHostTriple \/ q = QRustcVersion \/ q = QCargoVersion.
Definition version_query (q : query) : Prop :=
  q = QHostTriple \/ q = QRustcVersion \/ q = QCargoVersion.
