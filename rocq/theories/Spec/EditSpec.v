(** What the queries look at, and what an assignment to a field changes. *)
From Verif.Model Require Import Base Str BMap Error Value De Triple EasyTypes Context Resolve Easy Edit.

(** The parts of a configuration that queries look at, apart from those that cannot be
    changed. *)
Inductive part := Compiler | Wrapper | WorkspaceWrapper | DefaultTarget | HiddenFlags.

Definition consults (q : query) (x : part) : Prop :=
  match q with
  | QTarget _ | QLinker _ | QRunner _ | QRustflags _ | QRustdocflags _ => x <> DefaultTarget
  | QRustc => x = Compiler \/ x = Wrapper \/ x = WorkspaceWrapper
  | QHostTriple | QRustcVersion | QCargoVersion => x = Compiler \/ x = Wrapper
  | QBuildTargetForConfig l => l = [] /\ (x = DefaultTarget \/ x = Compiler \/ x = Wrapper)
  | QBuildTargetForCli l => l = [] /\ x = DefaultTarget
  | QCargo => False
  end.

Definition changes (e : edit) (x : part) : Prop :=
  match e with
  | SetRustc _ => x = Compiler
  | SetRustcWrapper _ => x = Wrapper
  | SetRustcWorkspaceWrapper _ => x = WorkspaceWrapper
  | SetTarget _ => x = DefaultTarget
  | SetBuild _ => True
  | _ => False
  end.

Definition calls (l : list step) : list query :=
  flat_map (fun x => match x with Call q => [q] | Edit _ => [] end) l.
Definition edits (l : list step) : list edit :=
  flat_map (fun x => match x with Call _ => [] | Edit e => [e] end) l.
(** The configuration with all assignments made at once. *)
Definition edited (l : list step) (c : econfig) : econfig := fold_left (fun c e => apply_edit e c) (edits l) c.

(** No assignment changes what a later query looks at. *)
Definition undisturbed (l : list step) : Prop :=
  forall before e after q x,
    l = before ++ Edit e :: after -> In (Call q) after -> changes e x -> ~ consults q x.
