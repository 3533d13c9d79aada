(** Calls that run code of the caller in the middle. *)
From Verif.Model Require Import Base Str BMap Error Value De Triple EasyTypes Context Resolve Easy Borrow.

Definition unborrowed (s : bstate) : Prop := b_target s = Shared 0 /\ b_cfg s = Shared 0.
Definition fresh_cells (s : state) : bstate := mkB s (Shared 0) (Shared 0).

(** The queries about one target. *)
Definition about_target (q : query) : option target_arg :=
  match q with
  | QTarget a | QLinker a | QRunner a | QRustflags a | QRustdocflags a => Some a
  | _ => None
  end.

(** Code that makes no query about a target, at any depth. *)
Fixpoint modest_script (sc : script) : Prop :=
  match sc with
  | Throw => True
  | Give q => about_target q = None
  | Do x k => modest x /\ forall r, modest_script (k r)
  end
with modest (x : call) : Prop :=
  match x with
  | Ask before => modest_script before
  | Show t cf => modest_script t /\ modest_script cf
  | Store t => modest_script t
  end.
(** Conversions may make any calls; writers and serializers are modest. *)
Fixpoint careful_script (sc : script) : Prop :=
  match sc with
  | Throw | Give _ => True
  | Do x k => careful x /\ forall r, careful_script (k r)
  end
with careful (x : call) : Prop :=
  match x with
  | Ask before => careful_script before
  | Show t cf => modest_script t /\ modest_script cf
  | Store t => modest_script t
  end.

(** The queries made inside a call: those a script may give, and those it may make. *)
Fixpoint gives (sc : script) (q : query) : Prop :=
  match sc with
  | Throw => False
  | Give q' => q = q'
  | Do _ k => exists r, gives (k r) q
  end.
Fixpoint makes (sc : script) (q : query) : Prop :=
  match sc with
  | Throw | Give _ => False
  | Do x k => asks x q \/ exists r, makes (k r) q
  end
with asks (x : call) (q : query) : Prop :=
  match x with
  | Ask before => makes before q \/ gives before q
  | Show t cf => makes t q \/ makes cf q
  | Store t => makes t q
  end.

(** The answer a query gives, for a call. *)
Definition answered (r : result answer) : ending (option answer) :=
  Done match r with Ok a => Ok (Some a) | Err e => Err e | Panic p => Panic p end.

(** The call came to what some of its queries [qs], made one after another from outside,
    come to; if it asks a question, the last of them is it, and it has the answer. *)
Definition in_turn (pr : profile) (w : world) (c : econfig) (x : call) (s : state)
  (r : ending (option answer)) (s' : state) : Prop :=
  exists qs, Forall (asks x) qs /\ s' = run_queries pr w c qs s
  /\ match x with
     | Ask before =>
         r = Thrown
         \/ exists qs0 q, qs = qs0 ++ [q] /\ gives before q
                         /\ r = answered (fst (run_query pr w c q (run_queries pr w c qs0 s)))
     | Show _ _ | Store _ => r = Thrown \/ r = Done (Ok None)
     end.
