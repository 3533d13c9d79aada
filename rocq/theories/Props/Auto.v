(** C77: which of the crate's types may be moved to and shared with other threads and used after
    a panic, and that the crate asserts it of every public type. *)
From Verif.Model Require Import Base Str Types Codegen AssertImpl CrateTypes.
From Verif.Spec Require Import CodegenSpec AutoSpec.
From Verif.Proof Require Import CodegenProof AutoProof.

(** ** The types *)
(** Every public type without parameters has all five traits, with six exceptions. *)
Theorem C77_types path lts consts tr :
  public_type crate_files path lts 0 consts ->
  (lacks crate_types (TCrate path []) tr <-> In (path, tr) exceptions).
Proof.
  intros H. apply items_public in H as (m & name & I & ->).
  assert (A : forallb (fun x =>
    match x with
    | (m, TypeItem true name _ O _) =>
        forallb (fun tr =>
          match clean (reasons crate_types fuel (TCrate (path_string m name) [], tr)) with
          | Some b => Bool.eqb b (negb (str_mem (path_string m name) (listed tr)))
          | None => false
          end) [Send; Sync; Unpin; UnwindSafe; RefUnwindSafe]
    | _ => true
    end) (all_items crate_files) = true) by (vm_compute; reflexivity).
  rewrite forallb_forall in A. apply A in I. clear A. rewrite forallb_forall in I. specialize (I tr).
  cbv beta in I. rewrite <- listed_exception. destruct (clean _) as [b|] eqn:E.
  - assert (T : In tr [Send; Sync; Unpin; UnwindSafe; RefUnwindSafe]) by (destruct tr; cbn; auto 10).
    apply I, Bool.eqb_prop in T. destruct (str_mem (path_string m name) (listed tr)); subst b; cbn [negb] in E.
    + apply clean_lacks in E. now split.
    + apply clean_has in E. split; [intros L; now destruct (E L)|discriminate].
  - assert (T : In tr [Send; Sync; Unpin; UnwindSafe; RefUnwindSafe]) by (destruct tr; cbn; auto 10).
    apply I in T. discriminate.
Qed.
Print Assumptions C77_types.

(** A value with its origin has what the value has. *)
Theorem C77_value t tr : lacks crate_types (TCrate (B "value::Value") [t]) tr <-> lacks crate_types t tr.
Proof.
  assert (R : req crate_types (TCrate (B "value::Value") [t], tr)
              = [(t, tr); (TStd (B "Option") [TCrate (B "value::Definition") []], tr)]) by (vm_compute; reflexivity).
  assert (D : clean (reasons crate_types fuel (TStd (B "Option") [TCrate (B "value::Definition") []], tr)) = Some true)
    by (destruct tr; vm_compute; reflexivity).
  apply clean_has in D. split.
  - intros (z & H). inversion H as [x N|x y z' N H']; subst.
    + apply stops_never in N. vm_compute in N. discriminate.
    + apply req_needs in N. rewrite R in N. destruct N as [<- |[<- |[]]]; [now exists z|]. destruct D. now exists z.
  - intros (z & H). exists z. apply blamed_part with (t, tr); [|exact H]. apply req_needs. rewrite R. now left.
Qed.
Print Assumptions C77_value.

(** A resolved configuration cannot be shared only because of its caches, which are changed
    through shared references. *)
Theorem C77_shared path tr t tr' :
  In path [B "easy::Config"; B "resolve::ResolveContext"] -> In tr [Sync; RefUnwindSafe] ->
  blamed crate_types (TCrate path [], tr) (t, tr') ->
  tr' = tr /\ exists name args, In name [B "OnceCell"; B "RefCell"] /\ t = TStd name args.
Proof.
  intros P T H.
  assert (A : forallb (fun path => forallb (fun tr =>
    match reasons crate_types fuel (TCrate path [], tr) with
    | Some l => forallb (fun z => match z with
        | (TStd name _, tr') => (auto_eqb tr' tr && str_mem name [B "OnceCell"; B "RefCell"])%bool | _ => false end) l
    | None => false
    end) [Sync; RefUnwindSafe]) [B "easy::Config"; B "resolve::ResolveContext"] = true) by (vm_compute; reflexivity).
  rewrite forallb_forall in A. apply A in P. clear A. rewrite forallb_forall in P. apply P in T. clear P.
  destruct (reasons crate_types fuel (TCrate path [], tr)) as [l|] eqn:E; [|discriminate].
  apply (reasons_blamed crate_types fuel _ _ E) in H. rewrite forallb_forall in T. apply T in H.
  destruct t as [| | | |name args|]; try discriminate. apply Bool.andb_true_iff in H as [H1 H2].
  apply auto_eqb_eq in H1. apply str_mem_in in H2. split; [exact H1|]. now exists name, args.
Qed.
Print Assumptions C77_shared.

(** An error is not unwind safe only because it may hold an [io::Error] or any other error. *)
Theorem C77_error tr z :
  In tr [UnwindSafe; RefUnwindSafe] -> blamed crate_types (TCrate (B "error::Error") [], tr) z ->
  z = (TStd (B "io::Error") [], tr) \/ z = (TDyn [Send; Sync], tr).
Proof.
  intros T H.
  assert (A : reasons crate_types fuel (TCrate (B "error::Error") [], tr) = Some [(TStd (B "io::Error") [], tr); (TDyn [Send; Sync], tr)]).
  { destruct T as [<- |[<- |[]]]; vm_compute; reflexivity. }
  apply (reasons_blamed crate_types fuel _ _ A) in H. destruct H as [<- |[<- |[]]]; [now left|now right].
Qed.
Print Assumptions C77_error.

(** ** The assertions *)
(** Of every source, the generator writes exactly the assertions about its public types. *)
Theorem C77_assertions files out : gen_assert_impl files = Some out -> forall a, In a out <-> wanted files a.
Proof. exact (gen_assert_some files out). Qed.
Print Assumptions C77_assertions.

(** It gives up exactly on a public type with constant parameters, and on an exception for a
    type there is not. *)
Theorem C77_fails files :
  gen_assert_impl files = None
  <-> (exists path lts params consts, public_type files path lts params consts /\ consts <> 0)
      \/ (exists path tr, In (path, tr) exceptions /\ forall lts params consts, ~ public_type files path lts params consts).
Proof. exact (gen_assert_none files). Qed.
Print Assumptions C77_fails.

(** src/gen/assert_impl.rs is not out of date, and the compiler accepts it. *)
Theorem C77_current : gen_assert_impl crate_files = Some assert_file.
Proof. vm_compute. reflexivity. Qed.
Print Assumptions C77_current.
Theorem C77_accepted a : In a assert_file -> true_of crate_types a.
Proof.
  intros H. apply says_true_of. revert a H. apply forallb_forall. vm_compute. reflexivity.
Qed.
Print Assumptions C77_accepted.

(** ** Examples *)
(** [easy::Config] may be moved, not shared; all its caches are reasons. *)
Example C77_ex_config :
  has crate_types (TCrate (B "easy::Config") []) Send
  /\ blamed crate_types (TCrate (B "easy::Config") [], Sync)
       (TStd (B "OnceCell") [TStd (B "String") []], Sync)
  /\ option_map (@length _) (reasons crate_types fuel (TCrate (B "easy::Config") [], Sync)) = Some 7.
Proof.
  split; [apply (clean_has crate_types fuel); vm_compute; reflexivity|]. split; [|vm_compute; reflexivity].
  destruct (reasons crate_types fuel (TCrate (B "easy::Config") [], Sync)) as [l|] eqn:E; [|vm_compute in E; discriminate].
  apply (reasons_blamed crate_types fuel _ _ E). vm_compute in E. injection E as <-. cbn. auto 10.
Qed.
(** A value that cannot be shared. *)
Example C77_ex_value :
  has crate_types (TCrate (B "value::Value") [TStd (B "RefCell") [TStd (B "u32") []]]) Send
  /\ lacks crate_types (TCrate (B "value::Value") [TStd (B "RefCell") [TStd (B "u32") []]]) Sync
  /\ lacks crate_types (TCrate (B "value::Value") [TStd (B "MutexGuard") [TStd (B "u32") []]]) Send.
Proof.
  split; [apply (clean_has crate_types fuel); vm_compute; reflexivity|].
  split; apply (clean_lacks crate_types fuel); vm_compute; reflexivity.
Qed.
(** Types that contain themselves have the traits if nothing else is in the way. *)
Example C77_ex_recursive :
  let tree extra := [(B "tree", TStd (B "Vec") [TCrate (B "tree") []] :: extra)] in
  has (tree []) (TCrate (B "tree") []) Sync
  /\ lacks (tree [TStd (B "OnceCell") [TStd (B "u32") []]]) (TCrate (B "tree") []) Sync.
Proof.
  cbv zeta. split.
  - intros (z & H).
    assert (A : forall x z, blamed [(B "tree", [TStd (B "Vec") [TCrate (B "tree") []]])] x z ->
      x <> (TCrate (B "tree") [], Sync) /\ x <> (TStd (B "Vec") [TCrate (B "tree") []], Sync)).
    { clear. intros x z H. induction H as [x N|x y z N H IH].
      - apply stops_never in N. split; intros ->; vm_compute in N; discriminate.
      - apply req_needs in N. split; intros ->; vm_compute in N; destruct N as [<- |[]]; now destruct IH. }
    now destruct (A _ _ H).
  - exists (TStd (B "OnceCell") [TStd (B "u32") []], Sync).
    apply blamed_part with (TStd (B "OnceCell") [TStd (B "u32") []], Sync).
    + apply req_needs. vm_compute. auto.
    + apply blamed_self. apply stops_never. reflexivity.
Qed.
(** A source with a nested module and a type inside a function, and one with constant
    parameters. *)
Definition needed : list titem := [TypeItem true (B "Config") 0 0 0; TypeItem true (B "ResolveContext") 0 0 0; TypeItem true (B "Error") 0 0 0].
Definition all_files (extra : list titem) : list (list str * list titem) :=
  [([B "easy"], needed); ([B "resolve"], needed); ([B "error"], needed); ([B "x"], extra)].
Example C77_ex_generator :
  (exists out, gen_assert_impl (all_files [TypeModule (B "y") [TypeWithin [TypeItem true (B "T") 1 2 0]]; TypeItem false (B "U") 0 0 1]) = Some out
     /\ length out = 57 /\ In (mkAssertion false Send (B "x::y::T") 1 [NotSend; NotSend]) out)
  /\ gen_assert_impl (all_files [TypeItem true (B "U") 0 0 1]) = None
  /\ gen_assert_impl [] = None.
Proof.
  split; [|split; vm_compute; reflexivity]. eexists. split; [vm_compute; reflexivity|]. split; [reflexivity|].
  apply in_or_app with (l := []) (m := _). right. vm_compute. auto 60.
Qed.
