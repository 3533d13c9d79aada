(** Auto traits: a type has one unless something it consists of lacks it. *)
From Verif.Model Require Import Base Types AssertImpl.
From Verif.Spec Require Import CodegenSpec.

(** A declared type with its parameters filled in. *)
Fixpoint inst (args : list ty) (t : ty) : ty :=
  match t with
  | TParam n => nth n args t
  | TRef u => TRef (inst args u)
  | TMut u => TMut (inst args u)
  | TDyn b => TDyn b
  | TStd name l => TStd name (map (inst args) l)
  | TCrate name l => TCrate name (map (inst args) l)
  end.

(** What is known of the standard library (from its documentation). *)
(** Consisting of plain data only. *)
Definition data_types : list str :=
  map B ["()"; "bool"; "u8"; "u32"; "i32"; "usize"; "str"; "String"; "OsString"; "Path"; "PathBuf";
         "Ancestors"]%string.
(** Having what their arguments have. *)
Definition containers : list str :=
  map B ["Option"; "Result"; "Vec"; "[]"; "Range"; "Cow"; "HashMap"; "HashSet"]%string.
(** Changed through a shared reference, without synchronisation. *)
Definition cells : list str := map B ["UnsafeCell"; "RefCell"; "OnceCell"]%string.
(** Others. *)
Definition special : list str :=
  map B ["Box"; "BTreeMap"; "io::Error"; "MutexGuard"; "PhantomPinned"; "*const"]%string.

Section Auto.
Variable declared : list (str * list ty).

(** For the first type to have its trait, the second has to have its. *)
Inductive needs : ty * auto -> ty * auto -> Prop :=
| needs_part name args parts p tr :
    In (name, parts) declared -> In p parts -> needs (TCrate name args, tr) (inst args p, tr)
| needs_ref_send t : needs (TRef t, Send) (t, Sync)
| needs_ref_sync t : needs (TRef t, Sync) (t, Sync)
| needs_ref_unwind t : needs (TRef t, UnwindSafe) (t, RefUnwindSafe)
| needs_ref_ref t : needs (TRef t, RefUnwindSafe) (t, RefUnwindSafe)
| needs_mut t tr : In tr [Send; Sync; RefUnwindSafe] -> needs (TMut t, tr) (t, tr)
| needs_container name args t tr : In name containers -> In t args -> needs (TStd name args, tr) (t, tr)
| needs_cell name args t tr :
    In name cells -> In t args -> In tr [Send; Unpin; UnwindSafe] -> needs (TStd name args, tr) (t, tr)
| needs_box args t tr : In t args -> tr <> Unpin -> needs (TStd (B "Box") args, tr) (t, tr)
| needs_tree args t tr :
    In t args -> In tr [Send; Sync; RefUnwindSafe] -> needs (TStd (B "BTreeMap") args, tr) (t, tr)
| needs_tree_unwind args t : In t args -> needs (TStd (B "BTreeMap") args, UnwindSafe) (t, RefUnwindSafe)
| needs_guard args t : In t args -> needs (TStd (B "MutexGuard") args, Sync) (t, Sync)
| needs_pointer args t tr :
    In t args -> In tr [UnwindSafe; RefUnwindSafe] -> needs (TStd (B "*const") args, tr) (t, RefUnwindSafe).

(** Lacking the trait, whatever it consists of.  Nothing is assumed of unknown types. *)
Inductive never : ty * auto -> Prop :=
| never_dyn b tr : ~ In tr b -> never (TDyn b, tr)
| never_mut t : never (TMut t, UnwindSafe)
| never_cell name args tr : In name cells -> In tr [Sync; RefUnwindSafe] -> never (TStd name args, tr)
| never_io args tr : In tr [UnwindSafe; RefUnwindSafe] -> never (TStd (B "io::Error") args, tr)
| never_guard args : never (TStd (B "MutexGuard") args, Send)
| never_pinned args : never (TStd (B "PhantomPinned") args, Unpin)
| never_pointer args tr : In tr [Send; Sync] -> never (TStd (B "*const") args, tr)
| never_unknown name args tr :
    ~ In name (data_types ++ containers ++ cells ++ special) -> never (TStd name args, tr)
| never_undeclared name args tr : ~ In name (map fst declared) -> never (TCrate name args, tr)
| never_param n tr : never (TParam n, tr).

(** [blamed x y]: [y] is a reason for the type of [x] to lack its trait. *)
Inductive blamed : ty * auto -> ty * auto -> Prop :=
| blamed_self x : never x -> blamed x x
| blamed_part x y z : needs x y -> blamed y z -> blamed x z.

Definition lacks (t : ty) (tr : auto) : Prop := exists z, blamed (t, tr) z.
Definition has (t : ty) (tr : auto) : Prop := ~ lacks t tr.
End Auto.

(** ** Assertions *)
Definition helper_type (h : helper) : ty :=
  match h with
  | UnitType => TStd (B "()") []
  | NotSend => TCrate (B "assert_impl::NotSend") []
  | NotSync => TCrate (B "assert_impl::NotSync") []
  | NotUnpin => TCrate (B "assert_impl::NotUnpin") []
  | NotUnwindSafe => TCrate (B "assert_impl::NotUnwindSafe") []
  | NotRefUnwindSafe => TCrate (B "assert_impl::NotRefUnwindSafe") []
  end.
(** What is asserted: the code compiles exactly if all of it is true. *)
Definition true_of (declared : list (str * list ty)) (a : assertion) : Prop :=
  let t := TCrate (as_path a) (map helper_type (as_args a)) in
  if as_holds a then has declared t (as_trait a) else lacks declared t (as_trait a).

(** The public types that do not have all of the traits. *)
Definition exceptions : list (str * auto) :=
  [(B "easy::Config", Sync); (B "easy::Config", RefUnwindSafe);
   (B "resolve::ResolveContext", Sync); (B "resolve::ResolveContext", RefUnwindSafe);
   (B "error::Error", UnwindSafe); (B "error::Error", RefUnwindSafe)].

(** The types declared in [i], which is in the modules [m]. *)
Inductive holds_type : list str -> titem -> list str -> titem -> Prop :=
| holds_self m p name lts params consts :
    holds_type m (TypeItem p name lts params consts) m (TypeItem p name lts params consts)
| holds_module m name content j m' i :
    In j content -> holds_type (m ++ [name]) j m' i -> holds_type m (TypeModule name content) m' i
| holds_within m content j m' i :
    In j content -> holds_type m j m' i -> holds_type m (TypeWithin content) m' i.
(** A public type of the files, by its path. *)
Definition public_type (files : list (list str * list titem)) (path : str) (lts params consts : nat) : Prop :=
  exists file j m name, In file files /\ In j (snd file) /\ path = qualified m name
    /\ holds_type (fst file) j m (TypeItem true name lts params consts).

(** How a type parameter is probed: the trait is there for [()] and not for an argument lacking
    it; [Send] and [Sync] do not depend on each other. *)
Inductive probe : auto -> helper -> bool -> Prop :=
| probe_unit tr : probe tr UnitType true
| probe_send_sync : probe Send NotSync true
| probe_sync_send : probe Sync NotSend true
| probe_send : probe Send NotSend false
| probe_sync : probe Sync NotSync false
| probe_unpin : probe Unpin NotUnpin false
| probe_unwind : probe UnwindSafe NotUnwindSafe false
| probe_ref_unwind : probe RefUnwindSafe NotRefUnwindSafe false.

(** The assertions about the public types. *)
Inductive wanted (files : list (list str * list titem)) : assertion -> Prop :=
| wanted_not path lts params tr :
    public_type files path lts params 0 -> In (path, tr) exceptions ->
    wanted files (mkAssertion false tr path lts (repeat UnitType params))
| wanted_plain path lts tr :
    public_type files path lts 0 0 -> ~ In (path, tr) exceptions ->
    wanted files (mkAssertion true tr path lts [])
| wanted_generic path lts params tr h holds :
    public_type files path lts (S params) 0 -> ~ In (path, tr) exceptions -> probe tr h holds ->
    wanted files (mkAssertion holds tr path lts (repeat h (S params))).
