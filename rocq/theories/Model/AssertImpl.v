(** The generator of src/gen/assert_impl.rs: tools/codegen/src/main.rs:287-559 ([gen_assert_impl])
    and 562-601.  As in Model/Codegen.v it reads what it looks at of the items as parsed by
    [syn]; it gives the list of assertions.  The fixed parts of the file (the functions, macros
    and helper types, lines 494-553) and macro calls among the items are left out. *)
From Verif.Model Require Import Base Str Types Codegen.

(** A struct, enum, union or type alias, with the numbers of its lifetimes, type parameters and
    constant parameters.  Functions and implementations may contain items as well. *)
Inductive titem :=
| TypeItem (public : bool) (name : str) (lifetimes params consts : nat)
| TypeModule (name : str) (content : list titem)
| TypeWithin (content : list titem).

(** tools/codegen/src/main.rs:562-601 [ItemVisitor] *)
Fixpoint tvisit (m : list str) (i : titem) : list (list str * titem) :=
  match i with
  | TypeModule name content => flat_map (tvisit (m ++ [name])) content
  | TypeWithin content => flat_map (tvisit m) content
  | TypeItem _ _ _ _ _ => [(m, i)]
  end.

(** The arguments used for type parameters: [()] and the helper types of lines 510-521. *)
Inductive helper := UnitType | NotSend | NotSync | NotUnpin | NotUnwindSafe | NotRefUnwindSafe.

(** [assert_send::<crate::path<'_, .., args>>()] or [assert_not_send!(..)] *)
Record assertion := mkAssertion {
  as_holds : bool;
  as_trait : auto;
  as_path : str;
  as_lifetimes : nat;
  as_args : list helper
}.

(** tools/codegen/src/main.rs:288-293 *)
Definition not_send : list str := [].
Definition not_sync : list str := [B "easy::Config"; B "resolve::ResolveContext"].
Definition not_unpin : list str := [].
Definition not_unwind_safe : list str := [B "error::Error"].
Definition not_ref_unwind_safe : list str :=
  [B "error::Error"; B "easy::Config"; B "resolve::ResolveContext"].

(** tools/codegen/src/main.rs:318-478; [None] is the failed assertion of line 331. *)
Definition assertions_of (x : list str * titem) : option (list assertion) :=
  match x with
  | (m, TypeItem true name lts params consts) =>
      let path := path_string m name in
      let say holds tr h := mkAssertion holds tr path lts (repeat h params) in
      if negb (Nat.eqb consts 0) then None
      else if negb (Nat.eqb params 0) then
        Some (
          (if str_mem path not_send then [say false Send UnitType]
           else [say true Send UnitType; say true Send NotSync; say false Send NotSend])
          ++ (if str_mem path not_sync then [say false Sync UnitType]
              else [say true Sync UnitType; say true Sync NotSend; say false Sync NotSync])
          ++ (if str_mem path not_unpin then [say false Unpin UnitType]
              else [say true Unpin UnitType; say false Unpin NotUnpin])
          ++ (if str_mem path not_unwind_safe then [say false UnwindSafe UnitType]
              else [say true UnwindSafe UnitType; say false UnwindSafe NotUnwindSafe])
          ++ (if str_mem path not_ref_unwind_safe then [say false RefUnwindSafe UnitType]
              else [say true RefUnwindSafe UnitType; say false RefUnwindSafe NotRefUnwindSafe]))
      else
        Some [say (negb (str_mem path not_send)) Send UnitType;
              say (negb (str_mem path not_sync)) Sync UnitType;
              say (negb (str_mem path not_unpin)) Unpin UnitType;
              say (negb (str_mem path not_unwind_safe)) UnwindSafe UnitType;
              say (negb (str_mem path not_ref_unwind_safe)) RefUnwindSafe UnitType]
  | _ => Some []
  end.
Definition visited_type (x : list str * titem) : list str :=
  match x with
  | (m, TypeItem true name _ _ _) => [path_string m name]
  | _ => []
  end.
(** tools/codegen/src/main.rs:309-492.  The files are given in the order of their names. *)
Definition gen_assert_impl (files : list (list str * list titem)) : option (list assertion) :=
  let items := flat_map (fun f => flat_map (tvisit (fst f)) (snd f)) files in
  let visited := flat_map visited_type items in
  match all_some (map assertions_of items) with
  | Some l =>
      if forallb (fun t => str_mem t visited)
           (not_send ++ not_sync ++ not_unpin ++ not_unwind_safe ++ not_ref_unwind_safe)
      then Some (concat l) else None
  | None => None
  end.
