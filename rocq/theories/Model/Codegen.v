(** The generator of src/gen/de.rs and src/gen/is_none.rs: tools/codegen/src/main.rs:25-285
    and 562-601.  It reads Rust files as parsed by [syn] and writes tokens; here it reads what
    it looks at of the items and gives what the written implementations consist of.  Macro
    calls among the items (none in these files) are left out;
    [gen_assert_impl] is in Model/AssertImpl.v. *)
From Verif.Model Require Import Base Str.

(** An argument of an attribute, [syn::Meta]. *)
Inductive meta :=
| MetaPath (s : str)
| MetaNameValue (s : str)
| MetaList (s : str).
(** [at_args] is [None] if the arguments are not a list of those. *)
Record attribute := mkAttr { at_path : str; at_args : option (list meta) }.
Record field := mkField { fd_name : str; fd_attrs : list attribute }.
Inductive fields :=
| Named (l : list field)
| Unnamed (n : nat)
| Unit.
(** Functions and implementations may contain items as well. *)
Inductive item :=
| Struct (public : bool) (name : str) (f : fields)
| Enum (public : bool) (name : str) (variants : list (str * fields))
| Module (name : str) (content : list item)
| Within (content : list item).

(** tools/codegen/src/main.rs:269-285 [serde_skip] *)
Definition is_skip (m : meta) : bool :=
  match m with MetaPath p => str_eqb p (B "skip") | _ => false end.
Definition serde_skip (l : list attribute) : bool :=
  existsb (fun a =>
    (str_eqb (at_path a) (B "serde")
     && match at_args a with Some ms => existsb is_skip ms | None => false end)%bool) l.

(** tools/codegen/src/main.rs:562-601 [ItemVisitor]: every item with the modules it is in. *)
Fixpoint visit (m : list str) (i : item) : list (list str * item) :=
  match i with
  | Module name content => flat_map (visit (m ++ [name])) content
  | Within content => flat_map (visit m) content
  | _ => [(m, i)]
  end.
Definition visit_file (file : list str * list item) : list (list str * item) :=
  flat_map (visit (fst file)) (snd file).

(** [quote! { #(#module::)* #ident }] without blanks *)
Definition path_string (m : list str) (name : str) : str :=
  flat_map (fun s => s ++ B "::") m ++ name.

(** What is written.  The calls are those on the fields [self.f] (in an arm: [f]). *)
Inductive arm :=
| ArmNamed (variant : str) (pat calls : list str)
| ArmUnnamed (variant : str).
Inductive impl :=
| ImplMerge (ty : str) (calls : list str)
| ImplSetPath (ty : str) (calls : list str)
| ImplSetPathInner (ty : str)
| ImplSetPathMatch (ty : str) (arms : list arm)
| ImplIsNone (ty : str) (calls : list str).

Definition str_mem (s : str) (l : list str) : bool := existsb (str_eqb s) l.
Definition names (l : list field) : list str := map fd_name l.
(** tools/codegen/src/main.rs:67-71, 100-104 *)
Definition has_data (f : field) : bool :=
  (negb (serde_skip (fd_attrs f)) && negb (str_eqb (fd_name f) (B "serialized_repr"))
   && negb (str_eqb (fd_name f) (B "deserialized_repr")))%bool.
Definition not_skipped (f : field) : bool := negb (serde_skip (fd_attrs f)).

(** tools/codegen/src/main.rs:27-29, 203-217 *)
Definition merge_exclude : list str :=
  [B "de::Flags"; B "de::EnvConfigValue"; B "de::StringList"; B "de::PathAndArgs"].
Definition set_path_exclude : list str := [].
Definition is_none_exclude : list str :=
  [B "de::Config"; B "de::Flags"; B "de::PathAndArgs"; B "de::StringList"; B "de::TargetConfig";
   B "de::RegistriesConfigValue"; B "easy::Config"; B "easy::EnvConfigValue"; B "easy::Flags";
   B "easy::PathAndArgs"; B "easy::StringList"; B "easy::TargetConfig";
   B "easy::RegistriesConfigValue"].

(** tools/codegen/src/main.rs:55-85 *)
Definition merge_of (x : list str * item) : list impl :=
  match x with
  | (m, Struct true name (Named l)) =>
      if str_mem (path_string m name) merge_exclude then []
      else [ImplMerge (path_string m name) (names (filter has_data l))]
  | _ => []
  end.

Fixpoint all_some {A} (l : list (option A)) : option (list A) :=
  match l with
  | [] => Some []
  | Some a :: t => option_map (cons a) (all_some t)
  | None :: _ => None
  end.

(** tools/codegen/src/main.rs:137-167 *)
Definition arm_of (v : str * fields) : option arm :=
  match v with
  | (name, Named l) =>
      Some (ArmNamed name (names (filter not_skipped l)) (names (filter not_skipped l)))
  | (name, Unnamed n) => if Nat.eqb n 1 then Some (ArmUnnamed name) else None
  | (_, Unit) => None
  end.
(** [fields.is_empty()]; [A {}] and [A()] are written like this too *)
Definition no_fields (f : fields) : bool :=
  match f with Named [] | Unnamed 0 | Unit => true | _ => false end.
(** tools/codegen/src/main.rs:86-181; [None] is a failed assertion. *)
Definition set_path_of (x : list str * item) : option (list impl) :=
  match x with
  | (m, Struct true name f) =>
      if str_mem (path_string m name) set_path_exclude then Some []
      else
        match f with
        | Named l => Some [ImplSetPath (path_string m name) (names (filter has_data l))]
        | Unnamed n => if Nat.eqb n 1 then Some [ImplSetPathInner (path_string m name)] else None
        | Unit => None
        end
  | (m, Enum true name vs) =>
      if forallb (fun v => negb (no_fields (snd v))) vs then
        if str_mem (path_string m name) set_path_exclude then Some []
        else option_map (fun arms => [ImplSetPathMatch (path_string m name) arms])
               (all_some (map arm_of vs))
      else Some []
  | _ => Some []
  end.
(** [visited_types] *)
Definition visited_of (x : list str * item) : list str :=
  match x with
  | (m, Struct true name _) => [path_string m name]
  | (m, Enum true name vs) =>
      if forallb (fun v => negb (no_fields (snd v))) vs then [path_string m name] else []
  | _ => []
  end.

(** tools/codegen/src/main.rs:25-199 [gen_de] *)
Definition gen_de (files : list (list str * list item)) : option (list impl) :=
  let xs := flat_map visit_file files in
  match all_some (map (fun x => option_map (app (merge_of x)) (set_path_of x)) xs) with
  | Some is =>
      if forallb (fun t => str_mem t (flat_map visited_of xs)) (merge_exclude ++ set_path_exclude)
      then Some (concat is) else None
  | None => None
  end.

(** tools/codegen/src/main.rs:235-257 *)
Definition is_none_of (x : list str * item) : list impl :=
  match x with
  | (m, Struct true name (Named l)) =>
      if str_mem (path_string m name) is_none_exclude then []
      else [ImplIsNone (path_string m name) (names (filter not_skipped l))]
  | _ => []
  end.
Definition is_none_visited (x : list str * item) : list str :=
  match x with
  | (m, Struct true name (Named _)) => [path_string m name]
  | _ => []
  end.
(** tools/codegen/src/main.rs:201-267 [gen_is_none] *)
Definition gen_is_none (files : list (list str * list item)) : option (list impl) :=
  let xs := flat_map visit_file files in
  if forallb (fun t => str_mem t (flat_map is_none_visited xs)) is_none_exclude
  then Some (flat_map is_none_of xs) else None.
