(** What the generated implementations should be, without the generator's traversal. *)
From Verif.Model Require Import Base Str Codegen.

(** A type declared in [i], which is in the modules [m]. *)
Inductive located : list str -> item -> list str -> item -> Prop :=
| located_struct m public name f : located m (Struct public name f) m (Struct public name f)
| located_enum m public name vs : located m (Enum public name vs) m (Enum public name vs)
| located_module m name content j m' i :
    In j content -> located (m ++ [name]) j m' i -> located m (Module name content) m' i
| located_within m content j m' i :
    In j content -> located m j m' i -> located m (Within content) m' i.
Definition declares (files : list (list str * list item)) (m : list str) (i : item) : Prop :=
  exists file j, In file files /\ In j (snd file) /\ located (fst file) j m i.

(** [a::b::Name] *)
Definition qualified (m : list str) (name : str) : str :=
  fold_right (fun s r => s ++ B "::" ++ r) name m.

(** [#[serde(.., skip, ..)]] *)
Definition marked_skip (f : field) : Prop :=
  exists a args, In a (fd_attrs f) /\ at_path a = B "serde" /\ at_args a = Some args
                 /\ In (MetaPath (B "skip")) args.
(** The fields holding data of the configuration file. *)
Definition holds_data (f : field) : Prop :=
  ~ marked_skip f /\ fd_name f <> B "serialized_repr" /\ fd_name f <> B "deserialized_repr".

(** The names of the fields with [P], in the order of declaration. *)
Inductive chosen (P : field -> Prop) : list field -> list str -> Prop :=
| chosen_nil : chosen P [] []
| chosen_take f l r : P f -> chosen P l r -> chosen P (f :: l) (fd_name f :: r)
| chosen_leave f l r : ~ P f -> chosen P l r -> chosen P (f :: l) r.

(** The arm for a variant. *)
Inductive arm_for : str * fields -> arm -> Prop :=
| arm_for_named name l calls :
    chosen (fun f => ~ marked_skip f) l calls ->
    arm_for (name, Named l) (ArmNamed name calls calls)
| arm_for_unnamed name : arm_for (name, Unnamed 1) (ArmUnnamed name).

Definition has_fields (f : fields) : Prop :=
  match f with Named l => l <> [] | Unnamed n => n <> 0 | Unit => False end.

(** The implementation of [SetPath] for a declared type. *)
Inductive set_path_for (m : list str) : item -> impl -> Prop :=
| set_path_named name l calls :
    chosen holds_data l calls ->
    set_path_for m (Struct true name (Named l)) (ImplSetPath (qualified m name) calls)
| set_path_unnamed name :
    set_path_for m (Struct true name (Unnamed 1)) (ImplSetPathInner (qualified m name))
| set_path_enum name vs arms :
    Forall (fun v => has_fields (snd v)) vs -> Forall2 arm_for vs arms ->
    set_path_for m (Enum true name vs) (ImplSetPathMatch (qualified m name) arms).
(** The implementations of [Merge] and of [is_none]. *)
Inductive merge_for (m : list str) : item -> impl -> Prop :=
| merge_named name l calls :
    ~ In (qualified m name) [B "de::Flags"; B "de::EnvConfigValue"; B "de::StringList";
                             B "de::PathAndArgs"] ->
    chosen holds_data l calls ->
    merge_for m (Struct true name (Named l)) (ImplMerge (qualified m name) calls).
Inductive is_none_for (m : list str) : item -> impl -> Prop :=
| is_none_named name l calls :
    ~ In (qualified m name)
      [B "de::Config"; B "de::Flags"; B "de::PathAndArgs"; B "de::StringList";
       B "de::TargetConfig"; B "de::RegistriesConfigValue"; B "easy::Config";
       B "easy::EnvConfigValue"; B "easy::Flags"; B "easy::PathAndArgs"; B "easy::StringList";
       B "easy::TargetConfig"; B "easy::RegistriesConfigValue"] ->
    chosen (fun f => ~ marked_skip f) l calls ->
    is_none_for m (Struct true name (Named l)) (ImplIsNone (qualified m name) calls).

(** The types no [SetPath] can be generated for. *)
Inductive unsupported : item -> Prop :=
| unsupported_tuple name n : n <> 1 -> unsupported (Struct true name (Unnamed n))
| unsupported_unit name : unsupported (Struct true name Unit)
| unsupported_variant name vs v n :
    Forall (fun v => has_fields (snd v)) vs -> In (v, Unnamed n) vs -> n <> 1 ->
    unsupported (Enum true name vs).
