(** The keys of a document from the declarations of the types: the names of the fields with
    hyphens, those marked [serde(skip)] left out. *)
From Verif.Model Require Import Base Str Types Codegen Generated CrateTypes.
From Verif.Spec Require Import SerdeSpec SerdeFormsSpec.

Definition marked (a : str) (f : field) : Prop :=
  exists l, In (mkAttr (B "serde") (Some l)) (fd_attrs f) /\ In (MetaPath a) l.
Definition hyphens (s : str) : str := map (fun c => if Ascii.eqb c "_" then "-"%char else c) s.

(** A field with its type, from src/de.rs as read for the generator and for the traits. *)
Definition declares (name : str) (fs : list (field * ty)) : Prop :=
  exists parts, In (Codegen.Struct true name (Codegen.Named (map fst fs))) de_items
  /\ In (B "de::" ++ name, parts) crate_types /\ parts = map snd fs.

(** Types with a [Deserialize] written by hand or for enumerations: single values. *)
Definition single_types : list string :=
  ["EnvConfigValue"; "VersionControlSoftware"; "RegistriesProtocol"; "Color"; "When"; "Frequency";
   "Flags"; "ConfigRelativePath"; "PathAndArgs"; "StringList"; "StringOrArray"]%string.

(** The layout of the values of a type. *)
Inductive laid : ty -> layout -> Prop :=
| laid_option t s : laid t s -> laid (TStd (B "Option") [t]) s
| laid_value t s : laid t s -> laid (TCrate (B "value::Value") [t]) s
| laid_std n : In n [B "bool"; B "u32"; B "i32"; B "String"] -> laid (TStd n []) Single
| laid_single n : In n single_types -> laid (TCrate (B "de::" ++ B n) []) Single
| laid_map t s : laid t s -> laid (TStd (B "BTreeMap") [TStd (B "String") []; t]) (Named s)
| laid_struct name fs keys n :
    ~ In name (map B single_types) -> declares name fs -> laid_fields fs keys n -> laid (TCrate (B "de::" ++ name) []) (SerdeFormsSpec.Struct n keys)
(** Fields, and how many of them an array has to give: up to the last without a default. *)
with laid_fields : list (field * ty) -> list (str * layout) -> nat -> Prop :=
| laid_none : laid_fields [] [] 0
| laid_skip f t fs keys n : marked (B "skip") f -> laid_fields fs keys n -> laid_fields ((f, t) :: fs) keys n
| laid_default f t s fs keys n :
    ~ marked (B "skip") f -> marked (B "default") f -> laid t s -> laid_fields fs keys n ->
    laid_fields ((f, t) :: fs) ((hyphens (fd_name f), s) :: keys) (match n with 0 => 0 | _ => S n end)
| laid_required f t s fs keys n :
    ~ marked (B "skip") f -> ~ marked (B "default") f -> laid t s -> laid_fields fs keys n ->
    laid_fields ((f, t) :: fs) ((hyphens (fd_name f), s) :: keys) (S n).
