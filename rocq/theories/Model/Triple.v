(** Target triples: src/resolve.rs:386-556. *)
From Verif.Model Require Import Base Str Path Error Value.

(** src/resolve.rs:386-390 [TargetTripleRef]. *)
Record triple := mkTriple {
  tt_triple : str;
  tt_spec_path : option path
}.

(** src/resolve.rs:428-432 [is_spec_path]. *)
Definition is_spec_path (s : str) : bool :=
  (match extension s with Some e => str_eqb e (B "json") | None => false end
   || contains slash s || contains backslash s)%bool.

(** src/resolve.rs:433-444 [resolve_spec_path]. *)
Definition resolve_spec_path {E} (spec : str) (d : option definition)
  (current_dir : option path) : res E (option path) :=
  match d with
  | Some d =>
      root <- def_root_opt d current_dir ;;
      match root with
      | Some r => Ok (Some (join r spec))
      | None => Ok None
      end
  | None => Ok None
  end.

(** src/resolve.rs:447-474 [TargetTripleRef::new]. *)
Definition triple_new {E} (s : str) (d : option definition) (current_dir : option path)
  : res E triple :=
  if is_spec_path s then
    match file_stem s with
    | None => Panic PUnwrapNone
    | Some stem =>
        match to_str stem with
        | None => Panic PUnwrapNone
        | Some t =>
            sp <- resolve_spec_path s d current_dir ;;
            Ok (mkTriple t (Some (match sp with Some p => p | None => s end)))
        end
    end
  else Ok (mkTriple s None).

(** src/resolve.rs:525-539 [From<String>], [From<&String>], [From<&str>]. *)
Definition triple_from {E} (s : str) : res E triple := triple_new s None None.

(** src/resolve.rs:509-514 [cli_target]. *)
Definition cli_target (t : triple) : str :=
  match tt_spec_path t with Some p => p | None => tt_triple t end.

(** src/resolve.rs:489-508 [cli_target_string]. *)
Definition cli_target_string (t : triple) : str := lossy (cli_target t).

(** src/resolve.rs:394-398 [PartialEq], src/resolve.rs:405-409 [Ord]. *)
Definition triple_eqb (a b : triple) : bool := str_eqb (cli_target a) (cli_target b).
Definition triple_cmp (a b : triple) : comparison := str_cmp (cli_target a) (cli_target b).
(** src/resolve.rs:410-414 [Hash]: what is fed to the hasher. *)
Definition triple_hashed (t : triple) : str := cli_target t.
