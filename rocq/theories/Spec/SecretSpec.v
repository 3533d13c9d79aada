(** Inputs and configurations that are the same apart from the texts of tokens. *)
From Verif.Model Require Import Base Str BMap Value De Serde Load EasyTypes Context Easy.
From Verif.Spec Require Import StrSpec Utf8Spec.

(** ** Configurations: every token becomes the empty text *)
Definition hide_value (v : value str) : value str := mkValue [] (def v).
Definition hide_registries (r : registries_value) : registries_value :=
  mkRegistries (r_index r) (option_map hide_value (r_token r)) (r_protocol r).
Definition hide_registry (r : registry_config) : registry_config :=
  mkRegistry (rg_default r) (option_map hide_value (rg_token r)).
Definition hide (c : config) : config :=
  mkConfig (c_alias c) (c_build c) (c_doc c) (c_env c) (c_future_incompat_report c) (c_cargo_new c)
    (c_http c) (c_net c) (map (fun x => (fst x, hide_registries (snd x))) (c_registries c))
    (hide_registry (c_registry c)) (c_target c) (c_term c).

(** ** Documents *)
Definition hide_text (t : toml) : toml := match t with TomlStr _ => TomlStr [] | _ => t end.
(** The token of a registry: the key [token], or the second value of an array. *)
Definition hide_token (t : toml) : toml :=
  match t with
  | TomlTab l => TomlTab (map (fun x => if str_eqb (fst x) (B "token") then (fst x, hide_text (snd x)) else x) l)
  | TomlArr (a :: b :: r) => TomlArr (a :: hide_text b :: r)
  | _ => t
  end.
Definition hide_tokens (t : toml) : toml :=
  match t with TomlTab l => TomlTab (map (fun x => (fst x, hide_token (snd x))) l) | _ => t end.
Definition hide_doc (t : toml) : toml :=
  match t with
  | TomlTab l =>
      TomlTab (map (fun x => if str_eqb (fst x) (B "registries") then (fst x, hide_tokens (snd x))
                             else if str_eqb (fst x) (B "registry") then (fst x, hide_token (snd x))
                             else x) l)
  | _ => t
  end.
Definition hide_read (r : read_result) : read_result :=
  match r with ReadTree t => ReadTree (hide_doc t) | _ => r end.
(** The same files with the same contents, apart from tokens. *)
Definition same_files (f f' : fs) : Prop :=
  (forall p, fs_exists f p = fs_exists f' p)
  /\ (forall p, hide_read (fs_read f p) = hide_read (fs_read f' p)).

(** ** Environments *)
Definition token_variable (k : str) : Prop :=
  k = B "CARGO_REGISTRY_TOKEN" \/ exists n, k = B "CARGO_REGISTRIES_" ++ n ++ B "_TOKEN".
(** The same variables in the same order with the same values, except that tokens may have
    different values of which both or none are text. *)
Definition same_variables (l l' : list (str * str)) : Prop :=
  Forall2 (fun x y => fst x = fst y
             /\ (snd x = snd y \/ token_variable (fst x) /\ (utf8 (snd x) <-> utf8 (snd y)))) l l'.
Definition same_process (p p' : process_env) : Prop :=
  same_variables (p_vars p) (p_vars p') /\ p_home_dir p = p_home_dir p'.

(** ** Resolved configurations *)
Definition hide_easy_registries (r : eregistries) : eregistries :=
  mkEregistries (er_index r) (option_map (fun _ => []) (er_token r)) (er_protocol r).
Definition hide_easy_registry (r : eregistry) : eregistry :=
  mkEregistry (erg_default r) (option_map (fun _ => []) (erg_token r)).
Definition hide_easy (c : econfig) (cx : context) : econfig :=
  mkEconfig (ec_alias c) (ec_build c) (ec_doc c) (ec_env c) (ec_future_incompat_report c) (ec_cargo_new c)
    (ec_http c) (ec_net c) (map (fun x => (fst x, hide_easy_registries (snd x))) (ec_registries c))
    (hide_easy_registry (ec_registry c)) (ec_de_target c) (ec_term c) cx.
Definition same_context (x y : context) : Prop :=
  same_variables (cx_env x) (cx_env y) /\ cx_cargo x = cx_cargo y /\ cx_current_dir x = cx_current_dir y
  /\ cx_rustc0 x = cx_rustc0 y /\ cx_cargo_home0 x = cx_cargo_home0 y /\ cx_host0 x = cx_host0 y.
Definition same_easy (c c' : econfig) : Prop :=
  hide_easy c (ec_cx c) = hide_easy c' (ec_cx c) /\ same_context (ec_cx c) (ec_cx c').

(** Options given by the caller. *)
Definition same_options (o o' : options) : Prop :=
  match o_env o, o_env o' with
  | None, None => True
  | Some e, Some e' => same_variables e e'
  | _, _ => False
  end
  /\ o_rustc o = o_rustc o' /\ o_cargo o = o_cargo o' /\ o_cargo_home o = o_cargo_home o'
  /\ o_host_triple o = o_host_triple o'.

(** Two outcomes: the same failure, or related results. *)
Definition same_result {E A} (R : A -> A -> Prop) (x y : res E A) : Prop :=
  match x, y with
  | Ok a, Ok b => R a b
  | Err e, Err e' => e = e'
  | Panic p, Panic p' => p = p'
  | _, _ => False
  end.
