(** What a failed merge of a struct leaves behind. *)
From Verif.Model Require Import Base Error De Debug Merge InPlace.

(** For one field: it is merged, its merge fails, it is as before. *)
Record part := mkPart { done : Prop; failed : Prop; kept : Prop }.
Definition part_of {T P} (this low left : T) (force : bool) (e : error)
  (f : P -> P -> bool -> result P) (get : T -> P) : part :=
  mkPart (f (get this) (get low) force = Ok (get left))
         (f (get this) (get low) force = Err e)
         (get left = get this).
(** The fields up to one are merged, this one fails, the others are as before. *)
Inductive stopped : list part -> Prop :=
| stopped_here p l : failed p -> Forall kept l -> stopped (p :: l)
| stopped_later p l : done p -> stopped l -> stopped (p :: l).

Definition build_stopped (this low left : build_config) (force : bool) (e : error) : Prop :=
  let part {P} f g := @part_of build_config P this low left force e f g in
  stopped
    [part merge_v b_jobs; part merge_v b_rustc; part merge_v b_rustc_wrapper;
     part merge_v b_rustc_workspace_wrapper; part merge_v b_rustdoc;
     part (merge_opt merge_soa) b_target; part merge_v b_target_dir;
     part (merge_opt merge_flags) b_rustflags; part (merge_opt merge_flags) b_rustdocflags;
     part merge_v b_incremental; part merge_v b_dep_info_basedir].
Definition config_stopped (this low left : config) (force : bool) (e : error) : Prop :=
  let part {P} f g := @part_of config P this low left force e f g in
  stopped
    [part (merge_map merge_string_list dbg_string_list left_whole) c_alias;
     part merge_build c_build; part merge_doc c_doc;
     part (merge_map merge_env_config_value dbg_env_config_value left_whole) c_env;
     part merge_future c_future_incompat_report; part merge_cargo_new c_cargo_new;
     part merge_http c_http; part merge_net c_net;
     part (merge_map merge_registries dbg_registries left_whole) c_registries;
     part merge_registry c_registry;
     part (merge_map merge_target dbg_target left_target) c_target;
     part merge_term c_term].

(** Assigning to a field gives it the value; assigning what it has changes nothing; the last
    assignment counts; assignments to different fields do not touch each other. *)
Definition assignable {T} (m : member T) : Prop :=
  (forall x a, mb_get m (mb_set m x a) = a)
  /\ (forall x, mb_set m x (mb_get m x) = x)
  /\ (forall x a b, mb_set m (mb_set m x a) b = mb_set m x b).
Definition separate {T} (m n : member T) : Prop :=
  mb_name m <> mb_name n
  /\ forall x a, mb_get n (mb_set m x a) = mb_get n x /\
     forall b, mb_set n (mb_set m x a) b = mb_set m (mb_set n x b) a.
(** A struct is its fields. *)
Definition struct_fields {T} (ms : list (member T)) : Prop :=
  Forall assignable ms /\ ForallOrdPairs separate ms
  /\ forall x y, Forall (fun m => mb_get m x = mb_get m y) ms -> x = y.
