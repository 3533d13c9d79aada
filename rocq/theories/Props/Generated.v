(** C75: the generated code.  What the generator writes for any source, that src/gen is what it
    writes for the sources as they are, and that the statements it writes do what merging,
    setting the path and testing for absence are modelled as. *)
From Verif.Model Require Import Base Str Path BMap Error Value De EasyTypes Debug Merge SetPath
  Serde EasySerde Codegen Generated InPlace.
From Verif.Spec Require Import CodegenSpec InPlaceSpec.
From Verif.Proof Require Import CodegenProof InPlaceProof.

(** ** The generator *)

(** Of every source: what is written is one of the expected implementations, and all of them
    are written. *)
Theorem C75_de files out : gen_de files = Some out ->
  forall i, In i out <-> exists m x, declares files m x /\ (merge_for m x i \/ set_path_for m x i).
Proof. intros H i. apply gen_de_spec. exact H. Qed.
Print Assumptions C75_de.

Theorem C75_is_none files out : gen_is_none files = Some out ->
  forall i, In i out <-> exists m x, declares files m x /\ is_none_for m x i.
Proof. intros H i. apply gen_is_none_spec. exact H. Qed.
Print Assumptions C75_is_none.

(** It gives up exactly on a type there is no code for, and on an exception for a type there is
    not. *)
Theorem C75_de_fails files :
  gen_de files = None
  <-> (exists m x, declares files m x /\ unsupported x)
      \/ (exists t, In t [B "de::Flags"; B "de::EnvConfigValue"; B "de::StringList"; B "de::PathAndArgs"]
          /\ ~ exists m name, t = qualified m name
               /\ ((exists f, declares files m (Struct true name f))
                   \/ (exists vs, declares files m (Enum true name vs)
                                  /\ Forall (fun v => has_fields (snd v)) vs))).
Proof.
  rewrite gen_de_none.
  split; (intros [H | (t & Ht & H)]; [left; exact H | right; exists t; split; [exact Ht |]];
    rewrite visited_spec in *; exact H).
Qed.
Print Assumptions C75_de_fails.

Theorem C75_is_none_fails files :
  gen_is_none files = None
  <-> exists t,
        In t [B "de::Config"; B "de::Flags"; B "de::PathAndArgs"; B "de::StringList";
              B "de::TargetConfig"; B "de::RegistriesConfigValue"; B "easy::Config";
              B "easy::EnvConfigValue"; B "easy::Flags"; B "easy::PathAndArgs";
              B "easy::StringList"; B "easy::TargetConfig"; B "easy::RegistriesConfigValue"]
        /\ ~ exists m name l, t = qualified m name
               /\ declares files m (Struct true name (Named l)).
Proof. apply gen_is_none_none. Qed.
Print Assumptions C75_is_none_fails.

(** src/gen/de.rs and src/gen/is_none.rs are not out of date. *)
Theorem C75_current :
  gen_de de_files = Some gen_de_file /\ gen_is_none is_none_files = Some gen_is_none_file.
Proof. split; vm_compute; reflexivity. Qed.
Print Assumptions C75_current.

(** A field with [skip] among other arguments and one in a nested module, beside fields with
    something like it. *)
Definition ex_excluded : list item :=
  [Struct true (B "Flags") (Named []); Struct true (B "StringList") (Named []);
   Struct true (B "PathAndArgs") (Named []);
   Enum true (B "EnvConfigValue") [(B "Value", Unnamed 1)]].
Definition ex_source : list item :=
  ex_excluded ++
  [Module (B "inner")
     [Struct true (B "T")
        (Named [mkField (B "kept") [serde [MetaPath (B "skip_serializing")]];
                mkField (B "left") [mkAttr (B "doc") None; serde [MetaPath (B "default"); MetaPath (B "skip")]];
                mkField (B "serialized_repr") [];
                mkField (B "other") [mkAttr (B "test") (Some [MetaPath (B "skip")])]])];
   Within [Struct true (B "W") (Unnamed 1)];
   Struct false (B "Private") Unit;
   Enum true (B "Kind") [(B "A", Unit); (B "B", Unnamed 1)]].
Example C75_ex_source :
  option_map (skipn 4) (gen_de [([B "de"], ex_source)])
  = Some [ImplMerge (B "de::inner::T") [B "kept"; B "other"];
          ImplSetPath (B "de::inner::T") [B "kept"; B "other"];
          ImplSetPathInner (B "de::W")].
Proof. vm_compute. reflexivity. Qed.
Example C75_ex_unsupported :
  gen_de [([B "de"], ex_source ++ [Struct true (B "U") Unit])] = None
  /\ gen_de [([B "de"], ex_source ++ [Enum true (B "E") [(B "A", Unnamed 2)]])] = None
  /\ gen_de [([B "other"], ex_source)] = None.
Proof. vm_compute. auto. Qed.

(** ** What the code does *)

(** The tables of the fields name those of the declarations, in the same order. *)
Definition declared_fields (items : list item) (name : str) : option (list str) :=
  match find (fun i => match i with Struct _ n _ => str_eqb n name | _ => false end) items with
  | Some (Struct _ _ (Named l)) => Some (map fd_name l)
  | _ => None
  end.
Theorem C75_fields f :
  declared_fields de_items (B "Config") = Some (map mb_name (config_members f))
  /\ declared_fields de_items (B "BuildConfig") = Some (map mb_name (build_members f))
  /\ declared_fields de_items (B "TargetConfig") = Some (map mb_name (target_members f))
  /\ declared_fields de_items (B "DocConfig") = Some (map mb_name (doc_members f))
  /\ declared_fields de_items (B "FutureIncompatReportConfig") = Some (map mb_name future_members)
  /\ declared_fields de_items (B "CargoNewConfig") = Some (map mb_name cargo_new_members)
  /\ declared_fields de_items (B "HttpConfig") = Some (map mb_name http_members)
  /\ declared_fields de_items (B "NetConfig") = Some (map mb_name net_members)
  /\ declared_fields de_items (B "RegistriesConfigValue") = Some (map mb_name registries_members)
  /\ declared_fields de_items (B "RegistryConfig") = Some (map mb_name registry_members)
  /\ declared_fields de_items (B "TermConfig") = Some (map mb_name (term_members f))
  /\ declared_fields de_items (B "TermProgress") = Some (map mb_name progress_members)
  /\ declared_fields de_items (B "Flags") = Some (map mb_name flags_members)
  /\ declared_fields de_items (B "PathAndArgs") = Some (map mb_name (path_and_args_members f))
  /\ declared_fields de_items (B "StringList") = Some (map mb_name string_list_members)
  /\ declared_fields easy_items (B "BuildConfig") = Some (map mb_name ebuild_members)
  /\ declared_fields easy_items (B "DocConfig") = Some (map mb_name edoc_members)
  /\ declared_fields easy_items (B "FutureIncompatReportConfig") = Some (map mb_name efuture_members)
  /\ declared_fields easy_items (B "CargoNewConfig") = Some (map mb_name ecargo_new_members)
  /\ declared_fields easy_items (B "HttpConfig") = Some (map mb_name ehttp_members)
  /\ declared_fields easy_items (B "NetConfig") = Some (map mb_name enet_members)
  /\ declared_fields easy_items (B "RegistryConfig") = Some (map mb_name eregistry_members)
  /\ declared_fields easy_items (B "TermConfig") = Some (map mb_name (eterm_members f))
  /\ declared_fields easy_items (B "TermProgressConfig") = Some (map mb_name eprogress_members).
Proof. repeat split; reflexivity. Qed.
Print Assumptions C75_fields.

(** [Config::merge] of the generated file compiles and, changing the configuration in place,
    comes to the result of [merge_config]. *)
Theorem C75_merge file : gen_de de_files = Some file ->
  exists m, config_merge file = Some m
  /\ forall this low force,
       (forall c, m this low force = (Ok tt, c) <-> merge_config this low force = Ok c)
       /\ (forall e, fst (m this low force) = Err e <-> merge_config this low force = Err e)
       /\ (forall p, fst (m this low force) = Panic p <-> merge_config this low force = Panic p).
Proof.
  intros H. assert (Some gen_de_file = Some file) as [= <-].
  { rewrite <- (proj1 C75_current). exact H. }
  exists config_body. split; [exact config_compiles |]. intros this low force.
  apply fits_iff, config_agrees.
Qed.
Print Assumptions C75_merge.

(** What it leaves when it fails: the fields before the failing one are merged, those after it
    untouched; likewise within [build], and for a target what the message shows. *)
Theorem C75_left file : gen_de de_files = Some file ->
  (exists m, config_merge file = Some m
   /\ forall this low force e left,
        m this low force = (Err e, left) -> config_stopped this low left force e)
  /\ (exists m, struct_merge file (B "de::BuildConfig") (build_members file) = Some m
      /\ forall this low force e left,
           m this low force = (Err e, left) -> build_stopped this low left force e)
  /\ (exists m, struct_merge file (B "de::TargetConfig") (target_members file) = Some m
      /\ forall this low force e left,
           m this low force = (Err e, left) -> left = left_target this low force).
Proof.
  intros H. assert (Some gen_de_file = Some file) as [= <-].
  { rewrite <- (proj1 C75_current). exact H. }
  repeat split.
  - exists config_body. split; [exact config_compiles | exact config_left].
  - exists build_body. split; [exact build_compiles | exact build_left].
  - exists target_body. split; [exact target_compiles |]. intros this low force e left E.
    destruct (fits_iff _ _ (target_agrees this low force)) as (_ & He & _).
    pose proof (target_leaves this low force e) as Hl. rewrite E in He, Hl.
    apply Hl, He. reflexivity.
Qed.
Print Assumptions C75_left.

(** The fields of each struct in the model are those of a struct. *)
Theorem C75_members file :
  struct_fields flags_members
  /\ struct_fields (path_and_args_members file)
  /\ struct_fields string_list_members
  /\ struct_fields (build_members file)
  /\ struct_fields (target_members file)
  /\ struct_fields (doc_members file)
  /\ struct_fields future_members
  /\ struct_fields cargo_new_members
  /\ struct_fields http_members
  /\ struct_fields net_members
  /\ struct_fields registries_members
  /\ struct_fields registry_members
  /\ struct_fields progress_members
  /\ struct_fields (term_members file)
  /\ struct_fields (config_members file)
  /\ struct_fields ebuild_members
  /\ struct_fields edoc_members
  /\ struct_fields efuture_members
  /\ struct_fields ecargo_new_members
  /\ struct_fields ehttp_members
  /\ struct_fields enet_members
  /\ struct_fields eregistry_members
  /\ struct_fields eprogress_members
  /\ struct_fields (eterm_members file).
Proof. repeat match goal with |- struct_fields _ /\ _ => split end; by_fields. Qed.
Print Assumptions C75_members.

Theorem C75_set_path file : gen_de de_files = Some file ->
  exists f, config_set_path file = Some f /\ forall p c, f p c = sp_config p c.
Proof.
  intros H. assert (Some gen_de_file = Some file) as [= <-].
  { rewrite <- (proj1 C75_current). exact H. }
  exists config_paths. split; [exact config_paths_compile | exact config_paths_eq].
Qed.
Print Assumptions C75_set_path.

Definition has_is_none {A} (file : list impl) (ty : string) (ms : list (member A)) (f : A -> bool) : Prop :=
  exists g, struct_is_none file (B ty) ms = Some g /\ forall x, g x = f x.
Arguments has_is_none {A} file ty%string_scope.
Theorem C75_tests file : gen_is_none is_none_files = Some file ->
  has_is_none file "de::BuildConfig" (build_members file) build_is_none
  /\ has_is_none file "de::DocConfig" (doc_members file) doc_is_none
  /\ has_is_none file "de::FutureIncompatReportConfig" future_members future_is_none
  /\ has_is_none file "de::CargoNewConfig" cargo_new_members cargo_new_is_none
  /\ has_is_none file "de::HttpConfig" http_members http_is_none
  /\ has_is_none file "de::NetConfig" net_members net_is_none
  /\ has_is_none file "de::RegistryConfig" registry_members registry_is_none
  /\ has_is_none file "de::TermConfig" (term_members file) term_is_none
  /\ has_is_none file "de::TermProgress" progress_members progress_is_none
  /\ has_is_none file "easy::BuildConfig" ebuild_members ebuild_is_none
  /\ has_is_none file "easy::DocConfig" edoc_members edoc_is_none
  /\ has_is_none file "easy::FutureIncompatReportConfig" efuture_members efuture_is_none
  /\ has_is_none file "easy::CargoNewConfig" ecargo_new_members ecargo_new_is_none
  /\ has_is_none file "easy::HttpConfig" ehttp_members ehttp_is_none
  /\ has_is_none file "easy::NetConfig" enet_members enet_is_none
  /\ has_is_none file "easy::RegistryConfig" eregistry_members eregistry_is_none
  /\ has_is_none file "easy::TermConfig" (eterm_members file) eterm_is_none
  /\ has_is_none file "easy::TermProgressConfig" eprogress_members eprogress_is_none.
Proof.
  intros H. assert (Some gen_is_none_file = Some file) as [= <-].
  { rewrite <- (proj2 C75_current). exact H. }
  repeat match goal with |- _ /\ _ => split end;
    first [ exact build_none | exact doc_none | exact future_none | exact cargo_new_none
          | exact http_none | exact net_none | exact registry_none | exact term_none
          | exact progress_none | exact ebuild_none | exact edoc_none | exact efuture_none
          | exact ecargo_new_none | exact ehttp_none | exact enet_none | exact eregistry_none
          | exact eterm_none | exact eprogress_none ].
Qed.
Print Assumptions C75_tests.

(** A merge failing in the rustflags of a target: the linker has been taken over, the
    rustdocflags have not. *)
Definition ex_val (s : string) : value str := mkValue (B s) None.
Arguments ex_val s%string_scope.
Definition ex_this : target_config :=
  mkTarget None None (Some (mkFlags [ex_val "a"] ReprString)) None.
Definition ex_low : target_config :=
  mkTarget (Some (ex_val "ld")) None (Some (mkFlags [ex_val "b"] ReprArray))
    (Some (mkFlags [ex_val "c"] ReprArray)).
Example C75_ex_left :
  match struct_merge gen_de_file (B "de::TargetConfig") (target_members gen_de_file) with
  | Some m =>
      m ex_this ex_low false
      = (bail (B "expected string, but found array"),
         mkTarget (Some (ex_val "ld")) None (Some (mkFlags [ex_val "a"] ReprString)) None)
  | None => False
  end.
Proof. vm_compute. reflexivity. Qed.
(** The same in a configuration: the aliases are merged, [term] is not. *)
Definition ex_with (t : target_config) (alias : string) (quiet : bool) : config :=
  mkConfig [(B alias, mkStringList [ex_val alias] ReprString)] build_default doc_default []
    future_default cargo_new_default http_default net_default [] registry_default
    [(B "x", t)] (mkTerm (Some (mkValue quiet None)) None None progress_default).
Arguments ex_with t alias%string_scope.
Example C75_ex_config :
  match config_merge gen_de_file with
  | Some m =>
      let (r, left) := m (ex_with ex_this "b" true) (ex_with ex_low "a" false) true in
      is_ok r = false
      /\ map fst (c_alias left) = [B "a"; B "b"]
      /\ c_target left = [(B "x", mkTarget (Some (ex_val "ld")) None (Some (mkFlags [ex_val "a"] ReprString)) None)]
      /\ tm_quiet (c_term left) = Some (mkValue true None)
  | None => False
  end.
Proof. vm_compute. auto. Qed.
(** A table of [env] has its path set in every part. *)
Example C75_ex_paths :
  match config_set_path gen_de_file with
  | Some f =>
      c_env (f (B "/p") (mkConfig [] build_default doc_default
                           [(B "k", EnvTable (ex_val "v") (Some (mkValue true None)) None)]
                           future_default cargo_new_default http_default net_default []
                           registry_default [] term_default))
      = [(B "k", EnvTable (mkValue (B "v") (Some (DefPath (B "/p"))))
                          (Some (mkValue true (Some (DefPath (B "/p"))))) None)]
  | None => False
  end.
Proof. vm_compute. reflexivity. Qed.
