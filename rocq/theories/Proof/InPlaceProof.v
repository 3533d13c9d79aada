(** In-place merging against merging as a function. *)
From Verif.Model Require Import Base Str Path BMap Error Value De EasyTypes Debug Merge SetPath
  Serde EasySerde Codegen Generated InPlace.
From Verif.Spec Require Import InPlaceSpec.

(** The result [r] of the function and the outcome [o] in place. *)
Definition fits {A} (o : result unit * A) (r : result A) : Prop :=
  match r with
  | Ok a => o = (Ok tt, a)
  | Err e => fst o = Err e
  | Panic p => fst o = Panic p
  end.
Definition agrees {A} (m : merger A) (f : A -> A -> bool -> result A) : Prop :=
  forall this low force, fits (m this low force) (f this low force).
(** What a failure leaves. *)
Definition leaves {A} (m : merger A) (f : A -> A -> bool -> result A) (lf : A -> A -> bool -> A)
  : Prop :=
  forall this low force e, f this low force = Err e -> snd (m this low force) = lf this low force.

Lemma fits_iff {A} o (r : result A) : fits o r ->
  (forall a, o = (Ok tt, a) <-> r = Ok a) /\ (forall e, fst o = Err e <-> r = Err e)
  /\ (forall p, fst o = Panic p <-> r = Panic p).
Proof.
  destruct r as [a | e | p]; cbn; intros H.
  - subst o. cbn. repeat split; intros; try discriminate; congruence.
  - destruct o as [o left]; cbn in H |- *; subst o.
    repeat split; intros; try discriminate; congruence.
  - destruct o as [o left]; cbn in H |- *; subst o.
    repeat split; intros; try discriminate; congruence.
Qed.

Lemma leaf_agrees {A} : agrees (@in_leaf A) merge_leaf.
Proof. intros t l b. reflexivity. Qed.
Lemma option_agrees {A} (m : merger A) f : agrees m f -> agrees (in_option m) (merge_opt f).
Proof.
  intros H [t |] [l |] b; try reflexivity. cbn. specialize (H t l b).
  destruct (m t l b) as [o t']. destruct (f t l b) as [a | e | p]; cbn in H |- *;
    [injection H as -> -> | exact H | exact H]. reflexivity.
Qed.
Lemma soa_agrees : agrees in_string_or_array merge_soa.
Proof. intros [t | t] [l | l] b; reflexivity. Qed.
Lemma pa_agrees : agrees in_path_and_args merge_path_and_args.
Proof.
  intros t l b. unfold in_path_and_args, merge_path_and_args.
  destruct (pa_repr t), (pa_repr l); reflexivity.
Qed.
Lemma sl_agrees : agrees in_string_list merge_string_list.
Proof.
  intros t l b. unfold in_string_list, merge_string_list.
  destruct (sl_repr t), (sl_repr l); reflexivity.
Qed.
Lemma flags_agrees : agrees in_flags merge_flags.
Proof.
  intros t l b. unfold in_flags, merge_flags. destruct (fl_repr t), (fl_repr l); reflexivity.
Qed.
Lemma env_agrees : agrees in_env_config_value merge_env_config_value.
Proof.
  intros [t | tv tf tr] [l | lv lf lr] b; try reflexivity.
  destruct tf, lf, tr, lr; reflexivity.
Qed.
Lemma sl_leaves : leaves in_string_list merge_string_list left_whole.
Proof.
  intros t l b e. unfold in_string_list, merge_string_list.
  destruct (sl_repr t), (sl_repr l); intros; try discriminate; reflexivity.
Qed.
Lemma env_leaves : leaves in_env_config_value merge_env_config_value left_whole.
Proof.
  intros [t | tv tf tr] [l | lv lf lr] b e; try reflexivity; try discriminate.
  destruct tf, lf, tr, lr; discriminate.
Qed.
Lemma pa_leaves : leaves in_path_and_args merge_path_and_args left_whole.
Proof.
  intros t l b e. unfold in_path_and_args, merge_path_and_args.
  destruct (pa_repr t), (pa_repr l); intros; try discriminate; reflexivity.
Qed.
Lemma flags_leaves : leaves in_flags merge_flags left_whole.
Proof.
  intros t l b e. unfold in_flags, merge_flags.
  destruct (fl_repr t), (fl_repr l); intros; try discriminate; reflexivity.
Qed.
Lemma option_leaves {A} (m : merger A) f : agrees m f -> leaves m f left_whole ->
  leaves (in_option m) (merge_opt f) left_whole.
Proof.
  intros Ha H [t |] [l |] b e; try discriminate. cbn. specialize (H t l b).
  specialize (Ha t l b). destruct (m t l b) as [o t']. destruct (f t l b) as [a | e' | p]; cbn in *;
    intros E; try discriminate. unfold left_whole. f_equal. injection E as ->. apply (H e). reflexivity.
Qed.

Lemma map_agrees {V} (m : merger V) f d lf : agrees m f -> leaves m f lf ->
  agrees (in_map m d) (merge_map f d lf).
Proof.
  intros Ha Hl this low b. unfold in_map. revert this.
  induction low as [| [k v] low IH]; intros this; [reflexivity |].
  cbn [in_map_loop merge_map]. destruct (bget k this) as [entry |]; [| apply IH].
  specialize (Ha entry v b). specialize (Hl entry v b).
  destruct (m entry v b) as [o entry']. destruct (f entry v b) as [a | e | p]; cbn in Ha, Hl.
  - injection Ha as -> ->. cbn. apply IH.
  - subst o. rewrite (Hl e eq_refl). reflexivity.
  - subst o. reflexivity.
Qed.

(** One statement of a body. *)
Lemma in_order_step {A P} (get : A -> P) set m f rest (K : P -> result A) this low b :
  agrees m f ->
  (forall p, f (get this) (get low) b = Ok p -> fits (in_order rest (set this p) low b) (K p)) ->
  fits (in_order (on_part get set m :: rest) this low b) (p <- f (get this) (get low) b ;; K p).
Proof.
  intros Ha HK. specialize (Ha (get this) (get low) b). cbn. unfold on_part.
  destruct (m (get this) (get low) b) as [o p].
  destruct (f (get this) (get low) b) as [a | e | q]; cbn in Ha |- *.
  - injection Ha as -> ->. apply HK. reflexivity.
  - subst o. reflexivity.
  - subst o. reflexivity.
Qed.
Lemma in_order_done {A} (this low : A) b r : r = Ok this -> fits (in_order [] this low b) r.
Proof. intros ->. reflexivity. Qed.

(** The bodies the calls of the generated file make up. *)
Definition body_of {A} (o : option (merger A)) : merger A :=
  match o with Some m => m | None => fun this _ _ => (Ok tt, this) end.
Definition future_body :=
  Eval cbv -[merger in_order on_part in_leaf in_option in_string_or_array in_path_and_args
             in_string_list in_flags in_env_config_value in_map dbg_string_list
             dbg_env_config_value dbg_registries dbg_target] in
  body_of (struct_merge gen_de_file (B "de::FutureIncompatReportConfig") future_members).
Definition cargo_new_body :=
  Eval cbv -[merger in_order on_part in_leaf in_option in_string_or_array in_path_and_args
             in_string_list in_flags in_env_config_value in_map dbg_string_list
             dbg_env_config_value dbg_registries dbg_target] in
  body_of (struct_merge gen_de_file (B "de::CargoNewConfig") cargo_new_members).
Definition http_body :=
  Eval cbv -[merger in_order on_part in_leaf in_option in_string_or_array in_path_and_args
             in_string_list in_flags in_env_config_value in_map dbg_string_list
             dbg_env_config_value dbg_registries dbg_target] in
  body_of (struct_merge gen_de_file (B "de::HttpConfig") http_members).
Definition net_body :=
  Eval cbv -[merger in_order on_part in_leaf in_option in_string_or_array in_path_and_args
             in_string_list in_flags in_env_config_value in_map dbg_string_list
             dbg_env_config_value dbg_registries dbg_target] in
  body_of (struct_merge gen_de_file (B "de::NetConfig") net_members).
Definition registries_body :=
  Eval cbv -[merger in_order on_part in_leaf in_option in_string_or_array in_path_and_args
             in_string_list in_flags in_env_config_value in_map dbg_string_list
             dbg_env_config_value dbg_registries dbg_target] in
  body_of (struct_merge gen_de_file (B "de::RegistriesConfigValue") registries_members).
Definition registry_body :=
  Eval cbv -[merger in_order on_part in_leaf in_option in_string_or_array in_path_and_args
             in_string_list in_flags in_env_config_value in_map dbg_string_list
             dbg_env_config_value dbg_registries dbg_target] in
  body_of (struct_merge gen_de_file (B "de::RegistryConfig") registry_members).
Definition progress_body :=
  Eval cbv -[merger in_order on_part in_leaf in_option in_string_or_array in_path_and_args
             in_string_list in_flags in_env_config_value in_map dbg_string_list
             dbg_env_config_value dbg_registries dbg_target] in
  body_of (struct_merge gen_de_file (B "de::TermProgress") progress_members).
Definition build_body :=
  Eval cbv -[merger in_order on_part in_leaf in_option in_string_or_array in_path_and_args
             in_string_list in_flags in_env_config_value in_map dbg_string_list
             dbg_env_config_value dbg_registries dbg_target] in
  body_of (struct_merge gen_de_file (B "de::BuildConfig") (build_members gen_de_file)).
Definition target_body :=
  Eval cbv -[merger in_order on_part in_leaf in_option in_string_or_array in_path_and_args
             in_string_list in_flags in_env_config_value in_map dbg_string_list
             dbg_env_config_value dbg_registries dbg_target] in
  body_of (struct_merge gen_de_file (B "de::TargetConfig") (target_members gen_de_file)).
Definition doc_body :=
  Eval cbv -[merger in_order on_part in_leaf in_option in_string_or_array in_path_and_args
             in_string_list in_flags in_env_config_value in_map dbg_string_list
             dbg_env_config_value dbg_registries dbg_target] in
  body_of (struct_merge gen_de_file (B "de::DocConfig") (doc_members gen_de_file)).
Definition term_body :=
  Eval cbv -[merger in_order on_part in_leaf in_option in_string_or_array in_path_and_args
             in_string_list in_flags in_env_config_value in_map dbg_string_list
             dbg_env_config_value dbg_registries dbg_target] in
  body_of (struct_merge gen_de_file (B "de::TermConfig") (term_members gen_de_file)).
Definition config_body :=
  Eval cbv -[merger in_order on_part in_leaf in_option in_string_or_array in_path_and_args
             in_string_list in_flags in_env_config_value in_map dbg_string_list
             dbg_env_config_value dbg_registries dbg_target] in
  body_of (struct_merge gen_de_file (B "de::Config") (config_members gen_de_file)).
Lemma future_compiles :
  struct_merge gen_de_file (B "de::FutureIncompatReportConfig") future_members = Some future_body.
Proof. reflexivity. Qed.
Lemma cargo_new_compiles :
  struct_merge gen_de_file (B "de::CargoNewConfig") cargo_new_members = Some cargo_new_body.
Proof. reflexivity. Qed.
Lemma http_compiles :
  struct_merge gen_de_file (B "de::HttpConfig") http_members = Some http_body.
Proof. reflexivity. Qed.
Lemma net_compiles :
  struct_merge gen_de_file (B "de::NetConfig") net_members = Some net_body.
Proof. reflexivity. Qed.
Lemma registries_compiles :
  struct_merge gen_de_file (B "de::RegistriesConfigValue") registries_members = Some registries_body.
Proof. reflexivity. Qed.
Lemma registry_compiles :
  struct_merge gen_de_file (B "de::RegistryConfig") registry_members = Some registry_body.
Proof. reflexivity. Qed.
Lemma progress_compiles :
  struct_merge gen_de_file (B "de::TermProgress") progress_members = Some progress_body.
Proof. reflexivity. Qed.
Lemma build_compiles :
  struct_merge gen_de_file (B "de::BuildConfig") (build_members gen_de_file) = Some build_body.
Proof. reflexivity. Qed.
Lemma target_compiles :
  struct_merge gen_de_file (B "de::TargetConfig") (target_members gen_de_file) = Some target_body.
Proof. reflexivity. Qed.
Lemma doc_compiles :
  struct_merge gen_de_file (B "de::DocConfig") (doc_members gen_de_file) = Some doc_body.
Proof. reflexivity. Qed.
Lemma term_compiles :
  struct_merge gen_de_file (B "de::TermConfig") (term_members gen_de_file) = Some term_body.
Proof. reflexivity. Qed.
Lemma config_compiles :
  struct_merge gen_de_file (B "de::Config") (config_members gen_de_file) = Some config_body.
Proof. reflexivity. Qed.

Ltac part_agree :=
  first [ exact leaf_agrees | exact soa_agrees | exact pa_agrees | exact sl_agrees
        | exact flags_agrees | exact env_agrees | apply option_agrees; part_agree ].
Ltac struct_agree others :=
  let this := fresh in let low := fresh in
  intros this low ?; destruct this, low; cbn -[in_order fits bind];
  repeat (apply in_order_step; [first [part_agree | others] | intros ? _; cbn -[in_order fits bind]]);
  apply in_order_done; reflexivity.

Lemma future_agrees : agrees future_body merge_future.
Proof. unfold merge_future, merge_v. struct_agree fail. Qed.
Lemma cargo_new_agrees : agrees cargo_new_body merge_cargo_new.
Proof. unfold merge_cargo_new, merge_v. struct_agree fail. Qed.
Lemma http_agrees : agrees http_body merge_http.
Proof. unfold merge_http, merge_v. struct_agree fail. Qed.
Lemma net_agrees : agrees net_body merge_net.
Proof. unfold merge_net, merge_v. struct_agree fail. Qed.
Lemma registries_agrees : agrees registries_body merge_registries.
Proof. unfold merge_registries, merge_v. struct_agree fail. Qed.
Lemma registry_agrees : agrees registry_body merge_registry.
Proof. unfold merge_registry, merge_v. struct_agree fail. Qed.
Lemma progress_agrees : agrees progress_body merge_progress.
Proof. unfold merge_progress, merge_v. struct_agree fail. Qed.
Lemma build_agrees : agrees build_body merge_build.
Proof. unfold merge_build, merge_v. struct_agree fail. Qed.
Lemma target_agrees : agrees target_body merge_target.
Proof. unfold merge_target, merge_v. struct_agree fail. Qed.
Lemma doc_agrees : agrees doc_body merge_doc.
Proof. unfold merge_doc, merge_v. struct_agree fail. Qed.
Lemma term_agrees : agrees term_body merge_term.
Proof. unfold merge_term, merge_v. struct_agree ltac:(exact progress_agrees). Qed.

Lemma part_err {A P} (get : A -> P) set m f rest this low b e :
  agrees m f -> leaves m f left_whole -> f (get this) (get low) b = Err e ->
  in_order (on_part get set m :: rest) this low b = (Err e, set this (get this)).
Proof.
  intros Ha Hl E. cbn. unfold on_part. specialize (Ha (get this) (get low) b).
  specialize (Hl (get this) (get low) b e E). rewrite E in Ha.
  destruct (m (get this) (get low) b) as [o p]. cbn in Ha, Hl. subst. reflexivity.
Qed.
Lemma part_ok {A P} (get : A -> P) set m f rest this low b p :
  agrees m f -> f (get this) (get low) b = Ok p ->
  in_order (on_part get set m :: rest) this low b = in_order rest (set this p) low b.
Proof.
  intros Ha E. cbn. unfold on_part. specialize (Ha (get this) (get low) b). rewrite E in Ha.
  destruct (m (get this) (get low) b) as [o p']. cbn in Ha. injection Ha as -> ->. reflexivity.
Qed.

Lemma leaf_leaves {A} : leaves (@in_leaf A) merge_leaf left_whole.
Proof. intros t l b e. discriminate. Qed.
Lemma registries_leaves : leaves registries_body merge_registries left_whole.
Proof.
  intros [ti tt tp] [li lt lp] b e. unfold merge_registries, merge_v.
  destruct ti, li, tt, lt, tp, lp; discriminate.
Qed.
Lemma target_leaves : leaves target_body merge_target left_target.
Proof.
  intros [tl tr tf td] [ll lr lf ld] b e. unfold merge_target, left_target, merge_v.
  cbn [t_linker t_runner t_rustflags t_rustdocflags].
  destruct (merge_opt merge_leaf tl ll b) as [l | ? | ?] eqn:El;
    [| destruct tl, ll; discriminate El | destruct tl, ll; discriminate El].
  unfold target_body. erewrite part_ok; [| apply option_agrees, leaf_agrees | exact El].
  cbn -[in_order bind].
  destruct (merge_opt merge_path_and_args tr lr b) as [r | e1 | ?] eqn:Er;
    [| erewrite part_err; [reflexivity | apply option_agrees, pa_agrees |
         apply option_leaves; [exact pa_agrees | exact pa_leaves] | exact Er]
     | discriminate].
  erewrite part_ok; [| apply option_agrees, pa_agrees | exact Er]. cbn -[in_order bind].
  destruct (merge_opt merge_flags tf lf b) as [f | e1 | ?] eqn:Ef;
    [| erewrite part_err; [reflexivity | apply option_agrees, flags_agrees |
         apply option_leaves; [exact flags_agrees | exact flags_leaves] | exact Ef]
     | discriminate].
  erewrite part_ok; [| apply option_agrees, flags_agrees | exact Ef]. cbn -[in_order bind].
  destruct (merge_opt merge_flags td ld b) as [d | e1 | ?] eqn:Ed;
    [discriminate | erewrite part_err; [reflexivity | apply option_agrees, flags_agrees |
         apply option_leaves; [exact flags_agrees | exact flags_leaves] | exact Ed]
     | discriminate].
Qed.

Ltac config_part :=
  first
    [ exact build_agrees | exact doc_agrees | exact future_agrees | exact cargo_new_agrees
    | exact http_agrees | exact net_agrees | exact registry_agrees | exact term_agrees
    | apply map_agrees;
      [ first [exact sl_agrees | exact env_agrees | exact registries_agrees | exact target_agrees]
      | first [exact sl_leaves | exact env_leaves | exact registries_leaves | exact target_leaves] ] ].
Lemma config_agrees : agrees config_body merge_config.
Proof. unfold merge_config. struct_agree config_part. Qed.

(** ** What a failure leaves *)
Record piece (T : Type) := mkPiece {
  pc_type : Type;
  pc_get : T -> pc_type;
  pc_set : T -> pc_type -> T;
  pc_merger : merger pc_type;
  pc_function : pc_type -> pc_type -> bool -> result pc_type
}.
Arguments mkPiece {T pc_type}.
Arguments pc_type {T}.
Arguments pc_get {T}.
Arguments pc_set {T}.
Arguments pc_merger {T}.
Arguments pc_function {T}.
Definition piece_step {T} (p : piece T) : merger T :=
  on_part (pc_get p) (pc_set p) (pc_merger p).
Definition apart {T} (p q : piece T) : Prop :=
  (forall x a, pc_get p (pc_set q x a) = pc_get p x)
  /\ (forall x a, pc_get q (pc_set p x a) = pc_get q x).
Definition good {T} (p : piece T) : Prop :=
  (forall x a, pc_get p (pc_set p x a) = a) /\ agrees (pc_merger p) (pc_function p).

Lemma apart_kept {T} (p : piece T) ps this low b :
  Forall (apart p) ps -> pc_get p (snd (in_order (map piece_step ps) this low b)) = pc_get p this.
Proof.
  intros H. revert this. induction H as [| q ps [Hq _] _ IH]; intros this; [reflexivity |].
  cbn [map in_order]. unfold piece_step at 1, on_part.
  destruct (pc_merger q (pc_get q this) (pc_get q low) b) as [[] a]; cbn [snd]; rewrite ?IH; apply Hq.
Qed.
Lemma pieces_stopped {T} (ps : list (piece T)) this0 low b e left : forall this,
  Forall good ps -> ForallOrdPairs apart ps ->
  Forall (fun p => pc_get p this = pc_get p this0) ps ->
  in_order (map piece_step ps) this low b = (Err e, left) ->
  stopped (map (fun p => part_of this0 low left b e (pc_function p) (pc_get p)) ps).
Proof.
  induction ps as [| p ps IH]; intros this Hg Hp Hk; [discriminate |].
  inversion Hg as [| ? ? [Hs Ha] Hg']; inversion Hp as [| ? ? Hp1 Hp']; inversion Hk as [| ? ? Hk1 Hk']; subst.
  specialize (Ha (pc_get p this) (pc_get p low) b). pose proof (apart_kept p ps) as Hkept.
  cbn [map in_order]. unfold piece_step at 1, on_part.
  destruct (pc_merger p (pc_get p this) (pc_get p low) b) as [o a].
  destruct (pc_function p (pc_get p this) (pc_get p low) b) as [r | r | r] eqn:E; cbn in Ha.
  - injection Ha as -> ->. intros H. apply stopped_later.
    + cbn. rewrite <- Hk1, E. specialize (Hkept (pc_set p this r) low b Hp1). rewrite H in Hkept.
      cbn [snd] in Hkept. rewrite Hkept, Hs. reflexivity.
    + apply (IH (pc_set p this r)); auto. rewrite Forall_forall in *. intros q Hq.
      destruct (Hp1 q Hq) as [_ Hq2]. rewrite Hq2. apply Hk'; exact Hq.
  - subst o. intros [= -> <-]. apply stopped_here.
    + cbn. rewrite <- Hk1. exact E.
    + apply Forall_map. cbn. rewrite Forall_forall in *. intros q Hq.
      destruct (Hp1 q Hq) as [_ Hq2]. rewrite Hq2. apply Hk'; exact Hq.
  - subst o. discriminate.
Qed.
Lemma pieces_stopped_from {T} (ps : list (piece T)) this low b e left :
  Forall good ps -> ForallOrdPairs apart ps ->
  in_order (map piece_step ps) this low b = (Err e, left) ->
  stopped (map (fun p => part_of this low left b e (pc_function p) (pc_get p)) ps).
Proof.
  intros Hg Hp. apply pieces_stopped; auto. apply Forall_forall. reflexivity.
Qed.

Ltac pieces_apart := repeat constructor; intros [] ?; reflexivity.
Definition build_pieces : list (piece build_config) :=
  [ mkPiece b_jobs
      (fun x a => mkBuild a (b_rustc x) (b_rustc_wrapper x) (b_rustc_workspace_wrapper x)
                    (b_rustdoc x) (b_target x) (b_target_dir x) (b_rustflags x)
                    (b_rustdocflags x) (b_incremental x) (b_dep_info_basedir x)
                    (b_override_target_rustflags x) (b_override_target_rustdocflags x))
      (in_option in_leaf) merge_v;
    mkPiece b_rustc
      (fun x a => mkBuild (b_jobs x) a (b_rustc_wrapper x) (b_rustc_workspace_wrapper x)
                    (b_rustdoc x) (b_target x) (b_target_dir x) (b_rustflags x)
                    (b_rustdocflags x) (b_incremental x) (b_dep_info_basedir x)
                    (b_override_target_rustflags x) (b_override_target_rustdocflags x))
      (in_option in_leaf) merge_v;
    mkPiece b_rustc_wrapper
      (fun x a => mkBuild (b_jobs x) (b_rustc x) a (b_rustc_workspace_wrapper x) (b_rustdoc x)
                    (b_target x) (b_target_dir x) (b_rustflags x) (b_rustdocflags x)
                    (b_incremental x) (b_dep_info_basedir x) (b_override_target_rustflags x)
                    (b_override_target_rustdocflags x))
      (in_option in_leaf) merge_v;
    mkPiece b_rustc_workspace_wrapper
      (fun x a => mkBuild (b_jobs x) (b_rustc x) (b_rustc_wrapper x) a (b_rustdoc x)
                    (b_target x) (b_target_dir x) (b_rustflags x) (b_rustdocflags x)
                    (b_incremental x) (b_dep_info_basedir x) (b_override_target_rustflags x)
                    (b_override_target_rustdocflags x))
      (in_option in_leaf) merge_v;
    mkPiece b_rustdoc
      (fun x a => mkBuild (b_jobs x) (b_rustc x) (b_rustc_wrapper x)
                    (b_rustc_workspace_wrapper x) a (b_target x) (b_target_dir x)
                    (b_rustflags x) (b_rustdocflags x) (b_incremental x) (b_dep_info_basedir x)
                    (b_override_target_rustflags x) (b_override_target_rustdocflags x))
      (in_option in_leaf) merge_v;
    mkPiece b_target
      (fun x a => mkBuild (b_jobs x) (b_rustc x) (b_rustc_wrapper x)
                    (b_rustc_workspace_wrapper x) (b_rustdoc x) a (b_target_dir x)
                    (b_rustflags x) (b_rustdocflags x) (b_incremental x) (b_dep_info_basedir x)
                    (b_override_target_rustflags x) (b_override_target_rustdocflags x))
      (in_option in_string_or_array) (merge_opt merge_soa);
    mkPiece b_target_dir
      (fun x a => mkBuild (b_jobs x) (b_rustc x) (b_rustc_wrapper x)
                    (b_rustc_workspace_wrapper x) (b_rustdoc x) (b_target x) a (b_rustflags x)
                    (b_rustdocflags x) (b_incremental x) (b_dep_info_basedir x)
                    (b_override_target_rustflags x) (b_override_target_rustdocflags x))
      (in_option in_leaf) merge_v;
    mkPiece b_rustflags
      (fun x a => mkBuild (b_jobs x) (b_rustc x) (b_rustc_wrapper x)
                    (b_rustc_workspace_wrapper x) (b_rustdoc x) (b_target x) (b_target_dir x) a
                    (b_rustdocflags x) (b_incremental x) (b_dep_info_basedir x)
                    (b_override_target_rustflags x) (b_override_target_rustdocflags x))
      (in_option in_flags) (merge_opt merge_flags);
    mkPiece b_rustdocflags
      (fun x a => mkBuild (b_jobs x) (b_rustc x) (b_rustc_wrapper x)
                    (b_rustc_workspace_wrapper x) (b_rustdoc x) (b_target x) (b_target_dir x)
                    (b_rustflags x) a (b_incremental x) (b_dep_info_basedir x)
                    (b_override_target_rustflags x) (b_override_target_rustdocflags x))
      (in_option in_flags) (merge_opt merge_flags);
    mkPiece b_incremental
      (fun x a => mkBuild (b_jobs x) (b_rustc x) (b_rustc_wrapper x)
                    (b_rustc_workspace_wrapper x) (b_rustdoc x) (b_target x) (b_target_dir x)
                    (b_rustflags x) (b_rustdocflags x) a (b_dep_info_basedir x)
                    (b_override_target_rustflags x) (b_override_target_rustdocflags x))
      (in_option in_leaf) merge_v;
    mkPiece b_dep_info_basedir
      (fun x a => mkBuild (b_jobs x) (b_rustc x) (b_rustc_wrapper x)
                    (b_rustc_workspace_wrapper x) (b_rustdoc x) (b_target x) (b_target_dir x)
                    (b_rustflags x) (b_rustdocflags x) (b_incremental x) a
                    (b_override_target_rustflags x) (b_override_target_rustdocflags x))
      (in_option in_leaf) merge_v ].
Definition config_pieces : list (piece config) :=
  [ mkPiece c_alias
      (fun x a => mkConfig a (c_build x) (c_doc x) (c_env x) (c_future_incompat_report x)
                    (c_cargo_new x) (c_http x) (c_net x) (c_registries x) (c_registry x)
                    (c_target x) (c_term x))
      (in_map in_string_list dbg_string_list) (merge_map merge_string_list dbg_string_list left_whole);
    mkPiece c_build
      (fun x a => mkConfig (c_alias x) a (c_doc x) (c_env x) (c_future_incompat_report x)
                    (c_cargo_new x) (c_http x) (c_net x) (c_registries x) (c_registry x)
                    (c_target x) (c_term x))
      build_body merge_build;
    mkPiece c_doc
      (fun x a => mkConfig (c_alias x) (c_build x) a (c_env x) (c_future_incompat_report x)
                    (c_cargo_new x) (c_http x) (c_net x) (c_registries x) (c_registry x)
                    (c_target x) (c_term x))
      doc_body merge_doc;
    mkPiece c_env
      (fun x a => mkConfig (c_alias x) (c_build x) (c_doc x) a (c_future_incompat_report x)
                    (c_cargo_new x) (c_http x) (c_net x) (c_registries x) (c_registry x)
                    (c_target x) (c_term x))
      (in_map in_env_config_value dbg_env_config_value) (merge_map merge_env_config_value dbg_env_config_value left_whole);
    mkPiece c_future_incompat_report
      (fun x a => mkConfig (c_alias x) (c_build x) (c_doc x) (c_env x) a (c_cargo_new x)
                    (c_http x) (c_net x) (c_registries x) (c_registry x) (c_target x) (c_term x))
      future_body merge_future;
    mkPiece c_cargo_new
      (fun x a => mkConfig (c_alias x) (c_build x) (c_doc x) (c_env x)
                    (c_future_incompat_report x) a (c_http x) (c_net x) (c_registries x)
                    (c_registry x) (c_target x) (c_term x))
      cargo_new_body merge_cargo_new;
    mkPiece c_http
      (fun x a => mkConfig (c_alias x) (c_build x) (c_doc x) (c_env x)
                    (c_future_incompat_report x) (c_cargo_new x) a (c_net x) (c_registries x)
                    (c_registry x) (c_target x) (c_term x))
      http_body merge_http;
    mkPiece c_net
      (fun x a => mkConfig (c_alias x) (c_build x) (c_doc x) (c_env x)
                    (c_future_incompat_report x) (c_cargo_new x) (c_http x) a (c_registries x)
                    (c_registry x) (c_target x) (c_term x))
      net_body merge_net;
    mkPiece c_registries
      (fun x a => mkConfig (c_alias x) (c_build x) (c_doc x) (c_env x)
                    (c_future_incompat_report x) (c_cargo_new x) (c_http x) (c_net x) a
                    (c_registry x) (c_target x) (c_term x))
      (in_map registries_body dbg_registries) (merge_map merge_registries dbg_registries left_whole);
    mkPiece c_registry
      (fun x a => mkConfig (c_alias x) (c_build x) (c_doc x) (c_env x)
                    (c_future_incompat_report x) (c_cargo_new x) (c_http x) (c_net x)
                    (c_registries x) a (c_target x) (c_term x))
      registry_body merge_registry;
    mkPiece c_target
      (fun x a => mkConfig (c_alias x) (c_build x) (c_doc x) (c_env x)
                    (c_future_incompat_report x) (c_cargo_new x) (c_http x) (c_net x)
                    (c_registries x) (c_registry x) a (c_term x))
      (in_map target_body dbg_target) (merge_map merge_target dbg_target left_target);
    mkPiece c_term
      (fun x a => mkConfig (c_alias x) (c_build x) (c_doc x) (c_env x)
                    (c_future_incompat_report x) (c_cargo_new x) (c_http x) (c_net x)
                    (c_registries x) (c_registry x) (c_target x) a)
      term_body merge_term ].
Lemma build_left this low b e left :
  build_body this low b = (Err e, left) -> build_stopped this low left b e.
Proof.
  intros H. apply (pieces_stopped_from build_pieces).
  - repeat (constructor; [split; [intros [] ?; reflexivity | part_agree] |]). constructor.
  - pieces_apart.
  - exact H.
Qed.
Lemma config_left this low b e left :
  config_body this low b = (Err e, left) -> config_stopped this low left b e.
Proof.
  intros H. apply (pieces_stopped_from config_pieces).
  - repeat (constructor; [split; [intros [] ?; reflexivity | config_part] |]). constructor.
  - pieces_apart.
  - exact H.
Qed.

(** ** [SetPath] *)
Definition paths_of {A} (o : option (path -> A -> A)) : path -> A -> A :=
  match o with Some f => f | None => fun _ x => x end.
Definition soa_paths := paths_of (mt_set_path (of_string_or_array gen_de_file)).
Definition env_paths := paths_of (mt_set_path (of_env_config_value gen_de_file)).
Lemma soa_paths_compile : mt_set_path (of_string_or_array gen_de_file) = Some soa_paths.
Proof. reflexivity. Qed.
Lemma env_paths_compile : mt_set_path (of_env_config_value gen_de_file) = Some env_paths.
Proof. reflexivity. Qed.
Lemma soa_paths_eq p x : soa_paths p x = sp_soa p x.
Proof. destruct x; reflexivity. Qed.
Lemma env_paths_eq p x : env_paths p x = sp_env_config_value p x.
Proof. destruct x as [v | v [f |] [r |]]; reflexivity. Qed.
Lemma sp_opt_ext {A} (f g : path -> A -> A) p o : (forall p x, f p x = g p x) ->
  sp_opt f p o = sp_opt g p o.
Proof. intros H. destruct o; cbn; [rewrite H |]; reflexivity. Qed.
Lemma sp_map_ext {A} (f g : path -> A -> A) p m : (forall p x, f p x = g p x) ->
  sp_map f p m = sp_map g p m.
Proof.
  intros H. unfold sp_map, bmapv. apply map_ext. intros [k v]. cbn. rewrite H. reflexivity.
Qed.
Definition flags_paths :=
  Eval cbv -[all_paths set_path_value sp_opt sp_list sp_map] in
  paths_of (struct_set_path gen_de_file (B "de::Flags") flags_members).
Lemma flags_paths_compile : struct_set_path gen_de_file (B "de::Flags") flags_members = Some flags_paths.
Proof. reflexivity. Qed.
Definition string_list_paths :=
  Eval cbv -[all_paths set_path_value sp_opt sp_list sp_map] in
  paths_of (struct_set_path gen_de_file (B "de::StringList") string_list_members).
Lemma string_list_paths_compile : struct_set_path gen_de_file (B "de::StringList") string_list_members = Some string_list_paths.
Proof. reflexivity. Qed.
Definition path_and_args_paths :=
  Eval cbv -[all_paths set_path_value sp_opt sp_list sp_map] in
  paths_of (struct_set_path gen_de_file (B "de::PathAndArgs") (path_and_args_members gen_de_file)).
Lemma path_and_args_paths_compile : struct_set_path gen_de_file (B "de::PathAndArgs") (path_and_args_members gen_de_file) = Some path_and_args_paths.
Proof. reflexivity. Qed.
Definition future_paths :=
  Eval cbv -[all_paths set_path_value sp_opt sp_list sp_map] in
  paths_of (struct_set_path gen_de_file (B "de::FutureIncompatReportConfig") future_members).
Lemma future_paths_compile : struct_set_path gen_de_file (B "de::FutureIncompatReportConfig") future_members = Some future_paths.
Proof. reflexivity. Qed.
Definition cargo_new_paths :=
  Eval cbv -[all_paths set_path_value sp_opt sp_list sp_map] in
  paths_of (struct_set_path gen_de_file (B "de::CargoNewConfig") cargo_new_members).
Lemma cargo_new_paths_compile : struct_set_path gen_de_file (B "de::CargoNewConfig") cargo_new_members = Some cargo_new_paths.
Proof. reflexivity. Qed.
Definition http_paths :=
  Eval cbv -[all_paths set_path_value sp_opt sp_list sp_map] in
  paths_of (struct_set_path gen_de_file (B "de::HttpConfig") http_members).
Lemma http_paths_compile : struct_set_path gen_de_file (B "de::HttpConfig") http_members = Some http_paths.
Proof. reflexivity. Qed.
Definition net_paths :=
  Eval cbv -[all_paths set_path_value sp_opt sp_list sp_map] in
  paths_of (struct_set_path gen_de_file (B "de::NetConfig") net_members).
Lemma net_paths_compile : struct_set_path gen_de_file (B "de::NetConfig") net_members = Some net_paths.
Proof. reflexivity. Qed.
Definition registries_paths :=
  Eval cbv -[all_paths set_path_value sp_opt sp_list sp_map] in
  paths_of (struct_set_path gen_de_file (B "de::RegistriesConfigValue") registries_members).
Lemma registries_paths_compile : struct_set_path gen_de_file (B "de::RegistriesConfigValue") registries_members = Some registries_paths.
Proof. reflexivity. Qed.
Definition registry_paths :=
  Eval cbv -[all_paths set_path_value sp_opt sp_list sp_map] in
  paths_of (struct_set_path gen_de_file (B "de::RegistryConfig") registry_members).
Lemma registry_paths_compile : struct_set_path gen_de_file (B "de::RegistryConfig") registry_members = Some registry_paths.
Proof. reflexivity. Qed.
Definition progress_paths :=
  Eval cbv -[all_paths set_path_value sp_opt sp_list sp_map] in
  paths_of (struct_set_path gen_de_file (B "de::TermProgress") progress_members).
Lemma progress_paths_compile : struct_set_path gen_de_file (B "de::TermProgress") progress_members = Some progress_paths.
Proof. reflexivity. Qed.
Definition doc_paths :=
  Eval cbv -[all_paths set_path_value sp_opt sp_list sp_map] in
  paths_of (struct_set_path gen_de_file (B "de::DocConfig") (doc_members gen_de_file)).
Lemma doc_paths_compile : struct_set_path gen_de_file (B "de::DocConfig") (doc_members gen_de_file) = Some doc_paths.
Proof. reflexivity. Qed.
Definition target_paths :=
  Eval cbv -[all_paths set_path_value sp_opt sp_list sp_map] in
  paths_of (struct_set_path gen_de_file (B "de::TargetConfig") (target_members gen_de_file)).
Lemma target_paths_compile : struct_set_path gen_de_file (B "de::TargetConfig") (target_members gen_de_file) = Some target_paths.
Proof. reflexivity. Qed.
Definition build_paths :=
  Eval cbv -[all_paths set_path_value sp_opt sp_list sp_map] in
  paths_of (struct_set_path gen_de_file (B "de::BuildConfig") (build_members gen_de_file)).
Lemma build_paths_compile : struct_set_path gen_de_file (B "de::BuildConfig") (build_members gen_de_file) = Some build_paths.
Proof. reflexivity. Qed.
Definition term_paths :=
  Eval cbv -[all_paths set_path_value sp_opt sp_list sp_map] in
  paths_of (struct_set_path gen_de_file (B "de::TermConfig") (term_members gen_de_file)).
Lemma term_paths_compile : struct_set_path gen_de_file (B "de::TermConfig") (term_members gen_de_file) = Some term_paths.
Proof. reflexivity. Qed.
Definition config_paths :=
  Eval cbv -[all_paths set_path_value sp_opt sp_list sp_map] in
  paths_of (struct_set_path gen_de_file (B "de::Config") (config_members gen_de_file)).
Lemma config_paths_compile : struct_set_path gen_de_file (B "de::Config") (config_members gen_de_file) = Some config_paths.
Proof. reflexivity. Qed.
Ltac paths_done :=
  cbv [all_paths fold_left]; cbn -[set_path_value sp_opt sp_list sp_map]; reflexivity.
Lemma flags_paths_eq p x : flags_paths p x = sp_flags p x.
Proof. destruct x. unfold flags_paths. paths_done. Qed.
Lemma string_list_paths_eq p x : string_list_paths p x = sp_string_list p x.
Proof. destruct x. unfold string_list_paths. paths_done. Qed.
Lemma path_and_args_paths_eq p x : path_and_args_paths p x = sp_path_and_args p x.
Proof. destruct x. unfold path_and_args_paths. paths_done. Qed.
Lemma future_paths_eq p x : future_paths p x = sp_future p x.
Proof. destruct x. unfold future_paths. paths_done. Qed.
Lemma cargo_new_paths_eq p x : cargo_new_paths p x = sp_cargo_new p x.
Proof. destruct x. unfold cargo_new_paths. paths_done. Qed.
Lemma http_paths_eq p x : http_paths p x = sp_http p x.
Proof. destruct x. unfold http_paths. paths_done. Qed.
Lemma net_paths_eq p x : net_paths p x = sp_net p x.
Proof. destruct x. unfold net_paths. paths_done. Qed.
Lemma registries_paths_eq p x : registries_paths p x = sp_registries p x.
Proof. destruct x. unfold registries_paths. paths_done. Qed.
Lemma registry_paths_eq p x : registry_paths p x = sp_registry p x.
Proof. destruct x. unfold registry_paths. paths_done. Qed.
Lemma progress_paths_eq p x : progress_paths p x = sp_progress p x.
Proof. destruct x. unfold progress_paths. paths_done. Qed.
Lemma doc_paths_eq p x : doc_paths p x = sp_doc p x.
Proof.
  destruct x as [b]. unfold sp_doc. cbn [d_browser].
  rewrite <- (sp_opt_ext path_and_args_paths _ p b path_and_args_paths_eq). unfold doc_paths. paths_done.
Qed.
Lemma target_paths_eq p x : target_paths p x = sp_target p x.
Proof.
  destruct x as [l r f d]. unfold sp_target. cbn [t_linker t_runner t_rustflags t_rustdocflags].
  rewrite <- (sp_opt_ext path_and_args_paths _ p r path_and_args_paths_eq),
    <- (sp_opt_ext flags_paths _ p f flags_paths_eq), <- (sp_opt_ext flags_paths _ p d flags_paths_eq).
  unfold target_paths. paths_done.
Qed.
Lemma build_paths_eq p x : build_paths p x = sp_build p x.
Proof.
  unfold sp_build.
  rewrite <- (sp_opt_ext soa_paths _ p (b_target x) soa_paths_eq),
    <- (sp_opt_ext flags_paths _ p (b_rustflags x) flags_paths_eq),
    <- (sp_opt_ext flags_paths _ p (b_rustdocflags x) flags_paths_eq).
  destruct x. unfold build_paths. paths_done.
Qed.
Lemma term_paths_eq p x : term_paths p x = sp_term p x.
Proof.
  unfold sp_term. rewrite <- progress_paths_eq. destruct x. unfold term_paths. paths_done.
Qed.
Lemma config_paths_eq p x : config_paths p x = sp_config p x.
Proof.
  unfold sp_config.
  rewrite <- build_paths_eq, <- doc_paths_eq, <- future_paths_eq, <- cargo_new_paths_eq,
    <- http_paths_eq, <- net_paths_eq, <- registry_paths_eq, <- term_paths_eq,
    <- (sp_map_ext string_list_paths _ p (c_alias x) string_list_paths_eq),
    <- (sp_map_ext env_paths _ p (c_env x) env_paths_eq),
    <- (sp_map_ext registries_paths _ p (c_registries x) registries_paths_eq),
    <- (sp_map_ext target_paths _ p (c_target x) target_paths_eq).
  destruct x. unfold config_paths. paths_done.
Qed.

(** ** [is_none] *)
(** The method [o] computes [f]. *)
Definition computes {A} (o : option (A -> bool)) (f : A -> bool) : Prop :=
  exists g, o = Some g /\ forall x, g x = f x.
Lemma build_none :
  computes (struct_is_none gen_is_none_file (B "de::BuildConfig") (build_members gen_is_none_file)) build_is_none.
Proof.
  eexists; split; [reflexivity |]. intros []. cbn. unfold build_is_none. cbn.
  rewrite ?andb_true_r, ?andb_assoc. reflexivity.
Qed.
Lemma doc_none :
  computes (struct_is_none gen_is_none_file (B "de::DocConfig") (doc_members gen_is_none_file)) doc_is_none.
Proof.
  eexists; split; [reflexivity |]. intros []. cbn. unfold doc_is_none. cbn.
  rewrite ?andb_true_r, ?andb_assoc. reflexivity.
Qed.
Lemma future_none :
  computes (struct_is_none gen_is_none_file (B "de::FutureIncompatReportConfig") future_members) future_is_none.
Proof.
  eexists; split; [reflexivity |]. intros []. cbn. unfold future_is_none. cbn.
  rewrite ?andb_true_r, ?andb_assoc. reflexivity.
Qed.
Lemma cargo_new_none :
  computes (struct_is_none gen_is_none_file (B "de::CargoNewConfig") cargo_new_members) cargo_new_is_none.
Proof.
  eexists; split; [reflexivity |]. intros []. cbn. unfold cargo_new_is_none. cbn.
  rewrite ?andb_true_r, ?andb_assoc. reflexivity.
Qed.
Lemma http_none :
  computes (struct_is_none gen_is_none_file (B "de::HttpConfig") http_members) http_is_none.
Proof.
  eexists; split; [reflexivity |]. intros []. cbn. unfold http_is_none. cbn.
  rewrite ?andb_true_r, ?andb_assoc. reflexivity.
Qed.
Lemma net_none :
  computes (struct_is_none gen_is_none_file (B "de::NetConfig") net_members) net_is_none.
Proof.
  eexists; split; [reflexivity |]. intros []. cbn. unfold net_is_none. cbn.
  rewrite ?andb_true_r, ?andb_assoc. reflexivity.
Qed.
Lemma registry_none :
  computes (struct_is_none gen_is_none_file (B "de::RegistryConfig") registry_members) registry_is_none.
Proof.
  eexists; split; [reflexivity |]. intros []. cbn. unfold registry_is_none. cbn.
  rewrite ?andb_true_r, ?andb_assoc. reflexivity.
Qed.
Lemma term_none :
  computes (struct_is_none gen_is_none_file (B "de::TermConfig") (term_members gen_is_none_file)) term_is_none.
Proof.
  eexists; split; [reflexivity |]. intros []. cbn. unfold term_is_none, progress_is_none. cbn.
  rewrite ?andb_true_r, ?andb_assoc. reflexivity.
Qed.
Lemma progress_none :
  computes (struct_is_none gen_is_none_file (B "de::TermProgress") progress_members) progress_is_none.
Proof.
  eexists; split; [reflexivity |]. intros []. cbn. unfold progress_is_none. cbn.
  rewrite ?andb_true_r, ?andb_assoc. reflexivity.
Qed.
Lemma ebuild_none :
  computes (struct_is_none gen_is_none_file (B "easy::BuildConfig") ebuild_members) ebuild_is_none.
Proof.
  eexists; split; [reflexivity |]. intros []. cbn. unfold ebuild_is_none. cbn.
  rewrite ?andb_true_r, ?andb_assoc. reflexivity.
Qed.
Lemma edoc_none :
  computes (struct_is_none gen_is_none_file (B "easy::DocConfig") edoc_members) edoc_is_none.
Proof.
  eexists; split; [reflexivity |]. intros []. cbn. unfold edoc_is_none. cbn.
  rewrite ?andb_true_r, ?andb_assoc. reflexivity.
Qed.
Lemma efuture_none :
  computes (struct_is_none gen_is_none_file (B "easy::FutureIncompatReportConfig") efuture_members) efuture_is_none.
Proof.
  eexists; split; [reflexivity |]. intros []. cbn. unfold efuture_is_none. cbn.
  rewrite ?andb_true_r, ?andb_assoc. reflexivity.
Qed.
Lemma ecargo_new_none :
  computes (struct_is_none gen_is_none_file (B "easy::CargoNewConfig") ecargo_new_members) ecargo_new_is_none.
Proof.
  eexists; split; [reflexivity |]. intros []. cbn. unfold ecargo_new_is_none. cbn.
  rewrite ?andb_true_r, ?andb_assoc. reflexivity.
Qed.
Lemma ehttp_none :
  computes (struct_is_none gen_is_none_file (B "easy::HttpConfig") ehttp_members) ehttp_is_none.
Proof.
  eexists; split; [reflexivity |]. intros []. cbn. unfold ehttp_is_none. cbn.
  rewrite ?andb_true_r, ?andb_assoc. reflexivity.
Qed.
Lemma enet_none :
  computes (struct_is_none gen_is_none_file (B "easy::NetConfig") enet_members) enet_is_none.
Proof.
  eexists; split; [reflexivity |]. intros []. cbn. unfold enet_is_none. cbn.
  rewrite ?andb_true_r, ?andb_assoc. reflexivity.
Qed.
Lemma eregistry_none :
  computes (struct_is_none gen_is_none_file (B "easy::RegistryConfig") eregistry_members) eregistry_is_none.
Proof.
  eexists; split; [reflexivity |]. intros []. cbn. unfold eregistry_is_none. cbn.
  rewrite ?andb_true_r, ?andb_assoc. reflexivity.
Qed.
Lemma eterm_none :
  computes (struct_is_none gen_is_none_file (B "easy::TermConfig") (eterm_members gen_is_none_file)) eterm_is_none.
Proof.
  eexists; split; [reflexivity |]. intros []. cbn. unfold eterm_is_none, eprogress_is_none. cbn.
  rewrite ?andb_true_r, ?andb_assoc. reflexivity.
Qed.
Lemma eprogress_none :
  computes (struct_is_none gen_is_none_file (B "easy::TermProgressConfig") eprogress_members) eprogress_is_none.
Proof.
  eexists; split; [reflexivity |]. intros []. cbn. unfold eprogress_is_none. cbn.
  rewrite ?andb_true_r, ?andb_assoc. reflexivity.
Qed.

(** ** The fields *)
Ltac by_fields :=
  split; [| split];
  [ repeat (apply Forall_cons; [split; [| split]; intros []; intros; reflexivity |]); apply Forall_nil
  | repeat (apply FOP_cons;
            [ repeat (apply Forall_cons;
                      [ split; [discriminate | intros [] ?; split; intros; reflexivity] |]);
              apply Forall_nil |]);
    apply FOP_nil
  | intros [] [] H;
    repeat match goal with
           | K : Forall ?P ?l |- _ =>
               let l' := eval hnf in l in
               match l' with
               | ?m :: ?r =>
                   change (Forall P (m :: r)) in K;
                   let G := fresh "G" in
                   pose proof (Forall_inv K) as G; apply Forall_inv_tail in K; cbn in G
               | _ => clear K
               end
           end;
    subst; reflexivity ].
