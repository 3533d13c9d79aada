(** Merging, key by key. *)
From Verif.Model Require Import Base Str Path BMap Error Value De Debug Merge.
From Verif.Spec Require Import ConfigSpec.
From Verif.Proof Require Import StrFacts BMapFacts.

(** ** Results *)
Lemma bind_ok {E A A'} (m : res E A) (f : A -> res E A') r :
  bind m f = Ok r <-> exists a, m = Ok a /\ f a = Ok r.
Proof.
  destruct m as [a|e|p]; cbn; split; intros H; eauto; try discriminate H;
    destruct H as (x & Hx & K); try discriminate Hx. now injection Hx as ->.
Qed.
Lemma bind_is_ok {E A A'} (m : res E A) (f : A -> res E A') :
  is_ok (bind m f) = true <-> exists a, m = Ok a /\ is_ok (f a) = true.
Proof.
  destruct m as [a|e|p]; cbn; split; intros H; eauto; try discriminate H;
    destruct H as (x & Hx & K); try discriminate Hx. now injection Hx as ->.
Qed.
Lemma is_ok_iff {E A} (m : res E A) : is_ok m = true <-> exists a, m = Ok a.
Proof. destruct m as [a|e|p]; cbn; split; eauto; try easy; intros [x Hx]; discriminate Hx. Qed.
Lemma bind_panic {E A A'} (m : res E A) (f : A -> res E A') :
  is_panic m = false -> (forall a, m = Ok a -> is_panic (f a) = false) -> is_panic (bind m f) = false.
Proof. destruct m; cbn; auto. Qed.
Lemma map_err_ok {E E' A} (f : E -> E') (m : res E A) a : map_err f m = Ok a <-> m = Ok a.
Proof. destruct m; cbn; split; congruence. Qed.
Lemma with_context_ok {A} c (m : result A) a : with_context c m = Ok a <-> m = Ok a.
Proof. apply map_err_ok. Qed.
Lemma with_context_is_ok {A} c (m : result A) : is_ok (with_context c m) = is_ok m.
Proof. now destruct m. Qed.
Lemma with_context_panic {A} c (m : result A) : is_panic (with_context c m) = is_panic m.
Proof. now destruct m. Qed.

(** ** Two-way combination of views *)
Definition orelse {A} (x y : option A) : option A := match x with Some a => Some a | None => y end.
Definition pick {A} (force : bool) (x y : option A) : option A :=
  if force then orelse y x else orelse x y.

Definition join2 (force : bool) (x y : option (form * list word)) : option (form * list word) :=
  match x, y with
  | _, None => x
  | None, _ => y
  | Some (AsString, a), Some (_, b) => Some (AsString, if force then b else a)
  | Some (AsArray, a), Some (_, b) => Some (AsArray, b ++ a)
  end.
Definition join2p (force : bool) (x y : option (form * list word)) : option (form * list word) :=
  match x, y with
  | _, None => x
  | None, _ => y
  | Some (AsString, a), Some (_, b) => Some (AsString, if force then b else a)
  | Some (AsArray, a), Some (_, b) => Some (AsArray, a ++ b)
  end.

(** ** Leaves *)
Lemma merge_v_eq {A} (x y : option (value A)) force : merge_v x y force = Ok (pick force x y).
Proof. unfold merge_v, merge_opt, merge_leaf, pick. destruct x, y, force; reflexivity. Qed.

Definition flags_view (o : option flags) := option_map flags_words o.
Definition prog_view (o : option path_and_args) := option_map program_words o.
Definition soa_view (o : option string_or_array) : option (form * list word) :=
  match o with
  | Some (SoaString v) => Some (AsString, [v])
  | Some (SoaArray l) => Some (AsArray, l)
  | None => None
  end.
Definition sl_view (o : option string_list) : option (form * list word) :=
  option_map (fun s => (form_of (sl_repr s), sl_list s)) o.

Definition vshape (o : option (form * list word)) : option shape :=
  option_map (fun x => shape_of_form (fst x)) o.

Ltac leaf_cases :=
  repeat match goal with
  | o : option _ |- _ => destruct o
  | r : repr |- _ => destruct r
  | f : flags |- _ => destruct f
  | f : path_and_args |- _ => destruct f
  | f : string_list |- _ => destruct f
  | f : string_or_array |- _ => destruct f
  end.

Lemma merge_flags_opt_ok x y f :
  is_ok (merge_opt merge_flags x y f) = true <-> agree (vshape (flags_view x)) (vshape (flags_view y)).
Proof. leaf_cases; cbn; split; intros; try easy. Qed.
Lemma merge_flags_opt_view x y f r :
  merge_opt merge_flags x y f = Ok r -> flags_view r = join2 f (flags_view x) (flags_view y).
Proof. revert r; leaf_cases; intros r; cbn; intros [= <-]; destruct f; reflexivity. Qed.

Lemma merge_pa_opt_ok x y f :
  is_ok (merge_opt merge_path_and_args x y f) = true <-> agree (vshape (prog_view x)) (vshape (prog_view y)).
Proof. leaf_cases; cbn; split; intros; try easy. Qed.
Lemma merge_pa_opt_view x y f r :
  merge_opt merge_path_and_args x y f = Ok r -> prog_view r = join2p f (prog_view x) (prog_view y).
Proof.
  revert r; leaf_cases; intros r; cbn; intros [= <-]; destruct f; try reflexivity; cbn; unfold program_words; cbn;
    rewrite <- app_assoc; reflexivity.
Qed.

Lemma merge_soa_opt_ok x y f :
  is_ok (merge_opt merge_soa x y f) = true <-> agree (vshape (soa_view x)) (vshape (soa_view y)).
Proof. leaf_cases; cbn; split; intros; try easy. Qed.
Lemma merge_soa_opt_view x y f r :
  merge_opt merge_soa x y f = Ok r -> soa_view r = join2 f (soa_view x) (soa_view y).
Proof. revert r; leaf_cases; intros r; cbn; intros [= <-]; destruct f; reflexivity. Qed.

(** ** Maps *)
Section Maps.
  Context {V : Type} (m : V -> V -> bool -> result V) (d : V -> dbg) (lf : V -> V -> bool -> V).

  Lemma merge_map_ok_iff low this force :
    sorted low ->
    (is_ok (merge_map m d lf this low force) = true
     <-> forall k a b, bget k this = Some a -> bget k low = Some b -> is_ok (m a b force) = true).
  Proof.
    intros S. revert this. induction S as [|[k v] low S IH F]; intros this; cbn [merge_map].
    - split; [|reflexivity]. cbn. easy.
    - assert (Hk : bget k low = None) by now apply bget_below.
      destruct (bget k this) as [e|] eqn:E.
      + rewrite bind_is_ok. split.
        * intros (a & Ha & Hr) k' x y Hx Hy. apply with_context_ok in Ha. cbn in Hy.
          destruct (str_eqb k' k) eqn:Ek.
          -- apply str_eqb_eq in Ek. subst k'. rewrite E in Hx. injection Hx as <-. injection Hy as <-.
             apply is_ok_iff. eauto.
          -- rewrite IH in Hr. apply (Hr k' x y); [|exact Hy]. rewrite bget_binsert, Ek. exact Hx.
        * intros H. assert (Hm : is_ok (m e v force) = true).
          { apply (H k); [exact E|]. cbn. now rewrite str_eqb_refl. }
          apply is_ok_iff in Hm. destruct Hm as [w Hw]. exists w. split; [now apply with_context_ok|].
          apply IH. intros k' x y Hx Hy. rewrite bget_binsert in Hx.
          destruct (str_eqb k' k) eqn:Ek.
          -- apply str_eqb_eq in Ek. subst. congruence.
          -- apply (H k'); [exact Hx|]. cbn. now rewrite Ek.
      + rewrite IH. split; intros H k' x y Hx Hy.
        * cbn in Hy. destruct (str_eqb k' k) eqn:Ek.
          -- apply str_eqb_eq in Ek. subst. congruence.
          -- apply (H k'); [|exact Hy]. rewrite bget_binsert, Ek. exact Hx.
        * rewrite bget_binsert in Hx. destruct (str_eqb k' k) eqn:Ek.
          -- apply str_eqb_eq in Ek. subst. congruence.
          -- apply (H k'); [exact Hx|]. cbn. now rewrite Ek.
  Qed.

  Lemma merge_map_get low this force r :
    sorted low -> merge_map m d lf this low force = Ok r ->
    forall k, match bget k this, bget k low with
              | Some a, Some b => exists c, m a b force = Ok c /\ bget k r = Some c
              | Some a, None => bget k r = Some a
              | None, o => bget k r = o
              end.
  Proof.
    intros S. revert this. induction S as [|[k v] low S IH F]; intros this H; cbn [merge_map] in H.
    - injection H as <-. intros k. cbn. destruct (bget k this); reflexivity.
    - assert (Hk : bget k low = None) by now apply bget_below.
      intros j. destruct (bget k this) as [e|] eqn:E.
      + apply bind_ok in H. destruct H as (a & Ha & Hr). apply with_context_ok in Ha.
        specialize (IH _ Hr j). rewrite bget_binsert in IH. cbn.
        destruct (str_eqb j k) eqn:Ek; [|exact IH].
        apply str_eqb_eq in Ek. subst j. rewrite Hk in IH. rewrite E. eauto.
      + specialize (IH _ H j). rewrite bget_binsert in IH. cbn.
        destruct (str_eqb j k) eqn:Ek; [|exact IH].
        apply str_eqb_eq in Ek. subst j. rewrite Hk in IH. rewrite E. exact IH.
  Qed.

  Lemma merge_map_sorted low this force r :
    sorted this -> merge_map m d lf this low force = Ok r -> sorted r.
  Proof.
    revert this. induction low as [|[k v] low IH]; intros this S H; cbn [merge_map] in H.
    - now injection H as <-.
    - destruct (bget k this).
      + apply bind_ok in H. destruct H as (a & _ & Hr). eapply IH; [|exact Hr]. now apply binsert_sorted.
      + eapply IH; [|exact H]. now apply binsert_sorted.
  Qed.

  Lemma merge_map_panic low this force :
    (forall a b, is_panic (m a b force) = false) -> is_panic (merge_map m d lf this low force) = false.
  Proof.
    intros Hm. revert this. induction low as [|[k v] low IH]; intros this; cbn [merge_map]; [easy|].
    destruct (bget k this); [|apply IH].
    apply bind_panic; [now rewrite with_context_panic|]. intros; apply IH.
  Qed.
End Maps.

(** ** Tables *)
Lemma merge_target_eq a b f :
  merge_target a b f =
  (runner <- merge_opt merge_path_and_args (t_runner a) (t_runner b) f ;;
   rustflags <- merge_opt merge_flags (t_rustflags a) (t_rustflags b) f ;;
   rustdocflags <- merge_opt merge_flags (t_rustdocflags a) (t_rustdocflags b) f ;;
   Ok (mkTarget (pick f (t_linker a) (t_linker b)) runner rustflags rustdocflags)).
Proof. unfold merge_target. rewrite merge_v_eq. reflexivity. Qed.

Lemma merge_build_eq a b f :
  merge_build a b f =
  (target <- merge_opt merge_soa (b_target a) (b_target b) f ;;
   rustflags <- merge_opt merge_flags (b_rustflags a) (b_rustflags b) f ;;
   rustdocflags <- merge_opt merge_flags (b_rustdocflags a) (b_rustdocflags b) f ;;
   Ok (mkBuild (pick f (b_jobs a) (b_jobs b)) (pick f (b_rustc a) (b_rustc b))
         (pick f (b_rustc_wrapper a) (b_rustc_wrapper b))
         (pick f (b_rustc_workspace_wrapper a) (b_rustc_workspace_wrapper b))
         (pick f (b_rustdoc a) (b_rustdoc b)) target (pick f (b_target_dir a) (b_target_dir b))
         rustflags rustdocflags (pick f (b_incremental a) (b_incremental b))
         (pick f (b_dep_info_basedir a) (b_dep_info_basedir b))
         (b_override_target_rustflags a) (b_override_target_rustdocflags a))).
Proof.
  unfold merge_build. rewrite !merge_v_eq. cbn [bind].
  destruct (merge_opt merge_soa _ _ _); cbn [bind]; [|reflexivity|reflexivity].
  destruct (merge_opt merge_flags (b_rustflags a) _ _); cbn [bind]; [|reflexivity|reflexivity].
  destruct (merge_opt merge_flags _ _ _); reflexivity.
Qed.

Lemma merge_http_eq a b f :
  merge_http a b f = Ok (mkHttp (pick f (h_debug a) (h_debug b)) (pick f (h_proxy a) (h_proxy b))
    (pick f (h_timeout a) (h_timeout b)) (pick f (h_cainfo a) (h_cainfo b))
    (pick f (h_check_revoke a) (h_check_revoke b)) (pick f (h_low_speed_limit a) (h_low_speed_limit b))
    (pick f (h_multiplexing a) (h_multiplexing b)) (pick f (h_user_agent a) (h_user_agent b))).
Proof. unfold merge_http. rewrite !merge_v_eq. reflexivity. Qed.
Lemma merge_net_eq a b f :
  merge_net a b f = Ok (mkNet (pick f (n_retry a) (n_retry b))
    (pick f (n_git_fetch_with_cli a) (n_git_fetch_with_cli b)) (pick f (n_offline a) (n_offline b))).
Proof. unfold merge_net. rewrite !merge_v_eq. reflexivity. Qed.
Lemma merge_registries_eq a b f :
  merge_registries a b f = Ok (mkRegistries (pick f (r_index a) (r_index b))
    (pick f (r_token a) (r_token b)) (pick f (r_protocol a) (r_protocol b))).
Proof. unfold merge_registries. rewrite !merge_v_eq. reflexivity. Qed.
Lemma merge_registry_eq a b f :
  merge_registry a b f = Ok (mkRegistry (pick f (rg_default a) (rg_default b))
    (pick f (rg_token a) (rg_token b))).
Proof. unfold merge_registry. rewrite !merge_v_eq. reflexivity. Qed.
Lemma merge_term_eq a b f :
  merge_term a b f = Ok (mkTerm (pick f (tm_quiet a) (tm_quiet b)) (pick f (tm_verbose a) (tm_verbose b))
    (pick f (tm_color a) (tm_color b))
    (mkProgress (pick f (p_when (tm_progress a)) (p_when (tm_progress b)))
                (pick f (p_width (tm_progress a)) (p_width (tm_progress b))))).
Proof. unfold merge_term, merge_progress. rewrite !merge_v_eq. reflexivity. Qed.
Lemma merge_env_eq a b f :
  merge_env_config_value a b f =
  match a, b with
  | EnvValue _, EnvValue _ => Ok (if f then b else a)
  | EnvTable tv tf tr, EnvTable lv lf lr => Ok (EnvTable (if f then lv else tv) (pick f tf lf) (pick f tr lr))
  | _, _ => expected_found (env_kind a) (env_kind b)
  end.
Proof. destruct a, b; try reflexivity. cbn. rewrite !merge_v_eq. reflexivity. Qed.

(** ** Whole configurations *)
Definition cfg_sorted (c : config) : Prop :=
  sorted (c_alias c) /\ sorted (c_env c) /\ sorted (c_registries c) /\ sorted (c_target c).
Lemma tables_in_order_sorted c : tables_in_order c <-> cfg_sorted c.
Proof. unfold tables_in_order, cfg_sorted. now rewrite !in_order_sorted. Qed.

(** The parts of a successful merge. *)
Record merged (a b : config) (f : bool) (r : config) : Prop := mkMerged {
  mg_alias : merge_map merge_string_list dbg_string_list left_whole (c_alias a) (c_alias b) f = Ok (c_alias r);
  mg_target : merge_opt merge_soa (b_target (c_build a)) (b_target (c_build b)) f = Ok (b_target (c_build r));
  mg_rustflags : merge_opt merge_flags (b_rustflags (c_build a)) (b_rustflags (c_build b)) f
                 = Ok (b_rustflags (c_build r));
  mg_rustdocflags : merge_opt merge_flags (b_rustdocflags (c_build a)) (b_rustdocflags (c_build b)) f
                    = Ok (b_rustdocflags (c_build r));
  mg_browser : merge_opt merge_path_and_args (d_browser (c_doc a)) (d_browser (c_doc b)) f
               = Ok (d_browser (c_doc r));
  mg_env : merge_map merge_env_config_value dbg_env_config_value left_whole (c_env a) (c_env b) f = Ok (c_env r);
  mg_registries : merge_map merge_registries dbg_registries left_whole (c_registries a) (c_registries b) f
                  = Ok (c_registries r);
  mg_targets : merge_map merge_target dbg_target left_target (c_target a) (c_target b) f = Ok (c_target r);
  mg_build : c_build r =
    mkBuild (pick f (b_jobs (c_build a)) (b_jobs (c_build b)))
         (pick f (b_rustc (c_build a)) (b_rustc (c_build b)))
         (pick f (b_rustc_wrapper (c_build a)) (b_rustc_wrapper (c_build b)))
         (pick f (b_rustc_workspace_wrapper (c_build a)) (b_rustc_workspace_wrapper (c_build b)))
         (pick f (b_rustdoc (c_build a)) (b_rustdoc (c_build b))) (b_target (c_build r))
         (pick f (b_target_dir (c_build a)) (b_target_dir (c_build b)))
         (b_rustflags (c_build r)) (b_rustdocflags (c_build r))
         (pick f (b_incremental (c_build a)) (b_incremental (c_build b)))
         (pick f (b_dep_info_basedir (c_build a)) (b_dep_info_basedir (c_build b)))
         (b_override_target_rustflags (c_build a)) (b_override_target_rustdocflags (c_build a));
  mg_future : f_frequency (c_future_incompat_report r)
              = pick f (f_frequency (c_future_incompat_report a)) (f_frequency (c_future_incompat_report b));
  mg_new : cn_vcs (c_cargo_new r) = pick f (cn_vcs (c_cargo_new a)) (cn_vcs (c_cargo_new b));
  mg_http : merge_http (c_http a) (c_http b) f = Ok (c_http r);
  mg_net : merge_net (c_net a) (c_net b) f = Ok (c_net r);
  mg_registry : merge_registry (c_registry a) (c_registry b) f = Ok (c_registry r);
  mg_term : merge_term (c_term a) (c_term b) f = Ok (c_term r)
}.

Lemma merge_config_merged a b f r : merge_config a b f = Ok r -> merged a b f r.
Proof.
  unfold merge_config. rewrite merge_build_eq. unfold merge_doc, merge_future, merge_cargo_new.
  rewrite !merge_v_eq. cbn [bind]. intros H.
  repeat match type of H with
  | bind _ _ = Ok _ => apply bind_ok in H; let x := fresh "x" in let E := fresh "E" in
                       destruct H as (x & E & H)
  end.
  injection H as <-.
  repeat match goal with
  | E : bind _ _ = Ok _ |- _ => apply bind_ok in E; let x := fresh "x" in let E' := fresh "E" in
                       destruct E as (x & E' & E)
  end.
  repeat match goal with E : Ok _ = Ok _ |- _ => injection E as <- end.
  constructor; cbn; auto.
Qed.

Definition env_shape (e : env_config_value) : shape :=
  match e with EnvValue _ => Simple | EnvTable _ _ _ => Compound end.

Lemma merge_env_ok a b f : is_ok (merge_env_config_value a b f) = true <-> env_shape a = env_shape b.
Proof. rewrite merge_env_eq. destruct a, b; cbn; split; easy. Qed.
Lemma merge_sl_ok a b f :
  is_ok (merge_string_list a b f) = true <-> form_of (sl_repr a) = form_of (sl_repr b).
Proof. destruct a as [? [|]], b as [? [|]]; cbn; split; easy. Qed.
Lemma merge_target_ok a b f :
  is_ok (merge_target a b f) = true <->
  agree (vshape (prog_view (t_runner a))) (vshape (prog_view (t_runner b)))
  /\ agree (vshape (flags_view (t_rustflags a))) (vshape (flags_view (t_rustflags b)))
  /\ agree (vshape (flags_view (t_rustdocflags a))) (vshape (flags_view (t_rustdocflags b))).
Proof.
  rewrite merge_target_eq, <- (merge_pa_opt_ok _ _ f), <- !(merge_flags_opt_ok _ _ f).
  repeat match goal with |- context [merge_opt ?m ?x ?y ?f] => destruct (merge_opt m x y f) end;
    cbn; split; try easy.
Qed.

Lemma merge_config_ok_split a b f :
  is_ok (merge_config a b f) = true <->
  is_ok (merge_map merge_string_list dbg_string_list left_whole (c_alias a) (c_alias b) f) = true
  /\ is_ok (merge_opt merge_soa (b_target (c_build a)) (b_target (c_build b)) f) = true
  /\ is_ok (merge_opt merge_flags (b_rustflags (c_build a)) (b_rustflags (c_build b)) f) = true
  /\ is_ok (merge_opt merge_flags (b_rustdocflags (c_build a)) (b_rustdocflags (c_build b)) f) = true
  /\ is_ok (merge_opt merge_path_and_args (d_browser (c_doc a)) (d_browser (c_doc b)) f) = true
  /\ is_ok (merge_map merge_env_config_value dbg_env_config_value left_whole (c_env a) (c_env b) f) = true
  /\ is_ok (merge_map merge_registries dbg_registries left_whole (c_registries a) (c_registries b) f) = true
  /\ is_ok (merge_map merge_target dbg_target left_target (c_target a) (c_target b) f) = true.
Proof.
  split.
  - intros H. apply is_ok_iff in H. destruct H as [r H]. apply merge_config_merged in H.
    destruct H as [H1 H2 H3 H4 H5 H6 H7 H8 _ _ _ _ _ _ _].
    rewrite H1, H2, H3, H4, H5, H6, H7, H8. cbn. auto 10.
  - unfold merge_config. rewrite merge_build_eq. unfold merge_doc, merge_future, merge_cargo_new.
    rewrite !merge_v_eq, merge_http_eq, merge_net_eq, merge_registry_eq, merge_term_eq.
    intros (H1 & H2 & H3 & H4 & H5 & H6 & H7 & H8).
    apply is_ok_iff in H1, H2, H3, H4, H5, H6, H7, H8.
    destruct H1 as [? ->], H2 as [? ->], H3 as [? ->], H4 as [? ->], H5 as [? ->], H6 as [? ->],
      H7 as [? ->], H8 as [? ->]. reflexivity.
Qed.

Lemma under_some {V A} (m : bmap V) n (f : V -> option A) a :
  under m n f = Some a <-> exists v, bget n m = Some v /\ f v = Some a.
Proof.
  unfold under. destruct (bget n m) as [v|]; split; intros H; eauto; try easy.
  - destruct H as (w & Hw & K). now injection Hw as ->.
  - destruct H as (w & Hw & K). easy.
Qed.

Lemma agree_under {V} (m m' : bmap V) n {A} (f : V -> option A) :
  agree (under m n f) (under m' n f)
  <-> forall a b, bget n m = Some a -> bget n m' = Some b -> agree (f a) (f b).
Proof.
  unfold under. split.
  - intros H a b Ha Hb. now rewrite Ha, Hb in H.
  - intros H. destruct (bget n m) as [a|]; [|easy]. destruct (bget n m') as [b|].
    + now apply H.
    + now destruct (f a).
Qed.

Lemma omap_under {V A A'} (m : bmap V) n (f : V -> option A) (g : A -> A') :
  option_map g (under m n f) = under m n (fun v => option_map g (f v)).
Proof. unfold under. now destruct (bget n m). Qed.

Lemma merge_ok_iff a b f :
  cfg_sorted b ->
  (is_ok (merge_config a b f) = true <-> forall k, agree (shape_at k a) (shape_at k b)).
Proof.
  intros (S1 & S2 & S3 & S4). rewrite merge_config_ok_split.
  rewrite merge_map_ok_iff by exact S1. rewrite merge_map_ok_iff by exact S2.
  rewrite merge_map_ok_iff by exact S3. rewrite merge_map_ok_iff by exact S4.
  rewrite merge_soa_opt_ok, !merge_flags_opt_ok, merge_pa_opt_ok. split.
  - intros (H1 & H2 & H3 & H4 & H5 & H6 & H7 & H8) [k|k|n].
    + destruct k as [n| | | |t|t]; cbn [shape_at look_list].
      * rewrite !omap_under. apply agree_under. intros x y Hx Hy. cbn.
        specialize (H1 n x y Hx Hy). apply merge_sl_ok in H1. now rewrite H1.
      * exact H2.
      * exact H3.
      * exact H4.
      * rewrite !omap_under. apply agree_under. intros x y Hx Hy.
        specialize (H8 t x y Hx Hy). apply merge_target_ok in H8. apply H8.
      * rewrite !omap_under. apply agree_under. intros x y Hx Hy.
        specialize (H8 t x y Hx Hy). apply merge_target_ok in H8. apply H8.
    + destruct k as [|t]; cbn [shape_at look_program].
      * exact H5.
      * rewrite !omap_under. apply agree_under. intros x y Hx Hy.
        specialize (H8 t x y Hx Hy). apply merge_target_ok in H8. apply H8.
    + cbn [shape_at]. apply agree_under. intros x y Hx Hy. cbn.
      specialize (H6 n x y Hx Hy). apply merge_env_ok in H6. exact H6.
  - intros H. repeat split.
    + intros n x y Hx Hy. specialize (H (ShapeList (Alias n))). cbn [shape_at look_list] in H.
      rewrite !omap_under in H. apply merge_sl_ok.
      pose proof (proj1 (agree_under _ _ _ _) H x y Hx Hy) as K. cbn in K.
      destruct (sl_repr x), (sl_repr y); easy.
    + apply (H (ShapeList BuildTarget)).
    + apply (H (ShapeList BuildRustflags)).
    + apply (H (ShapeList BuildRustdocflags)).
    + apply (H (ShapeProgram DocBrowser)).
    + intros n x y Hx Hy. specialize (H (ShapeEnv n)). cbn [shape_at] in H.
      apply merge_env_ok. apply (proj1 (agree_under _ _ _ _) H x y Hx Hy).
    + intros n x y _ _. rewrite merge_registries_eq. reflexivity.
    + intros n x y Hx Hy. apply merge_target_ok. repeat split.
      * specialize (H (ShapeProgram (TargetRunner n))). cbn [shape_at look_program] in H.
        rewrite !omap_under in H. apply (proj1 (agree_under _ _ _ _) H x y Hx Hy).
      * specialize (H (ShapeList (TargetRustflags n))). cbn [shape_at look_list] in H.
        rewrite !omap_under in H. apply (proj1 (agree_under _ _ _ _) H x y Hx Hy).
      * specialize (H (ShapeList (TargetRustdocflags n))). cbn [shape_at look_list] in H.
        rewrite !omap_under in H. apply (proj1 (agree_under _ _ _ _) H x y Hx Hy).
Qed.

(** Merging maps, seen through a view of the entries. *)
Lemma merge_map_under {V A} m (d : V -> dbg) lf this low force r n (f : V -> option A) op :
  sorted low -> merge_map m d lf this low force = Ok r ->
  (forall x, op (Some x) None = Some x) -> (forall x, op None x = x) ->
  (forall a b c, m a b force = Ok c -> f c = op (f a) (f b)) ->
  under r n f = op (under this n f) (under low n f).
Proof.
  intros S H H1 H2 H3. pose proof (merge_map_get m d lf low this force r S H n) as K.
  unfold under. destruct (bget n this) as [a|], (bget n low) as [b|].
  - destruct K as (c & Hc & ->). now apply H3.
  - rewrite K. destruct (f a); [now rewrite H1 | now rewrite H2].
  - rewrite K. now rewrite H2.
  - rewrite K. now rewrite H2.
Qed.

Lemma pick_none_r {A} f (x : A) : pick f (Some x) None = Some x.
Proof. now destruct f. Qed.
Lemma pick_none_l {A} f (x : option A) : pick f None x = x.
Proof. destruct f; [|easy]. now destruct x. Qed.

Lemma merge_scalar a b f r :
  cfg_sorted b -> merge_config a b f = Ok r ->
  forall A (k : scalar_key A), look k r = pick f (look k a) (look k b).
Proof.
  intros (S1 & S2 & S3 & S4) H A k. apply merge_config_merged in H.
  destruct H as [H1 H2 H3 H4 H5 H6 H7 H8 Hb Hf Hn Hh Hne Hr Ht].
  rewrite merge_http_eq in Hh. injection Hh as Hh. rewrite merge_net_eq in Hne. injection Hne as Hne.
  rewrite merge_registry_eq in Hr. injection Hr as Hr. rewrite merge_term_eq in Ht. injection Ht as Ht.
  destruct k; cbn [look];
    try (rewrite Hb; reflexivity); try (rewrite <- Hh; reflexivity); try (rewrite <- Hne; reflexivity);
    try (rewrite <- Hr; reflexivity); try (rewrite <- Ht; reflexivity); auto.
  - apply (merge_map_under _ _ _ _ _ _ _ _ _ (pick f) S2 H6); auto using pick_none_l, pick_none_r.
    intros x y z Hz. rewrite merge_env_eq in Hz.
    destruct x, y; cbn in Hz; try discriminate Hz; injection Hz as <-; destruct f; reflexivity.
  - apply (merge_map_under _ _ _ _ _ _ _ _ _ (pick f) S2 H6); auto using pick_none_l, pick_none_r.
    intros x y z Hz. rewrite merge_env_eq in Hz.
    destruct x, y; cbn in Hz; try discriminate Hz; injection Hz as <-; destruct f; reflexivity.
  - apply (merge_map_under _ _ _ _ _ _ _ _ _ (pick f) S2 H6); auto using pick_none_l, pick_none_r.
    intros x y z Hz. rewrite merge_env_eq in Hz.
    destruct x, y; cbn in Hz; try discriminate Hz; injection Hz as <-; destruct f; reflexivity.
  - apply (merge_map_under _ _ _ _ _ _ _ _ _ (pick f) S3 H7); auto using pick_none_l, pick_none_r.
    intros x y z Hz. rewrite merge_registries_eq in Hz. injection Hz as <-. reflexivity.
  - apply (merge_map_under _ _ _ _ _ _ _ _ _ (pick f) S3 H7); auto using pick_none_l, pick_none_r.
    intros x y z Hz. rewrite merge_registries_eq in Hz. injection Hz as <-. reflexivity.
  - apply (merge_map_under _ _ _ _ _ _ _ _ _ (pick f) S3 H7); auto using pick_none_l, pick_none_r.
    intros x y z Hz. rewrite merge_registries_eq in Hz. injection Hz as <-. reflexivity.
  - apply (merge_map_under _ _ _ _ _ _ _ _ _ (pick f) S4 H8); auto using pick_none_l, pick_none_r.
    intros x y z Hz. rewrite merge_target_eq in Hz.
    apply bind_ok in Hz. destruct Hz as (? & _ & Hz). apply bind_ok in Hz. destruct Hz as (? & _ & Hz).
    apply bind_ok in Hz. destruct Hz as (? & _ & Hz). injection Hz as <-. reflexivity.
Qed.

Lemma join2_none_r f x : join2 f (Some x) None = Some x.
Proof. destruct x as [[|] ?]; reflexivity. Qed.
Lemma join2_none_l f x : join2 f None x = x.
Proof. now destruct x. Qed.
Lemma join2p_none_r f x : join2p f (Some x) None = Some x.
Proof. destruct x as [[|] ?]; reflexivity. Qed.
Lemma join2p_none_l f x : join2p f None x = x.
Proof. now destruct x. Qed.

Lemma merge_target_parts a b f r :
  merge_target a b f = Ok r ->
  merge_opt merge_path_and_args (t_runner a) (t_runner b) f = Ok (t_runner r)
  /\ merge_opt merge_flags (t_rustflags a) (t_rustflags b) f = Ok (t_rustflags r)
  /\ merge_opt merge_flags (t_rustdocflags a) (t_rustdocflags b) f = Ok (t_rustdocflags r).
Proof.
  rewrite merge_target_eq. intros Hz.
  apply bind_ok in Hz. destruct Hz as (? & ? & Hz). apply bind_ok in Hz. destruct Hz as (? & ? & Hz).
  apply bind_ok in Hz. destruct Hz as (? & ? & Hz). injection Hz as <-. auto.
Qed.

Lemma merge_list a b f r :
  cfg_sorted b -> merge_config a b f = Ok r ->
  forall k, look_list k r = join2 f (look_list k a) (look_list k b).
Proof.
  intros (S1 & S2 & S3 & S4) H k. apply merge_config_merged in H.
  destruct H as [H1 H2 H3 H4 H5 H6 H7 H8 _ _ _ _ _ _ _].
  destruct k as [n| | | |t|t]; cbn [look_list].
  - apply (merge_map_under _ _ _ _ _ _ _ _ _ (join2 f) S1 H1); auto using join2_none_l, join2_none_r.
    intros x y z Hz. destruct x as [? [|]], y as [? [|]]; cbn in Hz; try discriminate Hz;
      injection Hz as <-; destruct f; reflexivity.
  - now apply merge_soa_opt_view.
  - now apply merge_flags_opt_view.
  - now apply merge_flags_opt_view.
  - apply (merge_map_under _ _ _ _ _ _ _ _ _ (join2 f) S4 H8); auto using join2_none_l, join2_none_r.
    intros x y z Hz. apply merge_flags_opt_view. now apply merge_target_parts.
  - apply (merge_map_under _ _ _ _ _ _ _ _ _ (join2 f) S4 H8); auto using join2_none_l, join2_none_r.
    intros x y z Hz. apply merge_flags_opt_view. now apply merge_target_parts.
Qed.

Lemma merge_program a b f r :
  cfg_sorted b -> merge_config a b f = Ok r ->
  forall k, look_program k r = join2p f (look_program k a) (look_program k b).
Proof.
  intros (S1 & S2 & S3 & S4) H k. apply merge_config_merged in H.
  destruct H as [H1 H2 H3 H4 H5 H6 H7 H8 _ _ _ _ _ _ _].
  destruct k as [|t]; cbn [look_program].
  - now apply merge_pa_opt_view.
  - apply (merge_map_under _ _ _ _ _ _ _ _ _ (join2p f) S4 H8); auto using join2p_none_l, join2p_none_r.
    intros x y z Hz. apply merge_pa_opt_view. now apply merge_target_parts.
Qed.

Lemma merge_map_has {V} m (d : V -> dbg) lf this low force r n :
  sorted low -> merge_map m d lf this low force = Ok r ->
  is_some (bget n r) = (is_some (bget n this) || is_some (bget n low))%bool.
Proof.
  intros S H. pose proof (merge_map_get m d lf low this force r S H n) as K.
  destruct (bget n this), (bget n low); try (rewrite K; reflexivity).
  destruct K as (c & _ & ->). reflexivity.
Qed.
Lemma merge_entry a b f r :
  cfg_sorted b -> merge_config a b f = Ok r ->
  forall k, has_entry k r = (has_entry k a || has_entry k b)%bool.
Proof.
  intros (S1 & S2 & S3 & S4) H k. apply merge_config_merged in H.
  destruct H as [H1 H2 H3 H4 H5 H6 H7 H8 _ _ _ _ _ _ _].
  destruct k; cbn [has_entry]; eapply merge_map_has; eauto.
Qed.

Lemma merge_sorted a b f r : cfg_sorted a -> merge_config a b f = Ok r -> cfg_sorted r.
Proof.
  intros (S1 & S2 & S3 & S4) H. apply merge_config_merged in H.
  destruct H as [H1 H2 H3 H4 H5 H6 H7 H8 _ _ _ _ _ _ _].
  repeat split; eapply merge_map_sorted; eauto.
Qed.

Lemma merge_shape a b f r :
  cfg_sorted b -> merge_config a b f = Ok r ->
  forall k, shape_at k r = orelse (shape_at k a) (shape_at k b).
Proof.
  intros S H k. destruct k as [k|k|n]; cbn [shape_at].
  - rewrite (merge_list a b f r S H k).
    destruct (look_list k a) as [[[|] ?]|], (look_list k b) as [[[|] ?]|]; reflexivity.
  - rewrite (merge_program a b f r S H k).
    destruct (look_program k a) as [[[|] ?]|], (look_program k b) as [[[|] ?]|]; reflexivity.
  - destruct S as (_ & S2 & _). apply merge_config_merged in H. destruct H as [_ _ _ _ _ H6 _ _ _ _ _ _ _ _ _].
    apply (merge_map_under _ _ _ _ _ _ _ _ _ orelse S2 H6); [easy|easy|].
    intros x y z Hz. rewrite merge_env_eq in Hz.
    destruct x, y; cbn in Hz; try discriminate Hz; injection Hz as <-; destruct f; reflexivity.
Qed.

Definition overrides (c : config) : bool * bool :=
  (b_override_target_rustflags (c_build c), b_override_target_rustdocflags (c_build c)).
Lemma merge_overrides a b f r : merge_config a b f = Ok r -> overrides r = overrides a.
Proof. intros H. apply merge_config_merged in H. unfold overrides. rewrite (mg_build _ _ _ _ H). reflexivity. Qed.

Lemma merge_opt_panic {A} m (x y : option A) f :
  (forall a b, is_panic (m a b f) = false) -> is_panic (merge_opt m x y f) = false.
Proof.
  intros H. destruct x, y; cbn; try reflexivity. apply bind_panic; [apply H | reflexivity].
Qed.
Lemma merge_flags_panic a b f : is_panic (merge_flags a b f) = false.
Proof. destruct a as [? [|]], b as [? [|]]; reflexivity. Qed.
Lemma merge_pa_panic a b f : is_panic (merge_path_and_args a b f) = false.
Proof. destruct a as [? ? [|]], b as [? ? [|]]; reflexivity. Qed.
Lemma merge_sl_panic a b f : is_panic (merge_string_list a b f) = false.
Proof. destruct a as [? [|]], b as [? [|]]; reflexivity. Qed.
Lemma merge_soa_panic a b f : is_panic (merge_soa a b f) = false.
Proof. destruct a, b; reflexivity. Qed.
Lemma merge_env_panic a b f : is_panic (merge_env_config_value a b f) = false.
Proof. rewrite merge_env_eq. destruct a, b; reflexivity. Qed.
Lemma merge_target_panic a b f : is_panic (merge_target a b f) = false.
Proof.
  rewrite merge_target_eq.
  repeat (apply bind_panic; [apply merge_opt_panic; auto using merge_flags_panic, merge_pa_panic | intros ? _]).
  reflexivity.
Qed.
Lemma merge_config_panic a b f : is_panic (merge_config a b f) = false.
Proof.
  unfold merge_config. rewrite merge_build_eq. unfold merge_doc, merge_future, merge_cargo_new.
  rewrite !merge_v_eq, merge_http_eq, merge_net_eq, merge_registry_eq, merge_term_eq.
  repeat (apply bind_panic;
          [first [apply merge_map_panic; intros; auto using merge_sl_panic, merge_env_panic, merge_target_panic
                 |apply merge_opt_panic; intros; auto using merge_flags_panic, merge_pa_panic, merge_soa_panic
                 |reflexivity|idtac]|intros ? _]); try reflexivity.
Qed.

(** ** A configuration is determined by its keys *)
Definition same_keys (a b : config) : Prop :=
  (forall A (k : scalar_key A), look k a = look k b)
  /\ (forall k, look_list k a = look_list k b)
  /\ (forall k, look_program k a = look_program k b)
  /\ (forall k, has_entry k a = has_entry k b)
  /\ (forall k, shape_at k a = shape_at k b).

Lemma form_of_inj a b : form_of a = form_of b -> a = b.
Proof. now destruct a, b. Qed.
Lemma flags_view_inj a b : flags_view a = flags_view b -> a = b.
Proof.
  destruct a as [[? ?]|], b as [[? ?]|]; cbn; intros H; try discriminate H; [|easy].
  unfold flags_words in H. cbn in H. injection H as H1 H2. apply form_of_inj in H1. now subst.
Qed.
Lemma prog_view_inj a b : prog_view a = prog_view b -> a = b.
Proof.
  destruct a as [[? ? ?]|], b as [[? ? ?]|]; cbn; intros H; try discriminate H; [|easy].
  unfold program_words in H. cbn in H. injection H as H1 H2 H3. apply form_of_inj in H1. now subst.
Qed.
Lemma soa_view_inj a b : soa_view a = soa_view b -> a = b.
Proof.
  destruct a as [[|]|], b as [[|]|]; cbn; intros H; try discriminate H; try injection H as <-; easy.
Qed.
Lemma sl_view_inj a b : sl_view a = sl_view b -> a = b.
Proof.
  destruct a as [[? ?]|], b as [[? ?]|]; cbn; intros H; try discriminate H; [|easy].
  injection H as H1 H2. apply form_of_inj in H1. now subst.
Qed.

Lemma same_keys_eq a b :
  cfg_sorted a -> cfg_sorted b -> overrides a = overrides b -> same_keys a b -> a = b.
Proof.
  intros (A1 & A2 & A3 & A4) (B1 & B2 & B3 & B4) Ho (Hs & Hl & Hp & He & Hsh).
  assert (E1 : c_alias a = c_alias b).
  { apply sorted_ext; auto. intros n. specialize (Hl (Alias n)). cbn in Hl. unfold under in Hl.
    apply sl_view_inj. destruct (bget n (c_alias a)), (bget n (c_alias b)); cbn in *; congruence. }
  assert (E2 : c_env a = c_env b).
  { apply sorted_ext; auto. intros n.
    pose proof (Hs _ (EnvVarValue n)) as K1. pose proof (Hs _ (EnvVarForce n)) as K2.
    pose proof (Hs _ (EnvVarRelative n)) as K3. pose proof (Hsh (ShapeEnv n)) as K4.
    cbn in K1, K2, K3, K4. unfold under in *.
    destruct (bget n (c_env a)) as [[|]|], (bget n (c_env b)) as [[|]|]; cbn in *; congruence. }
  assert (E3 : c_registries a = c_registries b).
  { apply sorted_ext; auto. intros n.
    pose proof (Hs _ (RegistriesIndex n)) as K1. pose proof (Hs _ (RegistriesToken n)) as K2.
    pose proof (Hs _ (RegistriesProtocol n)) as K3. pose proof (He (RegistriesEntry n)) as K4.
    cbn in K1, K2, K3, K4. unfold under in *.
    destruct (bget n (c_registries a)) as [[]|], (bget n (c_registries b)) as [[]|]; cbn in *; congruence. }
  assert (E4 : c_target a = c_target b).
  { apply sorted_ext; auto. intros n.
    pose proof (Hs _ (TargetLinker n)) as K1. pose proof (Hl (TargetRustflags n)) as K2.
    pose proof (Hl (TargetRustdocflags n)) as K3. pose proof (Hp (TargetRunner n)) as K4.
    pose proof (He (TargetEntry n)) as K5.
    cbn in K1, K2, K3, K4, K5. unfold under in *.
    destruct (bget n (c_target a)) as [[]|], (bget n (c_target b)) as [[]|]; cbn in *; try congruence.
    apply flags_view_inj in K2, K3. apply prog_view_inj in K4. congruence. }
  assert (E5 : c_build a = c_build b).
  { pose proof (Hs _ BuildJobs) as K1. pose proof (Hs _ BuildRustc) as K2.
    pose proof (Hs _ BuildRustcWrapper) as K3. pose proof (Hs _ BuildRustcWorkspaceWrapper) as K4.
    pose proof (Hs _ BuildRustdoc) as K5. pose proof (Hs _ BuildTargetDir) as K6.
    pose proof (Hs _ BuildIncremental) as K7. pose proof (Hs _ BuildDepInfoBasedir) as K8.
    pose proof (soa_view_inj _ _ (Hl BuildTarget)) as K9.
    pose proof (flags_view_inj _ _ (Hl BuildRustflags)) as K10.
    pose proof (flags_view_inj _ _ (Hl BuildRustdocflags)) as K11.
    unfold overrides in Ho. cbn in *.
    destruct (c_build a), (c_build b); cbn in *. injection Ho as -> ->. congruence. }
  assert (E6 : c_doc a = c_doc b).
  { pose proof (prog_view_inj _ _ (Hp DocBrowser)) as K. destruct (c_doc a), (c_doc b); cbn in *. congruence. }
  assert (E7 : c_future_incompat_report a = c_future_incompat_report b).
  { pose proof (Hs _ FutureFrequency) as K. cbn in K.
    destruct (c_future_incompat_report a), (c_future_incompat_report b); cbn in *. congruence. }
  assert (E8 : c_cargo_new a = c_cargo_new b).
  { pose proof (Hs _ CargoNewVcs) as K. cbn in K. destruct (c_cargo_new a), (c_cargo_new b); cbn in *. congruence. }
  assert (E9 : c_http a = c_http b).
  { pose proof (Hs _ HttpDebug) as K1. pose proof (Hs _ HttpProxy) as K2. pose proof (Hs _ HttpTimeout) as K3.
    pose proof (Hs _ HttpCainfo) as K4. pose proof (Hs _ HttpCheckRevoke) as K5.
    pose proof (Hs _ HttpLowSpeedLimit) as K6. pose proof (Hs _ HttpMultiplexing) as K7.
    pose proof (Hs _ HttpUserAgent) as K8. cbn in *.
    destruct (c_http a), (c_http b); cbn in *. congruence. }
  assert (E10 : c_net a = c_net b).
  { pose proof (Hs _ NetRetry) as K1. pose proof (Hs _ NetGitFetchWithCli) as K2.
    pose proof (Hs _ NetOffline) as K3. cbn in *. destruct (c_net a), (c_net b); cbn in *. congruence. }
  assert (E11 : c_registry a = c_registry b).
  { pose proof (Hs _ RegistryDefault) as K1. pose proof (Hs _ RegistryToken) as K2. cbn in *.
    destruct (c_registry a), (c_registry b); cbn in *. congruence. }
  assert (E12 : c_term a = c_term b).
  { pose proof (Hs _ TermQuiet) as K1. pose proof (Hs _ TermVerbose) as K2. pose proof (Hs _ TermColor) as K3.
    pose proof (Hs _ TermProgressWhen) as K4. pose proof (Hs _ TermProgressWidth) as K5. cbn in *.
    destruct (c_term a) as [? ? ? []], (c_term b) as [? ? ? []]; cbn in *. congruence. }
  destruct a, b; cbn in *. congruence.
Qed.
