(** What a configuration document says about each key. *)
From Verif.Model Require Import Base Str Path BMap Error Value De Serde.
From Verif.Spec Require Import StrSpec FlagsSpec ConfigSpec EnvSpec LoadSpec SerdeSpec.
From Verif.Proof Require Import StrFacts BMapFacts MergeProof LoadProof FlagsProof EnvTextProof SerdeProof.
From Coq Require Import Lia.

#[local] Arguments B : simpl never.

Lemma entry_tget k l : entry k l = tget k l.
Proof.
  unfold entry. induction l as [|[k' v] l IH]; [reflexivity|]. cbn.
  destruct (str_eqb k k'); [reflexivity|]. exact IH.
Qed.
Lemma entry_in k l u : entry k l = Some u -> In (k, u) l.
Proof.
  rewrite entry_tget. induction l as [|[k' v] l IH]; cbn; [discriminate|].
  destruct (str_eqb k k') eqn:E; [apply str_eqb_eq in E; subst; intros [= ->]; now left|].
  right. auto.
Qed.
Lemma in_entry k l u : NoDup (map fst l) -> In (k, u) l -> entry k l = Some u.
Proof.
  rewrite entry_tget. induction l as [|[k' v] l IH]; cbn; [contradiction|].
  intros N [H|H].
  - injection H as -> ->. now rewrite str_eqb_refl.
  - inversion N as [|x y NI ND]; subst. destruct (str_eqb k k') eqn:E.
    + apply str_eqb_eq in E. subst. exfalso. apply NI. apply in_map_iff. now exists (k', u).
    + auto.
Qed.

Lemma at_path_tab k r l :
  at_path (k :: r) (TomlTab l) = match entry k l with Some u => at_path r u | None => None end.
Proof. reflexivity. Qed.
Lemma at_path_nil t : at_path [] t = Some t.
Proof. reflexivity. Qed.

Lemma fopt_spec {A} l i k (f : toml -> option A) o :
  fopt (FMap l) i k f = Some o ->
  match entry k l with None => o = None | Some u => exists a, f u = Some a /\ o = Some a end.
Proof.
  unfold fopt. rewrite entry_tget. destruct (tget k l) as [u|]; [|congruence].
  destruct (f u) as [a|]; [|discriminate]. intros [= <-]. now exists a.
Qed.
Lemma fdef_spec {A} l i k (d : A) (f : toml -> option A) o :
  fdef (FMap l) i k d f = Some o ->
  match entry k l with None => o = d | Some u => f u = Some o end.
Proof.
  unfold fdef. rewrite entry_tget. destruct (tget k l) as [u|]; congruence.
Qed.

Lemma de_entries_in {V} (f : toml -> option V) l r :
  de_entries f l = Some r ->
  map fst r = map fst l
  /\ (forall k u, In (k, u) l -> exists v, f u = Some v)
  /\ (forall k v, In (k, v) r -> exists u, In (k, u) l /\ f u = Some v)
  /\ (forall k u v, In (k, u) l -> f u = Some v -> In (k, v) r).
Proof.
  revert r. induction l as [|[k t] l IH]; intros r; cbn.
  - intros [= <-]. cbn. repeat split; intros; contradiction.
  - destruct (f t) as [v|] eqn:E; [|discriminate].
    destruct (de_entries f l) as [r'|]; [|discriminate].
    destruct (IH r' eq_refl) as (H1 & H2 & H3 & H4). intros [= <-]. cbn. repeat split.
    + now rewrite H1.
    + intros k' u [H|H]; [injection H as <- <-; now exists v|eauto].
    + intros k' v' [H|H]; [injection H as <- <-; exists t; auto|].
      destruct (H3 _ _ H) as (u & Hu & Hf). exists u; auto.
    + intros k' u v' [H|H] Hf; [injection H as <- <-; left; congruence|right; eauto].
Qed.

Lemma binsert_in {V} k (v : V) m x : In x (binsert k v m) -> x = (k, v) \/ In x m.
Proof.
  induction m as [|[k' v'] m IH]; cbn.
  - intros [<-|[]]; now left.
  - destruct (str_cmp k k'); cbn; intuition.
Qed.
Lemma bget_from_list {V} (l : list (str * V)) k v :
  NoDup (map fst l) -> (bget k (bfrom_list l) = Some v <-> In (k, v) l).
Proof.
  unfold bfrom_list.
  assert (G : forall l m, NoDup (map fst l) ->
    (forall x, In x (map fst l) -> bget x m = None) ->
    (bget k (fold_left (fun m kv => binsert (fst kv) (snd kv) m) l m) = Some v
     <-> bget k m = Some v \/ In (k, v) l)).
  { clear l. induction l as [|[k' v'] l IH]; intros m N F; cbn.
    - tauto.
    - inversion N as [|x y NI ND]; subst. rewrite IH; [|exact ND|].
      + rewrite bget_binsert. destruct (str_eqb k k') eqn:E.
        * apply str_eqb_eq in E. subst k'. rewrite (F k (or_introl eq_refl)).
          split; [intros [[= <-]|H]; auto|]. intros [H|[[= <-]|H]]; auto. discriminate.
        * apply str_eqb_neq in E. split; [intros [H|H]; auto|]. intros [H|[[= ]|H]]; auto. congruence.
      + intros x Hx. rewrite bget_binsert. destruct (str_eqb x k') eqn:E.
        * apply str_eqb_eq in E. subst x. contradiction.
        * apply F. now right. }
  intros N. rewrite G; [|exact N|reflexivity]. cbn. split; [intros [H|H]; [discriminate|exact H]|auto].
Qed.

Lemma de_map_tab {V} (f : toml -> option V) l m :
  de_map f (TomlTab l) = Some m -> NoDup (map fst l) ->
  forall k, match entry k l with
            | None => bget k m = None
            | Some u => exists v, f u = Some v /\ bget k m = Some v
            end.
Proof.
  unfold de_map. destruct (de_entries f l) as [r|] eqn:E; [|discriminate].
  cbn. intros [= <-] N k. apply de_entries_in in E. destruct E as (E1 & E2 & E3 & E4).
  assert (Nr : NoDup (map fst r)) by now rewrite E1.
  destruct (entry k l) as [u|] eqn:Eu.
  - apply entry_in in Eu. destruct (E2 _ _ Eu) as (v & Hv). exists v. split; [exact Hv|].
    apply (bget_from_list _ _ _ Nr). eauto.
  - destruct (bget k (bfrom_list r)) as [v|] eqn:Ev; [|reflexivity].
    apply (bget_from_list _ _ _ Nr) in Ev. destruct (E3 _ _ Ev) as (u & Hu & _).
    apply (in_entry _ _ _ N) in Hu. congruence.
Qed.
Lemma de_map_each {V} (f : toml -> option V) l m k u :
  de_map f (TomlTab l) = Some m -> entry k l = Some u -> exists v, f u = Some v.
Proof.
  unfold de_map. destruct (de_entries f l) as [r|] eqn:E; [|discriminate].
  intros _ Eu. apply entry_in in Eu. apply de_entries_in in E. destruct E as (_ & E & _). eauto.
Qed.
Lemma de_map_ok {V} (f : toml -> option V) l :
  NoDup (map fst l) -> (forall k u, entry k l = Some u -> exists v, f u = Some v) ->
  exists m, de_map f (TomlTab l) = Some m.
Proof.
  intros N H. assert (G : forall k u, In (k, u) l -> exists v, f u = Some v)
    by (intros k u Hin; apply (H k u); now apply in_entry).
  clear H N. unfold de_map. assert (X : exists r, de_entries f l = Some r).
  { induction l as [|[k t] l IH]; [now exists []|]. cbn.
    destruct (G k t (or_introl eq_refl)) as (v & ->).
    destruct IH as (r & ->); [intros k' u' H'; apply (G k' u'); now right|]. eauto. }
  destruct X as (r & ->). cbn. eauto.
Qed.

(** ** Environment entries *)
Lemma de_env_inv t e :
  de_env_config_value t = Some e ->
  (exists s, t = TomlStr s /\ e = EnvValue (unlabelled s))
  \/ (exists l s f r, t = TomlTab l /\ e = EnvTable (unlabelled s) f r
      /\ entry (B "value") l = Some (TomlStr s)
      /\ fopt (FMap l) 1 (B "force") de_vbool = Some f
      /\ fopt (FMap l) 2 (B "relative") de_vbool = Some r).
Proof.
  destruct t; cbn [de_env_config_value]; try discriminate.
  - intros [= <-]. left. eauto.
  - rewrite <- entry_tget. destruct (entry (B "value") l) as [tv|] eqn:Ev; [|discriminate].
    destruct (de_vstr tv) as [v|] eqn:Es; [|discriminate].
    apply de_vstr_iff in Es. destruct Es as (s & -> & ->).
    destruct (fopt (FMap l) 1 (B "force") de_vbool) as [f|] eqn:Ef; [|discriminate].
    destruct (fopt (FMap l) 2 (B "relative") de_vbool) as [r|] eqn:Er; [|discriminate].
    intros [= <-]. right. exists l, s, f, r. auto.
Qed.

(** ** Reading off the sections *)
Ltac split_let H :=
  repeat match type of H with
         | match ?e with Some _ => _ | None => None end = Some _ =>
             let E := fresh "F" in destruct e eqn:E; [|discriminate H]
         end.
Ltac inv_let H :=
  repeat match type of H with
         | match ?e with Some _ => _ | None => None end = Some _ =>
             let E := fresh "F" in destruct e eqn:E; [|discriminate H]
         end;
  injection H as <-.
Ltac as_tab u := cbn [as_fields] in *.


Lemma says_cons {A} s p (P : toml -> A -> Prop) l r :
  says (s :: p) P (TomlTab l) r
  <-> match entry s l with None => r = None | Some u => says p P u r end.
Proof. unfold says. rewrite at_path_tab. destruct (entry s l); reflexivity. Qed.
Lemma says_field {A} l i k (f : toml -> option A) (P : toml -> A -> Prop) o :
  (forall t a, f t = Some a -> P t a) ->
  fopt (FMap l) i k f = Some o -> says [k] P (TomlTab l) o.
Proof.
  intros H E. apply fopt_spec in E. rewrite says_cons. unfold says. rewrite ?at_path_nil.
  destruct (entry k l) as [u|]; [|now subst]. destruct E as (a & E & ->). rewrite at_path_nil. eauto.
Qed.
Lemma says_map {A A'} p (P : toml -> A -> Prop) (P' : toml -> A' -> Prop) (g : A -> A') t o :
  (forall u a, P u a -> P' u (g a)) -> says p P t o -> says p P' t (option_map g o).
Proof.
  unfold says. intros H. destruct (at_path p t); [|intros ->; reflexivity].
  intros (a & HP & ->). exists (g a). split; [auto|reflexivity].
Qed.

(** A value without definition. *)
Definition bare {A} (P : toml -> A -> Prop) (t : toml) (v : value A) : Prop :=
  exists a, P t a /\ v = unlabelled a.
Definition bare_words (P : toml -> form * list str -> Prop) (t : toml) (w : form * list word) : Prop :=
  exists a, P t a /\ w = unlabelled_words a.

Definition proper (l : list (str * toml)) : Prop := NoDup (map fst l).

Section Keys.
Variables (root : list (str * toml)) (c : config).
Hypothesis L : laid_out (TomlTab root).
Hypothesis D : de_config (TomlTab root) = Some c.

Lemma section_tab s u :
  section [s] -> entry s root = Some u -> exists l, u = TomlTab l /\ proper l.
Proof. intros S E. apply (L [s]); [exact S|]. rewrite at_path_tab, E. reflexivity. Qed.
Lemma section_tab2 s k l u :
  section [s; k] -> entry s root = Some (TomlTab l) -> entry k l = Some u ->
  exists l', u = TomlTab l' /\ proper l'.
Proof. intros S E E'. apply (L [s; k]); [exact S|]. rewrite !at_path_tab, E, at_path_tab, E'. reflexivity. Qed.
End Keys.

Ltac is_section := constructor; cbn [In]; tauto.

Lemma doc_sections root c :
  de_config (TomlTab root) = Some c ->
     fdef (FMap root) 0 (B "alias") [] (de_map de_string_list) = Some (c_alias c)
  /\ fdef (FMap root) 1 (B "build") build_default de_build = Some (c_build c)
  /\ fdef (FMap root) 2 (B "doc") doc_default de_doc = Some (c_doc c)
  /\ fdef (FMap root) 3 (B "env") [] (de_map de_env_config_value) = Some (c_env c)
  /\ fdef (FMap root) 4 (B "future-incompat-report") future_default de_future
     = Some (c_future_incompat_report c)
  /\ fdef (FMap root) 5 (B "cargo-new") cargo_new_default de_cargo_new = Some (c_cargo_new c)
  /\ fdef (FMap root) 6 (B "http") http_default de_http = Some (c_http c)
  /\ fdef (FMap root) 7 (B "net") net_default de_net = Some (c_net c)
  /\ fdef (FMap root) 8 (B "registries") [] (de_map de_registries) = Some (c_registries c)
  /\ fdef (FMap root) 9 (B "registry") registry_default de_registry = Some (c_registry c)
  /\ fdef (FMap root) 10 (B "target") [] (de_map de_target) = Some (c_target c)
  /\ fdef (FMap root) 11 (B "term") term_default de_term = Some (c_term c).
Proof.
  unfold de_config. cbn [as_fields]. intros H. inv_let H.
  cbn [c_alias c_build c_doc c_env c_future_incompat_report c_cargo_new c_http c_net c_registries
       c_registry c_target c_term]. repeat split.
Qed.

(** Sections with fixed keys. *)
Lemma says_section {X A} root i s (d : X) f x (g : X -> option A) p P :
  laid_out (TomlTab root) -> section [s] ->
  fdef (FMap root) i s d f = Some x -> g d = None ->
  (forall l, entry s root = Some (TomlTab l) -> f (TomlTab l) = Some x -> says p P (TomlTab l) (g x)) ->
  says (s :: p) P (TomlTab root) (g x).
Proof.
  intros L S F Hd H. apply fdef_spec in F. rewrite says_cons.
  destruct (entry s root) as [u|] eqn:E; [|now subst].
  destruct (section_tab root L s u S E) as (l & -> & _). auto.
Qed.
(** Tables of entries. *)
Lemma says_entry {V A} root i s (f : toml -> option V) m n (g : V -> option A) p P :
  laid_out (TomlTab root) -> section [s] ->
  fdef (FMap root) i s [] (de_map f) = Some m ->
  (forall l u v, entry s root = Some (TomlTab l) -> entry n l = Some u ->
     f u = Some v -> says p P u (g v)) ->
  says (s :: n :: p) P (TomlTab root) (under m n g).
Proof.
  intros L S F H. apply fdef_spec in F. rewrite says_cons. unfold under.
  destruct (entry s root) as [u|] eqn:E; [|now subst].
  destruct (section_tab root L s u S E) as (l & -> & N).
  apply (fun H => de_map_tab _ _ _ H N n) in F. rewrite says_cons.
  destruct (entry n l) as [w|] eqn:En.
  - destruct F as (v & Fv & ->). eauto.
  - now rewrite F.
Qed.

Ltac field_of H :=
  cbn [as_fields] in H; inv_let H; cbn;
  match goal with
  | F : fopt (FMap _) _ ?k _ = Some ?o |- says [?k] _ _ ?o =>
      refine (says_field _ _ _ _ _ _ _ F); intros ? ?;
      first [apply de_vstr_iff | apply de_vbool_iff | apply de_vi32_iff | apply de_vu32_iff
            | apply de_vvcs_iff | apply de_vprotocol_iff | apply de_vcolor_iff | apply de_vwhen_iff
            | apply de_vfrequency_iff]
  end.

Ltac sec F g d :=
  refine (says_section _ _ _ _ _ _ g _ _ _ _ F _ _);
  [assumption | is_section | reflexivity |
   let l := fresh "l" in let E := fresh "E" in let H := fresh "H" in
   intros l E H; unfold d in H].
Ltac ent F :=
  refine (says_entry _ _ _ _ _ _ _ _ _ _ _ F _);
  [assumption | is_section |].

Lemma doc_scalar root c A (k : scalar_key A) :
  laid_out (TomlTab root) -> de_config (TomlTab root) = Some c ->
  says (place k) (bare (stands_for k)) (TomlTab root) (look k c).
Proof.
  intros L D. apply doc_sections in D.
  destruct D as (_ & Fb & _ & Fe & Ff & Fc & Fh & Fn & Frs & Fr & Ft & Fm).
  destruct k; cbn [place stands_for look].
  - sec Fb b_jobs de_build; field_of H.
  - sec Fb b_rustc de_build; field_of H.
  - sec Fb b_rustc_wrapper de_build; field_of H.
  - sec Fb b_rustc_workspace_wrapper de_build; field_of H.
  - sec Fb b_rustdoc de_build; field_of H.
  - sec Fb b_target_dir de_build; field_of H.
  - sec Fb b_incremental de_build; field_of H.
  - sec Fb b_dep_info_basedir de_build; field_of H.
  - ent Fe. intros l u v E En H. apply de_env_inv in H. unfold says. rewrite at_path_nil.
    destruct H as [(s & -> & ->)|(l' & s & f & r & -> & -> & Ev & _)].
    + eexists. split; [|reflexivity]. exists s. split; [now left|reflexivity].
    + eexists. split; [|reflexivity]. exists s. split; [right; eauto|reflexivity].
  - ent Fe. intros l u v E En H. apply de_env_inv in H.
    destruct H as [(s & -> & ->)|(l' & s & f & r & -> & -> & Ev & Ff' & Fr')]; [reflexivity|].
    refine (says_field _ _ _ _ _ _ _ Ff'). intros ? ?. apply de_vbool_iff.
  - ent Fe. intros l u v E En H. apply de_env_inv in H.
    destruct H as [(s & -> & ->)|(l' & s & f & r & -> & -> & Ev & Ff' & Fr')]; [reflexivity|].
    refine (says_field _ _ _ _ _ _ _ Fr'). intros ? ?. apply de_vbool_iff.
  - sec Ff f_frequency de_future; field_of H.
  - sec Fc cn_vcs de_cargo_new; field_of H.
  - sec Fh h_debug de_http; field_of H.
  - sec Fh h_proxy de_http; field_of H.
  - sec Fh h_timeout de_http; field_of H.
  - sec Fh h_cainfo de_http; field_of H.
  - sec Fh h_check_revoke de_http; field_of H.
  - sec Fh h_low_speed_limit de_http; field_of H.
  - sec Fh h_multiplexing de_http; field_of H.
  - sec Fh h_user_agent de_http; field_of H.
  - sec Fn n_retry de_net; field_of H.
  - sec Fn n_git_fetch_with_cli de_net; field_of H.
  - sec Fn n_offline de_net; field_of H.
  - ent Frs. intros l u v E En H. destruct (section_tab2 root L _ _ _ _ (section_registry _) E En) as (l' & -> & _).
    unfold de_registries in H. field_of H.
  - ent Frs. intros l u v E En H. destruct (section_tab2 root L _ _ _ _ (section_registry _) E En) as (l' & -> & _).
    unfold de_registries in H. field_of H.
  - ent Frs. intros l u v E En H. destruct (section_tab2 root L _ _ _ _ (section_registry _) E En) as (l' & -> & _).
    unfold de_registries in H. field_of H.
  - sec Fr rg_default de_registry; field_of H.
  - sec Fr rg_token de_registry; field_of H.
  - ent Ft. intros l u v E En H. destruct (section_tab2 root L _ _ _ _ (section_target _) E En) as (l' & -> & _).
    unfold de_target in H. field_of H.
  - sec Fm tm_quiet de_term; field_of H.
  - sec Fm tm_verbose de_term; field_of H.
  - sec Fm tm_color de_term; field_of H.
  - sec Fm (fun x => p_when (tm_progress x)) de_term. cbn [as_fields] in H. inv_let H. cbn [tm_progress].
    apply fdef_spec in F2. rewrite says_cons. destruct (entry (B "progress") l) as [u|] eqn:Ep; [|now subst].
    destruct (section_tab2 root L _ _ _ _ section_progress E Ep) as (l' & -> & _).
    unfold de_progress in F2. field_of F2.
  - sec Fm (fun x => p_width (tm_progress x)) de_term. cbn [as_fields] in H. inv_let H. cbn [tm_progress].
    apply fdef_spec in F2. rewrite says_cons. destruct (entry (B "progress") l) as [u|] eqn:Ep; [|now subst].
    destruct (section_tab2 root L _ _ _ _ section_progress E Ep) as (l' & -> & _).
    unfold de_progress in F2. field_of F2.
Qed.

Lemma says_field_map {A X} l i k (f : toml -> option A) (g : A -> X) (P : toml -> X -> Prop) o :
  (forall t a, f t = Some a -> P t (g a)) ->
  fopt (FMap l) i k f = Some o -> says [k] P (TomlTab l) (option_map g o).
Proof.
  intros H F. eapply says_map; [|exact (says_field l i k f (fun t a => f t = Some a) o (fun _ _ x => x) F)].
  exact H.
Qed.
Lemma flags_bare t a : de_flags t = Some a -> bare_words list_value t (flags_words a).
Proof. intros H. apply de_flags_iff in H. destruct H as (w & H & E). exists w. now split. Qed.
Lemma program_bare t a : de_path_and_args t = Some a -> bare_words program_value t (program_words a).
Proof. intros H. apply de_program_iff in H. destruct H as (w & H & E). exists w. now split. Qed.

Definition soa_words (o : string_or_array) : form * list word :=
  match o with SoaString v => (AsString, [v]) | SoaArray l => (AsArray, l) end.
Lemma soa_bare t a : de_soa t = Some a -> bare_words target_value t (soa_words a).
Proof.
  intros H. apply de_soa_iff in H. destruct H as (w & H & E). exists w. split; [exact H|].
  destruct a; cbn in *; congruence.
Qed.

Lemma look_target c : look_list BuildTarget c = option_map soa_words (b_target (c_build c)).
Proof. cbn. destruct (b_target (c_build c)) as [[]|]; reflexivity. Qed.

Lemma doc_list root c k :
  laid_out (TomlTab root) -> de_config (TomlTab root) = Some c ->
  says (list_place k) (bare_words (list_stands_for k)) (TomlTab root) (look_list k c).
Proof.
  intros L D. apply doc_sections in D.
  destruct D as (Fa & Fb & _ & _ & _ & _ & _ & _ & _ & _ & Ft & _).
  destruct k; cbn [list_place list_stands_for look_list].
  - ent Fa. intros l u v E En H. apply de_string_list_iff in H. destruct H as (w & H & Ew).
    unfold says. rewrite at_path_nil. eexists. split; [|reflexivity]. exists w. now split.
  - change (says [B "build"; B "target"] (bare_words target_value) (TomlTab root) (look_list BuildTarget c)).
    rewrite look_target.
    sec Fb (fun x => option_map soa_words (b_target x)) de_build. cbn [as_fields] in H. inv_let H. cbn [b_target].
    refine (says_field_map _ _ _ _ _ _ _ soa_bare _). eassumption.
  - sec Fb (fun x => option_map flags_words (b_rustflags x)) de_build. cbn [as_fields] in H. inv_let H.
    refine (says_field_map _ _ _ _ _ _ _ flags_bare _). eassumption.
  - sec Fb (fun x => option_map flags_words (b_rustdocflags x)) de_build. cbn [as_fields] in H. inv_let H.
    refine (says_field_map _ _ _ _ _ _ _ flags_bare _). eassumption.
  - ent Ft. intros l u v E En H. destruct (section_tab2 root L _ _ _ _ (section_target _) E En) as (l' & -> & _).
    unfold de_target in H. cbn [as_fields] in H. inv_let H.
    refine (says_field_map _ _ _ _ _ _ _ flags_bare _). eassumption.
  - ent Ft. intros l u v E En H. destruct (section_tab2 root L _ _ _ _ (section_target _) E En) as (l' & -> & _).
    unfold de_target in H. cbn [as_fields] in H. inv_let H.
    refine (says_field_map _ _ _ _ _ _ _ flags_bare _). eassumption.
Qed.

Lemma doc_program root c k :
  laid_out (TomlTab root) -> de_config (TomlTab root) = Some c ->
  says (program_place k) (bare_words program_value) (TomlTab root) (look_program k c).
Proof.
  intros L D. apply doc_sections in D.
  destruct D as (_ & _ & Fd & _ & _ & _ & _ & _ & _ & _ & Ft & _).
  destruct k; cbn [program_place look_program].
  - sec Fd (fun x => option_map program_words (d_browser x)) de_doc. cbn [as_fields] in H. inv_let H.
    refine (says_field_map _ _ _ _ _ _ _ program_bare _). eassumption.
  - ent Ft. intros l u v E En H. destruct (section_tab2 root L _ _ _ _ (section_target _) E En) as (l' & -> & _).
    unfold de_target in H. cbn [as_fields] in H. inv_let H.
    refine (says_field_map _ _ _ _ _ _ _ program_bare _). eassumption.
Qed.

Lemma map_entry {V} root i s (f : toml -> option V) m n :
  laid_out (TomlTab root) -> section [s] ->
  fdef (FMap root) i s [] (de_map f) = Some m ->
  is_some (bget n m) = is_some (at_path [s; n] (TomlTab root)).
Proof.
  intros L S F. apply fdef_spec in F. rewrite at_path_tab.
  destruct (entry s root) as [u|] eqn:E; [|now subst].
  destruct (section_tab root L s u S E) as (l & -> & N).
  apply (fun H => de_map_tab _ _ _ H N n) in F. rewrite at_path_tab.
  destruct (entry n l) as [w|] eqn:En.
  - destruct F as (v & _ & ->). reflexivity.
  - now rewrite F.
Qed.
Lemma doc_entry root c k :
  laid_out (TomlTab root) -> de_config (TomlTab root) = Some c ->
  has_entry k c = is_some (at_path (entry_place k) (TomlTab root)).
Proof.
  intros L D. apply doc_sections in D.
  destruct D as (Fa & _ & _ & Fe & _ & _ & _ & _ & Frs & _ & Ft & _).
  destruct k; cbn [entry_place has_entry]; eapply map_entry; try eassumption; is_section.
Qed.
Lemma doc_env_shape root c n :
  laid_out (TomlTab root) -> de_config (TomlTab root) = Some c ->
  says [B "env"; n]
    (fun t s => s = match t with TomlTab _ => Compound | _ => Simple end) (TomlTab root)
    (shape_at (ShapeEnv n) c).
Proof.
  intros L D. apply doc_sections in D. destruct D as (_ & _ & _ & Fe & _). cbn [shape_at].
  ent Fe. intros l u v E En H. apply de_env_inv in H. unfold says. rewrite at_path_nil.
  destruct H as [(s & -> & ->)|(l' & s & f & r & -> & -> & Ev & _)]; eexists; now split.
Qed.

(** ** Acceptance *)
Lemma fopt_ok {A} l i k (f : toml -> option A) :
  (forall u, entry k l = Some u -> exists a, f u = Some a) -> exists o, fopt (FMap l) i k f = Some o.
Proof.
  unfold fopt. rewrite entry_tget. destruct (tget k l) as [u|]; [|eauto].
  intros H. destruct (H u eq_refl) as (a & ->). eauto.
Qed.
Lemma fdef_ok {A} l i k (d : A) (f : toml -> option A) :
  (forall u, entry k l = Some u -> exists a, f u = Some a) -> exists o, fdef (FMap l) i k d f = Some o.
Proof.
  unfold fdef. rewrite entry_tget. destruct (tget k l) as [u|]; [|eauto].
  intros H. destruct (H u eq_refl) as (a & ->). eauto.
Qed.

Ltac next_field tac :=
  match goal with
  | |- exists _, match fopt (FMap ?l) ?i ?k ?f with Some _ => _ | None => None end = Some _ =>
      let u := fresh "u" in let Eu := fresh "Eu" in let o := fresh "o" in
      destruct (fopt_ok l i k f) as [o ->]; [intros u Eu; tac u Eu|]
  end.

Lemma one_unl {A} (P : toml -> A -> Prop) (f : toml -> option (value A)) t :
  (forall t v, f t = Some v <-> exists a, P t a /\ v = unlabelled a) ->
  (exists a, P t a) -> exists v, f t = Some v.
Proof. intros H (a & Ha). exists (unlabelled a). apply H. eauto. Qed.

Lemma flags_ok t : (exists w, list_value t w) -> exists f, de_flags t = Some f.
Proof.
  intros ([fm ws] & H). destruct fm.
  - exists (mkFlags (map unlabelled ws) ReprString). apply de_flags_iff. eauto.
  - exists (mkFlags (map unlabelled ws) ReprArray). apply de_flags_iff. eauto.
Qed.
Lemma string_list_ok t : (exists w, list_value t w) -> exists f, de_string_list t = Some f.
Proof.
  intros ([fm ws] & H). destruct fm.
  - exists (mkStringList (map unlabelled ws) ReprString). apply de_string_list_iff. eauto.
  - exists (mkStringList (map unlabelled ws) ReprArray). apply de_string_list_iff. eauto.
Qed.
Lemma soa_ok t : (exists w, target_value t w) -> exists f, de_soa t = Some f.
Proof.
  intros (w & H). inversion H; subst.
  - exists (SoaString (unlabelled s)). apply de_soa_iff. eauto.
  - exists (SoaArray (map unlabelled ws)). apply de_soa_iff. eauto.
Qed.
Lemma program_ok t : (exists w, program_value t w) -> exists f, de_path_and_args t = Some f.
Proof.
  intros ([fm [|w ws]] & H); [now destruct H|]. destruct fm.
  - exists (mkPathAndArgs (unlabelled w) (map unlabelled ws) ReprString). apply de_program_iff. eauto.
  - exists (mkPathAndArgs (unlabelled w) (map unlabelled ws) ReprArray). apply de_program_iff. eauto.
Qed.

Ltac at_it := unfold place, list_place, program_place;
  repeat (rewrite ?at_path_tab;
          match goal with
          | E : entry ?k ?l = Some _ |- context [entry ?k ?l] => rewrite E
          end); rewrite ?at_path_nil; reflexivity.
Ltac fld tac :=
  match goal with
  | |- exists _, match fopt (FMap ?l) ?i ?k ?f with Some _ => _ | None => None end = Some _ =>
      let u := fresh "u" in let Eu := fresh "Eu" in let o := fresh "o" in
      destruct (fopt_ok l i k f) as [o ->]; [intros u Eu; tac u|]
  end.
Ltac sc S K lem :=
  fld ltac:(fun u => apply (one_unl _ _ _ lem); apply (S _ K u); at_it).

Section Accept.
Variable root : list (str * toml).
Hypothesis L : laid_out (TomlTab root).
Hypothesis WS : forall A (k : scalar_key A) u,
  at_path (place k) (TomlTab root) = Some u -> exists a, stands_for k u a.
Hypothesis WL : forall k u,
  at_path (list_place k) (TomlTab root) = Some u -> exists w, list_stands_for k u w.
Hypothesis WP : forall k u,
  at_path (program_place k) (TomlTab root) = Some u -> exists w, program_value u w.

Ltac li K lem := fld ltac:(fun u => apply lem; apply (WL K u); at_it).
Ltac pr K := fld ltac:(fun u => apply program_ok; apply (WP K u); at_it).

Lemma ok_build l : entry (B "build") root = Some (TomlTab l) -> exists x, de_build (TomlTab l) = Some x.
Proof.
  intros E. unfold de_build. cbn [as_fields].
  sc WS BuildJobs de_vi32_iff. sc WS BuildRustc de_vstr_iff. sc WS BuildRustcWrapper de_vstr_iff.
  sc WS BuildRustcWorkspaceWrapper de_vstr_iff. sc WS BuildRustdoc de_vstr_iff.
  li BuildTarget soa_ok. sc WS BuildTargetDir de_vstr_iff. li BuildRustflags flags_ok.
  li BuildRustdocflags flags_ok. sc WS BuildIncremental de_vbool_iff.
  sc WS BuildDepInfoBasedir de_vstr_iff. eauto.
Qed.
Lemma ok_doc l : entry (B "doc") root = Some (TomlTab l) -> exists x, de_doc (TomlTab l) = Some x.
Proof. intros E. unfold de_doc. cbn [as_fields]. pr DocBrowser. eauto. Qed.
Lemma ok_future l :
  entry (B "future-incompat-report") root = Some (TomlTab l) -> exists x, de_future (TomlTab l) = Some x.
Proof. intros E. unfold de_future. cbn [as_fields]. sc WS FutureFrequency de_vfrequency_iff. eauto. Qed.
Lemma ok_cargo_new l : entry (B "cargo-new") root = Some (TomlTab l) -> exists x, de_cargo_new (TomlTab l) = Some x.
Proof. intros E. unfold de_cargo_new. cbn [as_fields]. sc WS CargoNewVcs de_vvcs_iff. eauto. Qed.
Lemma ok_http l : entry (B "http") root = Some (TomlTab l) -> exists x, de_http (TomlTab l) = Some x.
Proof.
  intros E. unfold de_http. cbn [as_fields].
  sc WS HttpDebug de_vbool_iff. sc WS HttpProxy de_vstr_iff. sc WS HttpTimeout de_vu32_iff.
  sc WS HttpCainfo de_vstr_iff. sc WS HttpCheckRevoke de_vbool_iff. sc WS HttpLowSpeedLimit de_vu32_iff.
  sc WS HttpMultiplexing de_vbool_iff. sc WS HttpUserAgent de_vstr_iff. eauto.
Qed.
Lemma ok_net l : entry (B "net") root = Some (TomlTab l) -> exists x, de_net (TomlTab l) = Some x.
Proof.
  intros E. unfold de_net. cbn [as_fields].
  sc WS NetRetry de_vu32_iff. sc WS NetGitFetchWithCli de_vbool_iff. sc WS NetOffline de_vbool_iff. eauto.
Qed.
Lemma ok_registry l : entry (B "registry") root = Some (TomlTab l) -> exists x, de_registry (TomlTab l) = Some x.
Proof.
  intros E. unfold de_registry. cbn [as_fields].
  sc WS RegistryDefault de_vstr_iff. sc WS RegistryToken de_vstr_iff. eauto.
Qed.
Lemma ok_registries l n l' :
  entry (B "registries") root = Some (TomlTab l) -> entry n l = Some (TomlTab l') ->
  exists x, de_registries (TomlTab l') = Some x.
Proof.
  intros E E'. unfold de_registries. cbn [as_fields].
  sc WS (RegistriesIndex n) de_vstr_iff. sc WS (RegistriesToken n) de_vstr_iff.
  sc WS (RegistriesProtocol n) de_vprotocol_iff. eauto.
Qed.
Lemma ok_target l n l' :
  entry (B "target") root = Some (TomlTab l) -> entry n l = Some (TomlTab l') ->
  exists x, de_target (TomlTab l') = Some x.
Proof.
  intros E E'. unfold de_target. cbn [as_fields].
  sc WS (TargetLinker n) de_vstr_iff. pr (TargetRunner n). li (TargetRustflags n) flags_ok.
  li (TargetRustdocflags n) flags_ok. eauto.
Qed.
Lemma ok_progress l l' :
  entry (B "term") root = Some (TomlTab l) -> entry (B "progress") l = Some (TomlTab l') ->
  exists x, de_progress (TomlTab l') = Some x.
Proof.
  intros E E'. unfold de_progress. cbn [as_fields].
  sc WS TermProgressWhen de_vwhen_iff. sc WS TermProgressWidth de_vu32_iff. eauto.
Qed.
Lemma ok_term l : entry (B "term") root = Some (TomlTab l) -> exists x, de_term (TomlTab l) = Some x.
Proof.
  intros E. unfold de_term. cbn [as_fields].
  sc WS TermQuiet de_vbool_iff. sc WS TermVerbose de_vbool_iff. sc WS TermColor de_vcolor_iff.
  destruct (fdef_ok l 3 (B "progress") progress_default de_progress) as [o2 ->]; [|eauto].
  intros u Eu. destruct (section_tab2 root L _ _ _ _ section_progress E Eu) as (l' & -> & _).
  eapply ok_progress; eassumption.
Qed.
Lemma ok_env l n u :
  entry (B "env") root = Some (TomlTab l) -> entry n l = Some u ->
  exists x, de_env_config_value u = Some x.
Proof.
  intros E E'. destruct (WS _ (EnvVarValue n) u) as (s & Hs); [at_it|].
  destruct Hs as [->|(l' & -> & Ev)]; [cbn; eauto|].
  cbn [de_env_config_value]. rewrite <- entry_tget, Ev. cbn [de_vstr de_value de_string].
  change (de_vstr (TomlStr s)) with (Some (mkValue s None)). cbv beta iota.
  sc WS (EnvVarForce n) de_vbool_iff. sc WS (EnvVarRelative n) de_vbool_iff. eauto.
Qed.
Lemma ok_alias l n u :
  entry (B "alias") root = Some (TomlTab l) -> entry n l = Some u ->
  exists x, de_string_list u = Some x.
Proof. intros E E'. apply string_list_ok. apply (WL (Alias n)). at_it. Qed.

Ltac sect lem :=
  match goal with
  | |- exists _, match fdef (FMap ?l) ?i ?k ?d ?f with Some _ => _ | None => None end = Some _ =>
      let u := fresh "u" in let Eu := fresh "Eu" in let o := fresh "o" in let S := fresh "S" in
      destruct (fdef_ok l i k d f) as [o ->];
      [intros u Eu;
       assert (S : section [k]) by is_section;
       destruct (section_tab root L _ _ S Eu) as (? & -> & ?);
       first [eapply lem; eassumption
             | apply de_map_ok; [assumption|]; intros ?n ?w ?En;
               first [eapply lem; eassumption
                     | (assert (S2 : section [k; n]) by constructor;
                        destruct (section_tab2 root L _ _ _ _ S2 Eu En) as (? & -> & _);
                        eapply lem; eassumption)]]
      |]
  end.
Lemma ok_config : exists c, de_config (TomlTab root) = Some c.
Proof.
  unfold de_config. cbn [as_fields].
  sect ok_alias. sect ok_build. sect ok_doc. sect ok_env. sect ok_future. sect ok_cargo_new.
  sect ok_http. sect ok_net. sect ok_registries. sect ok_registry. sect ok_target. sect ok_term.
  eauto.
Qed.
End Accept.

(** ** Mistyped keys *)
Lemma at_path_inv k p t u :
  at_path (k :: p) t = Some u -> exists l v, t = TomlTab l /\ entry k l = Some v /\ at_path p v = Some u.
Proof.
  destruct t; try discriminate. rewrite at_path_tab. destruct (entry k l) as [v|] eqn:E; [|discriminate].
  intros H. now exists l, v.
Qed.
Lemma field_typed {A} l i k (f : toml -> option A) o u :
  fopt (FMap l) i k f = Some o -> entry k l = Some u -> exists a, f u = Some a.
Proof. intros F E. apply fopt_spec in F. rewrite E in F. destruct F as (a & F & _). eauto. Qed.
Lemma unl_one {A} (P : toml -> A -> Prop) (f : toml -> option (value A)) t :
  (forall t v, f t = Some v <-> exists a, P t a /\ v = unlabelled a) ->
  (exists v, f t = Some v) -> exists a, P t a.
Proof. intros H (v & Hv). apply H in Hv. destruct Hv as (a & Ha & _). eauto. Qed.

Ltac walk H :=
  repeat match type of H with
         | at_path (_ :: _) _ = Some _ =>
             let l := fresh "l" in let v := fresh "v" in let Q := fresh "Q" in let E := fresh "E" in
             apply at_path_inv in H; destruct H as (l & v & Q & E & H);
             first [injection Q as <- | subst]
         | at_path [] _ = Some _ => rewrite at_path_nil in H; injection H as H; subst
         end.
Ltac pick :=
  match goal with
  | E : entry ?k ?l = Some _, F : fdef (FMap ?l) _ ?k _ _ = Some _ |- _ =>
      apply fdef_spec in F; rewrite E in F
  | F : de_map ?f (TomlTab ?l) = Some _, E : entry _ ?l = Some _ |- _ =>
      apply (fun H => de_map_each _ _ _ _ _ H E) in F; destruct F as (? & F)
  end.
Ltac fin :=
  match goal with
  | E : entry ?k ?l = Some ?u, F : fopt (FMap ?l) _ ?k _ = Some _ |- _ =>
      apply (fun H => field_typed _ _ _ _ _ _ H E) in F
  end.
Ltac typed_by F :=
  first [ exact (unl_one _ _ _ de_vstr_iff F) | exact (unl_one _ _ _ de_vbool_iff F)
        | exact (unl_one _ _ _ de_vi32_iff F) | exact (unl_one _ _ _ de_vu32_iff F)
        | exact (unl_one _ _ _ de_vvcs_iff F) | exact (unl_one _ _ _ de_vprotocol_iff F)
        | exact (unl_one _ _ _ de_vcolor_iff F) | exact (unl_one _ _ _ de_vwhen_iff F)
        | exact (unl_one _ _ _ de_vfrequency_iff F)
        | (let a := fresh in let w := fresh in let H := fresh in
           destruct F as (a & F); first [apply de_flags_iff in F | apply de_soa_iff in F | apply de_program_iff in F
             | apply de_string_list_iff in F];
           destruct F as (w & H & _); exists w; exact H)].
Ltac open_it d :=
  match goal with
  | F : d (TomlTab _) = Some _ |- _ => unfold d in F; cbn [as_fields] in F; split_let F
  end.
Ltac typed H d := walk H; pick; try pick; open_it d; fin;
  match goal with F : exists _, _ = Some _ |- _ => typed_by F end.

Lemma typed_scalar t c A (k : scalar_key A) u :
  de_config t = Some c -> at_path (place k) t = Some u -> exists a, stands_for k u a.
Proof.
  intros D H.
  assert (T : exists root, t = TomlTab root)
    by (destruct k; cbn [place] in H; apply at_path_inv in H; destruct H as (l & _ & -> & _); eauto).
  destruct T as (root & ->). apply doc_sections in D.
  destruct D as (_ & Fb & _ & Fe & Ff & Fc & Fh & Fn & Frs & Fr & Ft & Fm).
  destruct k; cbn [place stands_for] in *.
  1-8: typed H de_build.
  1-3: walk H; pick; pick; apply de_env_inv in Fe.
  - destruct Fe as [(s & -> & ->)|(l' & s & f & r & -> & -> & Ev & _)]; exists s; [now left|right; eauto].
  - destruct Fe as [(s & Q & ->)|(l' & s & f & r & Q & -> & Ev & Ff' & Fr')]; [discriminate|].
    injection Q as <-. fin. typed_by Ff'.
  - destruct Fe as [(s & Q & ->)|(l' & s & f & r & Q & -> & Ev & Ff' & Fr')]; [discriminate|].
    injection Q as <-. fin. typed_by Fr'.
  - typed H de_future.
  - typed H de_cargo_new.
  - typed H de_http.
  - typed H de_http.
  - typed H de_http.
  - typed H de_http.
  - typed H de_http.
  - typed H de_http.
  - typed H de_http.
  - typed H de_http.
  - typed H de_net.
  - typed H de_net.
  - typed H de_net.
  - typed H de_registries.
  - typed H de_registries.
  - typed H de_registries.
  - typed H de_registry.
  - typed H de_registry.
  - typed H de_target.
  - typed H de_term.
  - typed H de_term.
  - typed H de_term.
  - walk H. pick. open_it de_term. pick. open_it de_progress. fin.
    match goal with F : exists _, _ = Some _ |- _ => typed_by F end.
  - walk H. pick. open_it de_term. pick. open_it de_progress. fin.
    match goal with F : exists _, _ = Some _ |- _ => typed_by F end.
Qed.

Lemma typed_list t c k u :
  de_config t = Some c -> at_path (list_place k) t = Some u -> exists w, list_stands_for k u w.
Proof.
  intros D H.
  assert (T : exists root, t = TomlTab root)
    by (destruct k; cbn [list_place] in H; apply at_path_inv in H; destruct H as (l & _ & -> & _); eauto).
  destruct T as (root & ->). apply doc_sections in D.
  destruct D as (Fa & Fb & _ & _ & _ & _ & _ & _ & _ & _ & Ft & _).
  destruct k; cbn [list_place list_stands_for] in *.
  - walk H. pick. pick. apply de_string_list_iff in Fa. destruct Fa as (w & Hw & _). eauto.
  - typed H de_build.
  - typed H de_build.
  - typed H de_build.
  - typed H de_target.
  - typed H de_target.
Qed.
Lemma typed_program t c k u :
  de_config t = Some c -> at_path (program_place k) t = Some u -> exists w, program_value u w.
Proof.
  intros D H.
  assert (T : exists root, t = TomlTab root)
    by (destruct k; cbn [program_place] in H; apply at_path_inv in H; destruct H as (l & _ & -> & _); eauto).
  destruct T as (root & ->). apply doc_sections in D.
  destruct D as (_ & _ & Fd & _ & _ & _ & _ & _ & _ & _ & Ft & _).
  destruct k; cbn [program_place] in *.
  - typed H de_doc.
  - typed H de_target.
Qed.

Lemma laid_out_root t : laid_out t -> exists root, t = TomlTab root.
Proof. intros L. destruct (L [] t section_root (at_path_nil t)) as (l & -> & _). eauto. Qed.
Lemma accepted_iff t : laid_out t -> ((exists c, de_config t = Some c) <-> well_typed t).
Proof.
  intros L. destruct (laid_out_root t L) as (root & ->). split.
  - intros (c & D). repeat split; intros; [eapply typed_scalar|eapply typed_list|eapply typed_program]; eassumption.
  - intros (WS & WL & WP). now apply ok_config.
Qed.

(** ** Undocumented keys *)
Fixpoint field (k : str) (fs : list (str * schema)) : option schema :=
  match fs with
  | [] => None
  | (k', s) :: r => if str_eqb k' k then Some s else field k r
  end.
Lemma prune_fields fs l :
  prune (Fields fs) (TomlTab l)
  = TomlTab (flat_map (fun kv => match field (fst kv) fs with
                                 | Some s => [(fst kv, prune s (snd kv))]
                                 | None => [] end) l).
Proof.
  cbn [prune]. f_equal. apply flat_map_ext. intros [k v]. cbn [fst snd].
  induction fs as [|[k' s] fs IH]; [reflexivity|]. cbn [field].
  destruct (str_eqb k' k); [reflexivity|exact IH].
Qed.
Lemma tget_prune fs l k s :
  field k fs = Some s ->
  tget k (flat_map (fun kv => match field (fst kv) fs with
                              | Some s => [(fst kv, prune s (snd kv))]
                              | None => [] end) l)
  = option_map (prune s) (tget k l).
Proof.
  intros F. induction l as [|[k' v] l IH]; [reflexivity|]. cbn [flat_map fst snd tget].
  destruct (str_eqb k k') eqn:E.
  - apply str_eqb_eq in E. subst k'. rewrite F. cbn. now rewrite str_eqb_refl.
  - destruct (field k' fs); cbn [app tget]; [|exact IH]. now rewrite E.
Qed.
Lemma prune_leaf t : prune Leaf t = t.
Proof. destruct t; reflexivity. Qed.

Lemma fopt_prune {A} fs l i k (f : toml -> option A) :
  field k fs = Some Leaf ->
  fopt (FMap (flat_map (fun kv => match field (fst kv) fs with
                                  | Some s => [(fst kv, prune s (snd kv))]
                                  | None => [] end) l)) i k f = fopt (FMap l) i k f.
Proof.
  intros F. unfold fopt. rewrite (tget_prune _ _ _ _ F). destruct (tget k l); cbn [option_map]; [|reflexivity].
  now rewrite prune_leaf.
Qed.
Lemma fdef_prune {A} fs l i k s (d : A) (f : toml -> option A) :
  field k fs = Some s -> (forall t, f (prune s t) = f t) ->
  fdef (FMap (flat_map (fun kv => match field (fst kv) fs with
                                  | Some s => [(fst kv, prune s (snd kv))]
                                  | None => [] end) l)) i k d f = fdef (FMap l) i k d f.
Proof.
  intros F H. unfold fdef. rewrite (tget_prune _ _ _ _ F). destruct (tget k l); cbn [option_map]; [apply H|reflexivity].
Qed.
Lemma de_map_prune {V} e (f : toml -> option V) t :
  (forall t, f (prune e t) = f t) -> de_map f (prune (Entries e) t) = de_map f t.
Proof.
  intros H. destruct t; try reflexivity. cbn [prune]. unfold de_map. f_equal.
  induction l as [|[k v] l IH]; [reflexivity|]. cbn. now rewrite H, IH.
Qed.

Ltac prune_struct d :=
  intros t; destruct t; try reflexivity; unfold leaves; rewrite prune_fields; unfold d; cbn [as_fields];
  rewrite !fopt_prune by reflexivity; reflexivity.

Definition s_build := leaves ["jobs"; "rustc"; "rustc-wrapper"; "rustc-workspace-wrapper"; "rustdoc";
                         "target"; "target-dir"; "rustflags"; "rustdocflags"; "incremental";
                         "dep-info-basedir"]%string.
Lemma prune_build : forall t, de_build (prune s_build t) = de_build t.
Proof. unfold s_build. prune_struct de_build. Qed.
Lemma prune_doc : forall t, de_doc (prune (leaves ["browser"%string]) t) = de_doc t.
Proof. prune_struct de_doc. Qed.
Lemma prune_future : forall t, de_future (prune (leaves ["frequency"%string]) t) = de_future t.
Proof. prune_struct de_future. Qed.
Lemma prune_cargo_new : forall t, de_cargo_new (prune (leaves ["vcs"%string]) t) = de_cargo_new t.
Proof. prune_struct de_cargo_new. Qed.
Lemma prune_http : forall t,
  de_http (prune (leaves ["debug"; "proxy"; "timeout"; "cainfo"; "check-revoke"; "low-speed-limit";
                        "multiplexing"; "user-agent"]%string) t) = de_http t.
Proof. prune_struct de_http. Qed.
Lemma prune_net : forall t,
  de_net (prune (leaves ["retry"; "git-fetch-with-cli"; "offline"]%string) t) = de_net t.
Proof. prune_struct de_net. Qed.
Lemma prune_registries : forall t,
  de_registries (prune (leaves ["index"; "token"; "protocol"]%string) t) = de_registries t.
Proof. prune_struct de_registries. Qed.
Lemma prune_registry : forall t,
  de_registry (prune (leaves ["default"; "token"]%string) t) = de_registry t.
Proof. prune_struct de_registry. Qed.
Lemma prune_target : forall t,
  de_target (prune (leaves ["linker"; "runner"; "rustflags"; "rustdocflags"]%string) t) = de_target t.
Proof. prune_struct de_target. Qed.
Lemma prune_progress : forall t,
  de_progress (prune (leaves ["when"; "width"]%string) t) = de_progress t.
Proof. prune_struct de_progress. Qed.
Lemma prune_term : forall t,
  de_term (prune (Fields [(B "quiet", Leaf); (B "verbose", Leaf); (B "color", Leaf);
                        (B "progress", leaves ["when"; "width"]%string)]) t) = de_term t.
Proof.
  intros t. destruct t; try reflexivity. rewrite prune_fields. unfold de_term. cbn [as_fields].
  rewrite !fopt_prune by reflexivity.
  rewrite (fdef_prune _ _ _ _ (leaves ["when"; "width"]%string)) by (reflexivity || exact prune_progress).
  reflexivity.
Qed.
Lemma prune_env : forall t,
  de_env_config_value (prune (leaves ["value"; "force"; "relative"]%string) t) = de_env_config_value t.
Proof.
  intros t. destruct t; try reflexivity. unfold leaves. rewrite prune_fields. unfold de_env_config_value.
  rewrite (tget_prune _ _ _ Leaf) by reflexivity. rewrite !fopt_prune by reflexivity.
  destruct (tget (B "value") l); [|reflexivity]. cbn [option_map]. now rewrite prune_leaf.
Qed.

Ltac pf lem :=
  match goal with
  | |- match fdef (FMap (flat_map _ _)) ?i ?k ?d ?f with _ => _ end = _ =>
      erewrite (fdef_prune _ _ i k _ d f); [|reflexivity|exact lem]
  end.
Lemma de_config_prune t : de_config (prune documented t) = de_config t.
Proof.
  destruct t; try reflexivity. unfold documented. rewrite prune_fields. unfold de_config. cbn [as_fields].
  rewrite (fdef_prune _ l 0 (B "alias") (Entries Leaf)) by
    (reflexivity || (intros; apply de_map_prune; intros; now rewrite prune_leaf)).
  rewrite (fdef_prune _ l 1 (B "build") s_build) by (reflexivity || exact prune_build).
  rewrite (fdef_prune _ l 2 (B "doc") (leaves ["browser"%string])) by (reflexivity || exact prune_doc).
  rewrite (fdef_prune _ l 3 (B "env") (Entries (leaves ["value"; "force"; "relative"]%string))) by
    (reflexivity || (intros; apply de_map_prune; exact prune_env)).
  rewrite (fdef_prune _ l 4 (B "future-incompat-report") (leaves ["frequency"%string]))
    by (reflexivity || exact prune_future).
  rewrite (fdef_prune _ l 5 (B "cargo-new") (leaves ["vcs"%string])) by (reflexivity || exact prune_cargo_new).
  rewrite (fdef_prune _ l 6 (B "http") (leaves ["debug"; "proxy"; "timeout"; "cainfo"; "check-revoke";
    "low-speed-limit"; "multiplexing"; "user-agent"]%string)) by (reflexivity || exact prune_http).
  rewrite (fdef_prune _ l 7 (B "net") (leaves ["retry"; "git-fetch-with-cli"; "offline"]%string))
    by (reflexivity || exact prune_net).
  rewrite (fdef_prune _ l 8 (B "registries") (Entries (leaves ["index"; "token"; "protocol"]%string))) by
    (reflexivity || (intros; apply de_map_prune; exact prune_registries)).
  rewrite (fdef_prune _ l 9 (B "registry") (leaves ["default"; "token"]%string))
    by (reflexivity || exact prune_registry).
  rewrite (fdef_prune _ l 10 (B "target")
    (Entries (leaves ["linker"; "runner"; "rustflags"; "rustdocflags"]%string))) by
    (reflexivity || (intros; apply de_map_prune; exact prune_target)).
  rewrite (fdef_prune _ l 11 (B "term") (Fields [(B "quiet", Leaf); (B "verbose", Leaf); (B "color", Leaf);
    (B "progress", leaves ["when"; "width"]%string)])) by (reflexivity || exact prune_term).
  reflexivity.
Qed.
