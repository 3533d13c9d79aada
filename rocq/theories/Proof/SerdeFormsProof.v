(** Tables written as arrays or dates. *)
From Verif.Model Require Import Base Str Path BMap Error Value De Serde.
From Verif.Spec Require Import StrSpec FlagsSpec ConfigSpec EnvSpec LoadSpec SerdeSpec SerdeFormsSpec.
From Verif.Proof Require Import StrFacts BMapFacts SerdeProof SerdeDocProof.
From Coq Require Import Lia.

#[local] Arguments B : simpl never.

Definition layout_of (k : str) (fs : list (str * layout)) : layout :=
  match find (fun e => str_eqb (fst e) k) fs with Some (_, s) => s | None => Single end.
Fixpoint give (fs : list (str * layout)) (l : list toml) : list (str * toml) :=
  match fs, l with
  | (k, s) :: fs', u :: l' => (k, in_names s u) :: give fs' l'
  | _, _ => []
  end.
Definition rename (fs : list (str * layout)) (kv : str * toml) : str * toml :=
  (fst kv, in_names (layout_of (fst kv) fs) (snd kv)).

Lemma in_names_tab n fs l : in_names (Struct n fs) (TomlTab l) = TomlTab (map (rename fs) l).
Proof.
  cbn [in_names]. f_equal. apply map_ext. intros [k u]. unfold rename. cbn [fst snd]. f_equal.
  unfold layout_of. induction fs as [|[k' s'] fs IH]; [reflexivity|]. cbn [find fst].
  destruct (str_eqb k' k); [reflexivity|exact IH].
Qed.
Lemma in_names_arr n fs l :
  in_names (Struct n fs) (TomlArr l) = if n <=? length l then TomlTab (give fs l) else TomlArr l.
Proof.
  reflexivity.
Qed.

Lemma tget_rename k fs l :
  tget k (map (rename fs) l) = option_map (in_names (layout_of k fs)) (tget k l).
Proof.
  induction l as [|[k' u] l IH]; [reflexivity|]. cbn [map tget]. unfold rename at 1. cbn [fst snd].
  destruct (str_eqb k k') eqn:E; [|exact IH]. apply str_eqb_eq in E. now subst.
Qed.
Lemma tget_give i k s fs l :
  NoDup (map fst fs) -> nth_error fs i = Some (k, s) ->
  tget k (give fs l) = option_map (in_names s) (nth_error l i).
Proof.
  revert i l. induction fs as [|[k' s'] fs IH]; intros i l N H; [destruct i; discriminate|].
  inversion N as [|x y NI ND]; subst. cbn [map fst] in NI. destruct i as [|i]; cbn [nth_error] in H.
  - injection H as -> ->. destruct l as [|u l]; [reflexivity|]. cbn. now rewrite str_eqb_refl.
  - destruct l as [|u l]; [reflexivity|]. cbn [give tget nth_error].
    destruct (str_eqb k k') eqn:E; [|now apply IH]. apply str_eqb_eq in E. subst k'. exfalso. apply NI.
    apply nth_error_In in H. apply (in_map fst) in H. exact H.
Qed.
Lemma layout_nth i k s fs : NoDup (map fst fs) -> nth_error fs i = Some (k, s) -> layout_of k fs = s.
Proof.
  revert i. induction fs as [|[k' s'] fs IH]; intros i N H; [destruct i; discriminate|].
  inversion N as [|x y NI ND]; subst. cbn [map fst] in NI. unfold layout_of. cbn [find fst].
  destruct i as [|i]; cbn [nth_error] in H.
  - injection H as -> ->. now rewrite str_eqb_refl.
  - destruct (str_eqb k' k) eqn:E; [|exact (IH i ND H)]. apply str_eqb_eq in E. subst k'. exfalso. apply NI.
    apply nth_error_In in H. apply (in_map fst) in H. exact H.
Qed.

(** Reading the fields of a table and of the same table with names. *)
Definition same_fields (n : nat) (fs : list (str * layout)) (src src' : fields) : Prop :=
  (forall A (f : toml -> option A) i k s, nth_error fs i = Some (k, s) -> i < n ->
     (forall u, f (in_names s u) = f u) -> fopt src' i k f = fopt src i k f)
  /\ (forall A (d : A) (f : toml -> option A) i k s, nth_error fs i = Some (k, s) ->
        (forall u, f (in_names s u) = f u) -> fdef src' i k d f = fdef src i k d f).
Lemma same_fields_refl n fs src : same_fields n fs src src.
Proof. split; reflexivity. Qed.

Lemma fields_named n fs t :
  NoDup (map fst fs) ->
  match as_fields t, as_fields (in_names (Struct n fs) t) with
  | Some src, Some src' => same_fields n fs src src'
  | None, None => True
  | _, _ => False
  end.
Proof.
  intros N. destruct t as [b|z|s|s|d|l|l]; try exact I.
  - cbn. apply same_fields_refl.
  - rewrite in_names_arr. destruct (n <=? length l) eqn:L; cbn [as_fields]; [|apply same_fields_refl].
    apply Nat.leb_le in L. split.
    + intros A f i k s Hi Li Hf. unfold fopt. rewrite (tget_give i k s fs l N Hi).
      destruct (nth_error l i) as [u|] eqn:E; cbn [option_map]; [now rewrite Hf|].
      apply nth_error_None in E. lia.
    + intros A d f i k s Hi Hf. unfold fdef. rewrite (tget_give i k s fs l N Hi).
      destruct (nth_error l i) as [u|] eqn:E; cbn [option_map]; [now rewrite Hf|reflexivity].
  - rewrite in_names_tab. cbn [as_fields]. split.
    + intros A f i k s Hi Li Hf. unfold fopt. rewrite (tget_rename k fs l), (layout_nth i k s fs N Hi).
      destruct (tget k l) as [u|]; cbn [option_map]; [now rewrite Hf|reflexivity].
    + intros A d f i k s Hi Hf. unfold fdef. rewrite (tget_rename k fs l), (layout_nth i k s fs N Hi).
      destruct (tget k l) as [u|]; cbn [option_map]; [now rewrite Hf|reflexivity].
Qed.

Lemma de_entries_rename {V} (f : toml -> option V) e l :
  (forall u, f (in_names e u) = f u) ->
  de_entries f (map (fun kv => (fst kv, in_names e (snd kv))) l) = de_entries f l.
Proof.
  intros H. induction l as [|[k u] l IH]; [reflexivity|]. cbn [map de_entries fst snd]. now rewrite H, IH.
Qed.
Lemma de_map_named {V} (f : toml -> option V) e t :
  (forall u, f (in_names e u) = f u) -> de_map f (in_names (Named e) t) = de_map f t.
Proof.
  intros H. destruct t; try reflexivity. cbn [in_names de_map]. now rewrite de_entries_rename.
Qed.

(** ** Each table *)
Ltac distinct := vm_compute; repeat constructor; cbn; intuition discriminate.
Definition lay (p : list str) : layout :=
  fold_left (fun s k => match s with Struct _ fs => layout_of k fs | Named e => e | Single => Single end) p reading_order.

Lemma struct_named {A} (d : toml -> option A) (g : fields -> option A) n fs :
  NoDup (map fst fs) ->
  (forall t, d t = match as_fields t with Some s => g s | None => None end) ->
  (forall src src', same_fields n fs src src' -> g src' = g src) ->
  forall t, d (in_names (Struct n fs) t) = d t.
Proof.
  intros N D G t. rewrite !D. pose proof (fields_named n fs t N) as F.
  destruct (as_fields t) as [src|], (as_fields (in_names (Struct n fs) t)) as [src'|]; try contradiction; [|reflexivity].
  now apply G.
Qed.

Ltac one :=
  match goal with
  | FO : forall A (f : toml -> option A) i k s, _ -> _ -> _ -> fopt ?src' i k f = fopt ?src i k f |- context [fopt ?src' ?i ?k ?f] =>
      rewrite (FO _ f i k _ eq_refl ltac:(cbn; lia) ltac:(intros; reflexivity))
  | FD : forall A (d : A) (f : toml -> option A) i k s, _ -> _ -> fdef ?src' i k d f = fdef ?src i k d f |- context [fdef ?src' ?i ?k ?d ?f] =>
      rewrite (FD _ d f i k _ eq_refl ltac:(intros; first [reflexivity | eauto]))
  end.
Ltac table d :=
  eapply struct_named; [distinct|intros; unfold d; reflexivity|
    cbv beta; intros src src' [FO FD]; repeat one; reflexivity].

Lemma named_build t : de_build (in_names (lay [B "build"]) t) = de_build t.
Proof. revert t. table de_build. Qed.
Lemma named_doc t : de_doc (in_names (lay [B "doc"]) t) = de_doc t.
Proof. revert t. table de_doc. Qed.
Lemma named_future t : de_future (in_names (lay [B "future-incompat-report"]) t) = de_future t.
Proof. revert t. table de_future. Qed.
Lemma named_cargo_new t : de_cargo_new (in_names (lay [B "cargo-new"]) t) = de_cargo_new t.
Proof. revert t. table de_cargo_new. Qed.
Lemma named_http t : de_http (in_names (lay [B "http"]) t) = de_http t.
Proof. revert t. table de_http. Qed.
Lemma named_net t : de_net (in_names (lay [B "net"]) t) = de_net t.
Proof. revert t. table de_net. Qed.
Lemma named_registry t : de_registry (in_names (lay [B "registry"]) t) = de_registry t.
Proof. revert t. table de_registry. Qed.
Lemma named_registries t : de_registries (in_names (lay [B "registries"; []]) t) = de_registries t.
Proof. revert t. table de_registries. Qed.
Lemma named_target t : de_target (in_names (lay [B "target"; []]) t) = de_target t.
Proof. revert t. table de_target. Qed.
Lemma named_progress t : de_progress (in_names (lay [B "term"; B "progress"]) t) = de_progress t.
Proof. revert t. table de_progress. Qed.
Lemma named_term t : de_term (in_names (lay [B "term"]) t) = de_term t.
Proof.
  revert t. eapply struct_named; [distinct|intros; unfold de_term; reflexivity|].
  cbv beta. intros src src' [FO FD]. repeat one.
  rewrite (FD _ progress_default de_progress 3 (B "progress") _ eq_refl named_progress). reflexivity.
Qed.

Lemma named_config t : de_config (in_names reading_order t) = de_config t.
Proof.
  revert t. eapply struct_named; [distinct|intros; unfold de_config; reflexivity|].
  cbv beta. intros src src' [_ FD].
  rewrite (FD _ [] (de_map de_string_list) 0 (B "alias") _ eq_refl (fun u => de_map_named de_string_list Single u (fun _ => eq_refl))).
  rewrite (FD _ build_default de_build 1 (B "build") _ eq_refl named_build).
  rewrite (FD _ doc_default de_doc 2 (B "doc") _ eq_refl named_doc).
  rewrite (FD _ [] (de_map de_env_config_value) 3 (B "env") _ eq_refl (fun u => de_map_named de_env_config_value Single u (fun _ => eq_refl))).
  rewrite (FD _ future_default de_future 4 (B "future-incompat-report") _ eq_refl named_future).
  rewrite (FD _ cargo_new_default de_cargo_new 5 (B "cargo-new") _ eq_refl named_cargo_new).
  rewrite (FD _ http_default de_http 6 (B "http") _ eq_refl named_http).
  rewrite (FD _ net_default de_net 7 (B "net") _ eq_refl named_net).
  rewrite (FD _ [] (de_map de_registries) 8 (B "registries") _ eq_refl (fun u => de_map_named de_registries _ u named_registries)).
  rewrite (FD _ registry_default de_registry 9 (B "registry") _ eq_refl named_registry).
  rewrite (FD _ [] (de_map de_target) 10 (B "target") _ eq_refl (fun u => de_map_named de_target _ u named_target)).
  rewrite (FD _ term_default de_term 11 (B "term") _ eq_refl named_term).
  reflexivity.
Qed.

(** ** What is accepted has tables everywhere *)
Definition becomes_table (s : layout) (t : toml) : Prop := exists l, in_names s t = TomlTab l.

Lemma fopt_seq {A} l i k (f : toml -> option A) o : fopt (FSeq l) i k f = Some o -> i < length l.
Proof.
  unfold fopt. destruct (nth_error l i) eqn:E; [|discriminate]. intros _.
  apply nth_error_Some. congruence.
Qed.
Lemma struct_table {A} (d : toml -> option A) (g : fields -> option A) n fs :
  (forall t, d t = match as_fields t with Some s => g s | None => None end) ->
  (forall l x, g (FSeq l) = Some x -> n <= length l) ->
  forall t x, d t = Some x -> becomes_table (Struct n fs) t.
Proof.
  intros D G t x H. rewrite D in H. unfold becomes_table. destruct t as [b|z|s|s|dt|l|l]; try discriminate H.
  - now eexists.
  - cbn [as_fields] in H. apply G in H. apply Nat.leb_le in H. rewrite in_names_arr, H. now eexists.
  - rewrite in_names_tab. now eexists.
Qed.
Ltac last_field :=
  cbv beta; intros l x H;
  repeat match type of H with
         | match ?e with _ => _ end = Some _ =>
             let E := fresh "E" in destruct e eqn:E; [|discriminate H];
             match type of E with fopt _ _ _ _ = _ => apply fopt_seq in E | _ => idtac end
         end; cbn; lia.
Ltac tab d := eapply struct_table; [intros; unfold d; reflexivity|last_field].

Lemma table_build t x : de_build t = Some x -> becomes_table (lay [B "build"]) t.
Proof. revert t x. tab de_build. Qed.
Lemma table_doc t x : de_doc t = Some x -> becomes_table (lay [B "doc"]) t.
Proof. revert t x. tab de_doc. Qed.
Lemma table_future t x : de_future t = Some x -> becomes_table (lay [B "future-incompat-report"]) t.
Proof. revert t x. tab de_future. Qed.
Lemma table_cargo_new t x : de_cargo_new t = Some x -> becomes_table (lay [B "cargo-new"]) t.
Proof. revert t x. tab de_cargo_new. Qed.
Lemma table_http t x : de_http t = Some x -> becomes_table (lay [B "http"]) t.
Proof. revert t x. tab de_http. Qed.
Lemma table_net t x : de_net t = Some x -> becomes_table (lay [B "net"]) t.
Proof. revert t x. tab de_net. Qed.
Lemma table_registry t x : de_registry t = Some x -> becomes_table (lay [B "registry"]) t.
Proof. revert t x. tab de_registry. Qed.
Lemma table_registries t x : de_registries t = Some x -> becomes_table (lay [B "registries"; []]) t.
Proof. revert t x. tab de_registries. Qed.
Lemma table_target t x : de_target t = Some x -> becomes_table (lay [B "target"; []]) t.
Proof. revert t x. tab de_target. Qed.
Lemma table_progress t x : de_progress t = Some x -> becomes_table (lay [B "term"; B "progress"]) t.
Proof. revert t x. tab de_progress. Qed.
Lemma table_term t x : de_term t = Some x -> becomes_table (lay [B "term"]) t.
Proof. revert t x. tab de_term. Qed.
Lemma table_config t x : de_config t = Some x -> becomes_table reading_order t.
Proof. revert t x. tab de_config. Qed.
Lemma table_map {V} (f : toml -> option V) e t x : de_map f t = Some x -> becomes_table (Named e) t.
Proof. destruct t; cbn; try discriminate; intros _; now eexists. Qed.

Definition tidy (s : layout) (u : toml) : Prop := exists u0, u = in_names s u0 /\ no_repeats u0.

Lemma no_repeats_entry k u l : no_repeats (TomlTab l) -> In (k, u) l -> no_repeats u.
Proof. intros N H x W. apply N. eapply within_table; eassumption. Qed.
Lemma no_repeats_item u l : no_repeats (TomlArr l) -> In u l -> no_repeats u.
Proof. intros N H x W. apply N. eapply within_array; eassumption. Qed.
Lemma no_repeats_text s : no_repeats (TomlStr s).
Proof. intros l W. inversion W. Qed.
Lemma text_named e s : in_names e (TomlStr s) = TomlStr s.
Proof. now destruct e. Qed.

Lemma give_keys fs l : exists r, map fst fs = map fst (give fs l) ++ r.
Proof.
  revert l. induction fs as [|[k s] fs IH]; intros [|u l]; cbn; try (now eexists).
  destruct (IH l) as (r & ->). now exists r.
Qed.
Lemma NoDup_prefix {A} (l r : list A) : NoDup (l ++ r) -> NoDup l.
Proof.
  induction l as [|x l IH]; [constructor|]. cbn. intros H. inversion H as [|y z NI ND]; subst.
  constructor; [intros Hin; apply NI; apply in_or_app; now left|now apply IH].
Qed.

Lemma tidy_child n fs k l u :
  NoDup (map fst fs) -> tidy (Struct n fs) (TomlTab l) -> entry k l = Some u -> tidy (layout_of k fs) u.
Proof.
  intros N (t & E & R) Hu. rewrite entry_tget in Hu. destruct t as [b|z|s|s|d|ts|ts]; try discriminate E.
  - cbn [in_names] in E. injection E as ->. cbn [tget] in Hu.
    destruct (str_eqb k _); [|discriminate]. injection Hu as <-. exists (TomlStr d).
    split; [now rewrite text_named|apply no_repeats_text].
  - rewrite in_names_arr in E. destruct (n <=? length ts); [|discriminate]. injection E as ->.
    assert (X : exists i s, nth_error fs i = Some (k, s)).
    { revert ts Hu R. induction fs as [|[k' s'] fs IH]; intros [|x ts] Hu R; try discriminate. cbn [give tget] in Hu.
      destruct (str_eqb k k') eqn:Ek; [apply str_eqb_eq in Ek; subst; now exists 0, s'|].
      inversion N; subst. destruct (IH H2 ts Hu) as (i & s & H); [|now exists (S i), s].
      intros l0 W. apply R. inversion W; subst. eapply within_array; [right; eassumption|eassumption]. }
    destruct X as (i & s & Hi). rewrite (tget_give i k s fs ts N Hi) in Hu.
    destruct (nth_error ts i) as [u0|] eqn:E0; [|discriminate]. injection Hu as <-.
    exists u0. rewrite (layout_nth i k s fs N Hi). split; [reflexivity|].
    apply nth_error_In in E0. exact (no_repeats_item _ _ R E0).
  - rewrite in_names_tab in E. injection E as ->. rewrite tget_rename in Hu.
    destruct (tget k ts) as [u0|] eqn:E0; [|discriminate]. injection Hu as <-.
    exists u0. split; [reflexivity|]. rewrite <- entry_tget in E0. apply entry_in in E0.
    exact (no_repeats_entry _ _ _ R E0).
Qed.
Lemma tidy_named e k l u : tidy (Named e) (TomlTab l) -> entry k l = Some u -> tidy e u.
Proof.
  intros (t & E & R) Hu. apply entry_in in Hu. destruct t as [b|z|s|s|d|ts|ts]; try discriminate E.
  - cbn [in_names] in E. injection E as ->. destruct Hu as [Hu|[]]. injection Hu as _ <-. exists (TomlStr d).
    split; [now rewrite text_named|apply no_repeats_text].
  - cbn [in_names] in E. injection E as ->. apply in_map_iff in Hu. destruct Hu as ([k' u0] & [= _ <-] & Hin).
    exists u0. split; [reflexivity|]. exact (no_repeats_entry _ _ _ R Hin).
Qed.
Lemma tidy_keys s l :
  match s with Struct _ fs => NoDup (map fst fs) | _ => True end ->
  tidy s (TomlTab l) -> NoDup (map fst l).
Proof.
  intros N (t & E & R). destruct s as [|n fs|e].
  - cbn in E. subst t. apply R. constructor.
  - destruct t as [b|z|s|s|d|ts|ts]; try discriminate E.
    + cbn in E. injection E as ->. repeat constructor. intros [].
    + rewrite in_names_arr in E. destruct (n <=? length ts); [|discriminate]. injection E as ->.
      destruct (give_keys fs ts) as (r & Er). rewrite Er in N. exact (NoDup_prefix _ _ N).
    + rewrite in_names_tab in E. injection E as ->. rewrite map_map. cbn [rename fst]. apply R. constructor.
  - destruct t as [b|z|s|s|d|ts|ts]; try discriminate E.
    + cbn in E. injection E as ->. repeat constructor. intros [].
    + cbn [in_names] in E. injection E as ->. rewrite map_map. cbn [fst]. apply R. constructor.
Qed.

(** Something tidy that can be read is a table. *)
Lemma tidy_table {A} (d : toml -> option A) s u x :
  (forall t, d (in_names s t) = d t) -> (forall t x, d t = Some x -> becomes_table s t) ->
  match s with Struct _ fs => NoDup (map fst fs) | _ => True end ->
  tidy s u -> d u = Some x -> exists l, u = TomlTab l /\ NoDup (map fst l).
Proof.
  intros D T N Hu Hx. pose proof Hu as (u0 & -> & R). rewrite D in Hx. destruct (T _ _ Hx) as (l & E).
  exists l. split; [exact E|]. rewrite E in Hu. exact (tidy_keys _ _ N Hu).
Qed.

Lemma reading_order_distinct : NoDup (map fst (match reading_order with Struct _ fs => fs | _ => [] end)).
Proof. distinct. Qed.

Lemma accepted_laid_out t c :
  no_repeats t -> de_config t = Some c -> laid_out (in_names reading_order t).
Proof.
  intros R D. rewrite <- named_config in D.
  assert (T : tidy reading_order (in_names reading_order t)) by (now exists t).
  destruct (tidy_table de_config reading_order _ c named_config table_config reading_order_distinct T D)
    as (root & E & Nr).
  rewrite E in *. clear t E R.
  destruct (doc_sections root c D) as (F0 & F1 & F2 & F3 & F4 & F5 & F6 & F7 & F8 & F9 & F10 & F11).
  assert (C : forall s u, entry s root = Some u -> tidy (lay [s]) u)
    by (intros s u; exact (tidy_child 0 _ s root u reading_order_distinct T)).
  intros p u S Hu. destruct S as [|s Hs| |n|n].
  - injection Hu as <-. now exists root.
  - rewrite at_path_tab in Hu. destruct (entry s root) as [u'|] eqn:Es; [|discriminate]. injection Hu as ->.
    pose proof (C s u Es) as Tu. cbn [In] in Hs.
    repeat (destruct Hs as [<-|Hs]); try contradiction;
      match goal with F : fdef _ _ ?k _ _ = Some _, Es : entry ?k _ = Some _ |- _ => apply fdef_spec in F; rewrite Es in F end.
    + exact (tidy_table _ _ u _ (fun t => de_map_named de_string_list Single t (fun _ => eq_refl)) (table_map _ _) I Tu F0).
    + exact (tidy_table de_build _ u _ named_build table_build ltac:(distinct) Tu F1).
    + exact (tidy_table de_doc _ u _ named_doc table_doc ltac:(distinct) Tu F2).
    + exact (tidy_table _ _ u _ (fun t => de_map_named de_env_config_value Single t (fun _ => eq_refl)) (table_map _ _) I Tu F3).
    + exact (tidy_table de_future _ u _ named_future table_future ltac:(distinct) Tu F4).
    + exact (tidy_table de_cargo_new _ u _ named_cargo_new table_cargo_new ltac:(distinct) Tu F5).
    + exact (tidy_table de_http _ u _ named_http table_http ltac:(distinct) Tu F6).
    + exact (tidy_table de_net _ u _ named_net table_net ltac:(distinct) Tu F7).
    + exact (tidy_table _ _ u _ (fun t => de_map_named de_registries _ t named_registries) (table_map _ _) I Tu F8).
    + exact (tidy_table de_registry _ u _ named_registry table_registry ltac:(distinct) Tu F9).
    + exact (tidy_table _ _ u _ (fun t => de_map_named de_target _ t named_target) (table_map _ _) I Tu F10).
    + exact (tidy_table de_term _ u _ named_term table_term ltac:(distinct) Tu F11).
  - rewrite at_path_tab in Hu. destruct (entry (B "term") root) as [u'|] eqn:Es; [|discriminate].
    pose proof (C _ _ Es) as Tu. apply fdef_spec in F11. rewrite Es in F11.
    destruct (tidy_table de_term _ u' _ named_term table_term ltac:(distinct) Tu F11) as (l & -> & Nl).
    rewrite at_path_tab in Hu. destruct (entry (B "progress") l) as [u''|] eqn:Ep; [|discriminate]. injection Hu as ->.
    assert (Tp : tidy (lay [B "term"; B "progress"]) u) by (refine (tidy_child _ _ _ _ _ _ Tu Ep); distinct).
    clear - F11 Ep Tp. revert F11. generalize (c_term c) as x. intros x F11.
    unfold de_term in F11. cbn [as_fields] in F11. inv_let F11.
    match goal with F : fdef _ 3 _ _ _ = Some _ |- _ => apply fdef_spec in F; rewrite Ep in F;
      exact (tidy_table de_progress _ u _ named_progress table_progress ltac:(distinct) Tp F) end.
  - rewrite at_path_tab in Hu. destruct (entry (B "registries") root) as [u'|] eqn:Es; [|discriminate].
    pose proof (C _ _ Es) as Tu. apply fdef_spec in F8. rewrite Es in F8.
    destruct (tidy_table _ _ u' _ (fun t => de_map_named de_registries _ t named_registries) (table_map _ _) I Tu F8) as (l & -> & Nl).
    rewrite at_path_tab in Hu. destruct (entry n l) as [u''|] eqn:Ep; [|discriminate]. injection Hu as ->.
    destruct (de_map_each _ _ _ _ _ F8 Ep) as (v & Hv).
    exact (tidy_table de_registries _ u _ named_registries table_registries ltac:(distinct) (tidy_named _ _ _ _ Tu Ep) Hv).
  - rewrite at_path_tab in Hu. destruct (entry (B "target") root) as [u'|] eqn:Es; [|discriminate].
    pose proof (C _ _ Es) as Tu. apply fdef_spec in F10. rewrite Es in F10.
    destruct (tidy_table _ _ u' _ (fun t => de_map_named de_target _ t named_target) (table_map _ _) I Tu F10) as (l & -> & Nl).
    rewrite at_path_tab in Hu. destruct (entry n l) as [u''|] eqn:Ep; [|discriminate]. injection Hu as ->.
    destruct (de_map_each _ _ _ _ _ F10 Ep) as (v & Hv).
    exact (tidy_table de_target _ u _ named_target table_target ltac:(distinct) (tidy_named _ _ _ _ Tu Ep) Hv).
Qed.

(** ** Tables stay as they are *)
Lemma singles_same n fs l :
  Forall (fun e => snd e = Single) fs -> in_names (Struct n fs) (TomlTab l) = TomlTab l.
Proof.
  intros F. rewrite in_names_tab. f_equal. transitivity (map (fun x => x) l); [|apply map_id].
  apply map_ext. intros [k u]. unfold rename. cbn [fst snd]. f_equal.
  unfold layout_of. induction F as [|[k' s] fs E F IH]; [reflexivity|]. cbn in E. subst s. cbn [find fst].
  destruct (str_eqb k' k); [reflexivity|exact IH].
Qed.
Lemma named_same e l :
  (forall k u, In (k, u) l -> in_names e u = u) -> in_names (Named e) (TomlTab l) = TomlTab l.
Proof.
  intros H. cbn [in_names]. f_equal. transitivity (map (fun x => x) l); [|apply map_id].
  apply map_ext_in. intros [k u] Hin. cbn [fst snd]. f_equal. exact (H k u Hin).
Qed.
Lemma struct_same n fs l :
  (forall k u, In (k, u) l -> in_names (layout_of k fs) u = u) -> in_names (Struct n fs) (TomlTab l) = TomlTab l.
Proof.
  intros H. rewrite in_names_tab. f_equal. transitivity (map (fun x => x) l); [|apply map_id].
  apply map_ext_in. intros [k u] Hin. unfold rename. cbn [fst snd]. f_equal. exact (H k u Hin).
Qed.
Definition section_names : list str :=
  [B "alias"; B "build"; B "doc"; B "env"; B "future-incompat-report"; B "cargo-new";
   B "http"; B "net"; B "registries"; B "registry"; B "target"; B "term"].
Lemma layout_other k fs : ~ In k (map fst fs) -> layout_of k fs = Single.
Proof.
  unfold layout_of. induction fs as [|[k' s] fs IH]; [reflexivity|]. cbn [map fst find In]. intros N.
  destruct (str_eqb k' k) eqn:E; [apply str_eqb_eq in E; subst; tauto|]. apply IH. tauto.
Qed.
Lemma known_or_not (k : str) l : In k l \/ ~ In k l.
Proof.
  induction l as [|x l [IH|IH]]; [now right|left; now right|].
  destruct (str_eqb x k) eqn:E; [apply str_eqb_eq in E; left; now left|].
  apply str_eqb_neq in E. right. intros [H|H]; auto.
Qed.
Lemma all_single l : Forall (fun e : str * layout => snd e = Single) (map (fun k => (B k, Single)) l).
Proof. induction l; constructor; auto. Qed.

Lemma laid_out_same t : laid_out t -> in_names reading_order t = t.
Proof.
  intros L. destruct (L [] t section_root eq_refl) as (root & -> & Nr).
  unfold reading_order. apply struct_same. intros k u Hin.
  destruct (known_or_not k section_names) as [Hk|Hk]; [|rewrite layout_other; [exact eq_refl|exact Hk]].
  destruct (L [k] u (section_named k Hk)) as (l & -> & Nl).
  { rewrite at_path_tab, (in_entry _ _ _ Nr Hin). exact eq_refl. }
  assert (Deep : forall n u, In (n, u) l -> section [k; n] -> exists l', u = TomlTab l').
  { intros n u Hu S. destruct (L [k; n] u S) as (l' & -> & _); [|now exists l'].
    rewrite at_path_tab, (in_entry _ _ _ Nr Hin), at_path_tab, (in_entry _ _ _ Nl Hu). exact eq_refl. }
  clear L Nr Hin.
  cbn [In section_names] in Hk.
  repeat (destruct Hk as [<-|Hk]); try contradiction.
  - exact (named_same Single l (fun _ _ _ => eq_refl)).
  - exact (singles_same _ _ l (all_single _)).
  - exact (singles_same _ _ l (all_single _)).
  - exact (named_same Single l (fun _ _ _ => eq_refl)).
  - exact (singles_same _ _ l (all_single _)).
  - exact (singles_same _ _ l (all_single _)).
  - exact (singles_same _ _ l (all_single _)).
  - exact (singles_same _ _ l (all_single _)).
  - refine (named_same _ l _). intros n u Hu. destruct (Deep n u Hu (section_registry n)) as (l' & ->).
    exact (singles_same _ _ l' (all_single _)).
  - exact (singles_same _ _ l (all_single _)).
  - refine (named_same _ l _). intros n u Hu. destruct (Deep n u Hu (section_target n)) as (l' & ->).
    exact (singles_same _ _ l' (all_single _)).
  - refine (struct_same _ _ l _). intros n u Hu.
    destruct (str_eqb n (B "progress")) eqn:E.
    + apply str_eqb_eq in E. subst n. destruct (Deep _ u Hu section_progress) as (l' & ->).
      exact (singles_same _ _ l' (all_single _)).
    + apply str_eqb_neq in E. destruct (known_or_not n [B "quiet"; B "verbose"; B "color"]) as [Hn|Hn].
      * cbn [In] in Hn. repeat (destruct Hn as [<-|Hn]); try contradiction; exact eq_refl.
      * rewrite layout_other; [exact eq_refl|]. cbn [map fst In] in *. intros H.
        repeat (destruct H as [H|H]); try contradiction; subst; tauto.
Qed.
