(** Tokens do not influence anything else. *)
From Verif.Model Require Import Base Str Path BMap Error Value De Debug EasyTypes Triple Context ApplyEnv CfgExpr
  Merge SetPath Walk Serde Load Process Resolve Easy EasySerde.
From Verif.Spec Require Import StrSpec Utf8Spec ConfigSpec SecretSpec.
From Verif.Proof Require Import StrFacts BMapFacts Utf8Proof WalkProof EnvVarsProof.

#[local] Arguments B : simpl never.

(** ** Debug output *)
Lemma redact_hide t : redact (option_map hide_value t) = redact t.
Proof. now destruct t. Qed.
Lemma dbg_hide_registries r : dbg_registries (hide_registries r) = dbg_registries r.
Proof. unfold dbg_registries, hide_registries. cbn. now rewrite redact_hide. Qed.
Lemma dbg_hide_registry r : dbg_registry (hide_registry r) = dbg_registry r.
Proof. unfold dbg_registry, hide_registry. cbn. now rewrite redact_hide. Qed.
Lemma dbg_hide c : dbg_config (hide c) = dbg_config c.
Proof.
  unfold dbg_config, hide. cbn [c_alias c_build c_doc c_env c_future_incompat_report c_cargo_new c_http c_net
                     c_registries c_registry c_target c_term]. rewrite dbg_hide_registry.
  replace (dbg_map dbg_registries (map _ _)) with (dbg_map dbg_registries (c_registries c)); [reflexivity|].
  unfold dbg_map. f_equal. rewrite map_map. apply map_ext. intros [k v]. cbn. now rewrite dbg_hide_registries.
Qed.
Lemma edbg_hide_registries r : edbg_registries (hide_easy_registries r) = edbg_registries r.
Proof. unfold edbg_registries. cbn. f_equal. f_equal. f_equal. now destruct (er_token r). Qed.
Lemma edbg_hide_registry r : edbg_registry (hide_easy_registry r) = edbg_registry r.
Proof. unfold edbg_registry. cbn. now destruct (erg_token r). Qed.
Lemma edbg_hide c cx s : edbg_config (hide_easy c cx) s = edbg_config (mkEconfig (ec_alias c) (ec_build c) (ec_doc c)
  (ec_env c) (ec_future_incompat_report c) (ec_cargo_new c) (ec_http c) (ec_net c) (ec_registries c) (ec_registry c)
  (ec_de_target c) (ec_term c) cx) s.
Proof.
  unfold edbg_config, hide_easy. cbn [ec_alias ec_build ec_doc ec_env ec_future_incompat_report ec_cargo_new ec_http
    ec_net ec_registries ec_registry ec_de_target ec_term ec_cx]. rewrite edbg_hide_registry.
  replace (dbg_map edbg_registries (map _ _)) with (dbg_map edbg_registries (ec_registries c)); [reflexivity|].
  unfold dbg_map. f_equal. rewrite map_map. apply map_ext. intros [k v]. cbn. now rewrite edbg_hide_registries.
Qed.

(** ** Merging *)
Definition hm := bmapv hide_registries.
Lemma binsert_bmapv {V W} (f : V -> W) k v m : bmapv f (binsert k v m) = binsert k (f v) (bmapv f m).
Proof.
  induction m as [|[k' v'] m IH]; [reflexivity|]. cbn. destruct (str_cmp k k'); cbn; try reflexivity.
  f_equal. exact IH.
Qed.
Lemma merge_map_hom {V} (h : V -> V) m d lf a b f :
  (forall x y, m (h x) (h y) f = map_ok h (m x y f)) -> (forall x, d (h x) = d x) ->
  (forall x y, lf (h x) (h y) f = h (lf x y f)) ->
  merge_map m d lf (bmapv h a) (bmapv h b) f = map_ok (bmapv h) (merge_map m d lf a b f).
Proof.
  intros Hm Hd Hl. revert a. induction b as [|[k v] b IH]; intros a; [reflexivity|].
  cbn [bmapv map fst snd merge_map]. fold (bmapv h b). rewrite bget_bmapv.
  destruct (bget k a) as [e|]; cbn [option_map].
  - rewrite Hm, Hl, !Hd. destruct (m e v f); cbn; [|reflexivity..]. rewrite <- binsert_bmapv. apply IH.
  - rewrite <- binsert_bmapv. apply IH.
Qed.
Lemma merge_v_hom {A} (a b : option (value A)) (g : value A -> value A) f :
  merge_v (option_map g a) (option_map g b) f = map_ok (option_map g) (merge_v a b f).
Proof. unfold merge_v, merge_opt, merge_leaf. destruct a, b, f; reflexivity. Qed.
Lemma merge_v_total {A} (a b : option (value A)) f : exists c, merge_v a b f = Ok c.
Proof. unfold merge_v, merge_opt, merge_leaf. destruct a, b; cbn; eauto. Qed.
Lemma merge_registries_hide a b f :
  merge_registries (hide_registries a) (hide_registries b) f = map_ok hide_registries (merge_registries a b f).
Proof.
  unfold merge_registries, hide_registries. cbn [r_index r_token r_protocol]. rewrite merge_v_hom.
  destruct (merge_v_total (r_index a) (r_index b) f) as (x & ->).
  destruct (merge_v_total (r_token a) (r_token b) f) as (y & ->).
  destruct (merge_v_total (r_protocol a) (r_protocol b) f) as (z & ->). reflexivity.
Qed.
Lemma merge_registry_hide a b f :
  merge_registry (hide_registry a) (hide_registry b) f = map_ok hide_registry (merge_registry a b f).
Proof.
  unfold merge_registry, hide_registry. cbn [rg_default rg_token]. rewrite merge_v_hom.
  destruct (merge_v_total (rg_default a) (rg_default b) f) as (x & ->).
  destruct (merge_v_total (rg_token a) (rg_token b) f) as (y & ->). reflexivity.
Qed.
Ltac step := match goal with
  | |- bind ?x _ = map_ok _ (bind ?x _) => destruct x; cbn [bind map_ok]; [|reflexivity..]
  end.
Lemma merge_hide a b f : merge_config (hide a) (hide b) f = map_ok hide (merge_config a b f).
Proof.
  unfold merge_config. cbn [hide c_alias c_build c_doc c_env c_future_incompat_report c_cargo_new c_http c_net
                     c_registries c_registry c_target c_term].
  do 8 step.
  change (map (fun x => (fst x, hide_registries (snd x)))) with (bmapv hide_registries).
  rewrite (merge_map_hom hide_registries) by (intros; auto using merge_registries_hide, dbg_hide_registries).
  destruct (merge_map merge_registries _ _ _ _ _); cbn [bind map_ok]; [|reflexivity..].
  rewrite merge_registry_hide. destruct (merge_registry _ _ _); cbn [bind map_ok]; [|reflexivity..].
  do 2 step. reflexivity.
Qed.

(** ** Loading *)
Lemma sp_hide p c : sp_config p (hide c) = hide (sp_config p c).
Proof.
  unfold sp_config, hide. cbn [c_alias c_build c_doc c_env c_future_incompat_report c_cargo_new c_http c_net
                     c_registries c_registry c_target c_term].
  f_equal.
  - unfold sp_map, bmapv. rewrite !map_map. apply map_ext. intros [k r]. cbn. unfold hide_registries, sp_registries. cbn.
    now destruct (r_token r).
  - unfold hide_registry, sp_registry. cbn. now destruct (rg_token (c_registry c)).
Qed.

Lemma vstr_hide t : de_vstr (hide_text t) = option_map hide_value (de_vstr t).
Proof. now destruct t. Qed.
Lemma tget_map (g : str * toml -> str * toml) k l :
  (forall x, fst (g x) = fst x) -> tget k (map g l) = option_map (fun t => snd (g (k, t))) (tget k l).
Proof.
  intros H. induction l as [|x l IH]; [reflexivity|]. cbn [map tget]. rewrite (surjective_pairing (g x)), H.
  destruct x as [k' t]. cbn [fst]. destruct (str_eqb k k') eqn:E; [|exact IH].
  apply str_eqb_eq in E. subst. reflexivity.
Qed.
Definition hide_fields (s : fields) : fields :=
  match s with
  | FMap l => FMap (map (fun x => if str_eqb (fst x) (B "token") then (fst x, hide_text (snd x)) else x) l)
  | FSeq (a :: b :: r) => FSeq (a :: hide_text b :: r)
  | _ => s
  end.
Lemma as_fields_hide t : as_fields (hide_token t) = option_map hide_fields (as_fields t).
Proof. destruct t as [| | | | |[|a [|b r]]|l]; reflexivity. Qed.
Lemma fopt_hide_token s : fopt (hide_fields s) 1 (B "token") de_vstr
  = option_map (option_map hide_value) (fopt s 1 (B "token") de_vstr).
Proof.
  destruct s as [l|[|a [|b r]]]; try reflexivity.
  - cbn [hide_fields fopt]. rewrite tget_map by (intros [k t]; now destruct (str_eqb _ _)).
    destruct (tget (B "token") l) as [t|]; [|reflexivity]. cbn [option_map fst].
    rewrite str_eqb_refl. cbn [snd]. rewrite vstr_hide. now destruct (de_vstr t).
  - cbn [hide_fields fopt nth_error]. rewrite vstr_hide. now destruct (de_vstr b).
Qed.
Lemma fopt_hide_other {A} s i k (f : toml -> option A) :
  i <> 1 -> str_eqb k (B "token") = false -> fopt (hide_fields s) i k f = fopt s i k f.
Proof.
  intros Hi Hk. destruct s as [l|[|a [|b r]]]; try reflexivity.
  - cbn [hide_fields fopt]. rewrite tget_map by (intros [k' t]; cbn [fst]; now destruct (str_eqb k' _)). cbn [fst snd].
    rewrite Hk. now destruct (tget k l).
  - cbn [hide_fields fopt]. destruct i as [|[|i]]; [reflexivity|easy|reflexivity].
Qed.
Lemma de_registries_hide t : de_registries (hide_token t) = option_map hide_registries (de_registries t).
Proof.
  unfold de_registries. rewrite as_fields_hide. destruct (as_fields t) as [s|]; [|reflexivity]. cbn [option_map].
  rewrite (fopt_hide_other s 0) by easy. destruct (fopt s 0 _ _); [|reflexivity].
  rewrite fopt_hide_token. destruct (fopt s 1 _ _); [|reflexivity]. cbn [option_map].
  rewrite (fopt_hide_other s 2) by easy. now destruct (fopt s 2 _ _).
Qed.
Lemma de_registry_hide t : de_registry (hide_token t) = option_map hide_registry (de_registry t).
Proof.
  unfold de_registry. rewrite as_fields_hide. destruct (as_fields t) as [s|]; [|reflexivity]. cbn [option_map].
  rewrite (fopt_hide_other s 0) by easy. destruct (fopt s 0 _ _); [|reflexivity].
  rewrite fopt_hide_token. now destruct (fopt s 1 _ _).
Qed.
Lemma bfrom_list_bmapv {V W} (f : V -> W) l : bfrom_list (map (fun x => (fst x, f (snd x))) l) = bmapv f (bfrom_list l).
Proof.
  unfold bfrom_list. assert (K : forall m, fold_left (fun m kv => binsert (fst kv) (snd kv) m) (map (fun x => (fst x, f (snd x))) l) (bmapv f m)
    = bmapv f (fold_left (fun m kv => binsert (fst kv) (snd kv) m) l m)).
  { induction l as [|[k v] l IH]; intros m; [reflexivity|]. cbn [map fold_left fst snd]. rewrite <- binsert_bmapv. apply IH. }
  exact (K []).
Qed.
Lemma de_entries_hide l :
  de_entries de_registries (map (fun x => (fst x, hide_token (snd x))) l)
  = option_map (map (fun x => (fst x, hide_registries (snd x)))) (de_entries de_registries l).
Proof.
  induction l as [|[k t] l IH]; [reflexivity|]. cbn [map fst snd de_entries]. rewrite de_registries_hide, IH.
  destruct (de_registries t); [|reflexivity]. cbn [option_map]. now destruct (de_entries de_registries l).
Qed.
Lemma de_map_hide t : de_map de_registries (hide_tokens t) = option_map (bmapv hide_registries) (de_map de_registries t).
Proof.
  destruct t; try reflexivity. cbn [hide_tokens de_map]. rewrite de_entries_hide.
  destruct (de_entries de_registries l) as [r|]; [|reflexivity]. cbn [option_map]. f_equal. apply bfrom_list_bmapv.
Qed.
Definition hide_root (l : list (str * toml)) : list (str * toml) :=
  map (fun x => if str_eqb (fst x) (B "registries") then (fst x, hide_tokens (snd x))
                             else if str_eqb (fst x) (B "registry") then (fst x, hide_token (snd x))
                             else x) l.
Lemma tget_root k l : tget k (hide_root l)
  = option_map (fun t => if str_eqb k (B "registries") then hide_tokens t
                         else if str_eqb k (B "registry") then hide_token t else t) (tget k l).
Proof.
  unfold hide_root. rewrite tget_map by (intros [k' t]; cbn; repeat destruct (str_eqb _ _); reflexivity).
  destruct (tget k l) as [t|]; [|reflexivity]. cbn. now repeat destruct (str_eqb _ _).
Qed.
Lemma fdef_other {A} l i k (d : A) f :
  str_eqb k (B "registries") = false -> str_eqb k (B "registry") = false ->
  fdef (FMap (hide_root l)) i k d f = fdef (FMap l) i k d f.
Proof. intros H1 H2. cbn [fdef]. rewrite tget_root, H1, H2. now destruct (tget k l). Qed.
Lemma fdef_registries l i :
  fdef (FMap (hide_root l)) i (B "registries") [] (de_map de_registries)
  = option_map (bmapv hide_registries) (fdef (FMap l) i (B "registries") [] (de_map de_registries)).
Proof.
  cbn [fdef]. rewrite tget_root, str_eqb_refl. destruct (tget _ l) as [t|]; [|reflexivity]. cbn [option_map].
  apply de_map_hide.
Qed.
Lemma fdef_registry l i :
  fdef (FMap (hide_root l)) i (B "registry") registry_default de_registry
  = option_map hide_registry (fdef (FMap l) i (B "registry") registry_default de_registry).
Proof.
  cbn [fdef]. rewrite tget_root. change (str_eqb (B "registry") (B "registries")) with false. cbn [fst].
  rewrite str_eqb_refl. destruct (tget _ l) as [t|]; [|reflexivity]. cbn [option_map].
  apply de_registry_hide.
Qed.
Lemma de_hide l : de_config (hide_doc (TomlTab l)) = option_map hide (de_config (TomlTab l)).
Proof.
  cbn [hide_doc]. fold (hide_root l). unfold de_config. cbn [as_fields].
  do 8 (rewrite fdef_other by reflexivity; match goal with
    | |- match ?x with _ => _ end = option_map _ (match ?x with _ => _ end) => destruct x; [|reflexivity]
    end).
  rewrite fdef_registries. destruct (fdef (FMap l) 8 _ _ _); [|reflexivity]. cbn [option_map].
  rewrite fdef_registry. destruct (fdef (FMap l) 9 _ _ _); [|reflexivity]. cbn [option_map].
  do 2 (rewrite fdef_other by reflexivity; match goal with
    | |- match ?x with _ => _ end = option_map _ (match ?x with _ => _ end) => destruct x; [|reflexivity]
    end).
  reflexivity.
Qed.

Lemma hide_read_cases r r' : hide_read r = hide_read r' ->
  r = r' \/ exists l l', r = ReadTree (TomlTab l) /\ r' = ReadTree (TomlTab l') /\ hide_doc (TomlTab l) = hide_doc (TomlTab l').
Proof.
  destruct r as [k| |t], r' as [k'| |t']; cbn [hide_read]; intros H; try discriminate; auto; try (left; congruence).
  assert (E : hide_doc t = hide_doc t') by congruence.
  destruct t as [| | | | | |l], t' as [| | | | | |l']; try discriminate E; try (left; cbn in E; congruence).
  right. eauto.
Qed.
Definition alike (c c' : config) : Prop := hide c = hide c'.
Lemma load_file_alike f f' p : same_files f f' -> same_result alike (load_file f p) (load_file f' p).
Proof.
  intros (_ & H). unfold load_file. specialize (H p).
  destruct (hide_read_cases _ _ H) as [-> |(l & l' & -> & -> & E)].
  - destruct (fs_read f' p) as [k| |t]; cbn; try reflexivity. destruct (de_config t); cbn; reflexivity.
  - assert (D : option_map hide (de_config (TomlTab l)) = option_map hide (de_config (TomlTab l'))).
    { rewrite <- !de_hide. now rewrite E. }
    destruct (de_config (TomlTab l)) as [c|], (de_config (TomlTab l')) as [c'|]; try discriminate D; cbn; [|reflexivity].
    unfold alike. rewrite <- !sp_hide. cbn in D. congruence.
Qed.
Lemma same_bind {E A A'} (R : A -> A -> Prop) (S : A' -> A' -> Prop) (x y : res E A) f g :
  same_result R x y -> (forall a b, R a b -> same_result S (f a) (g b)) -> same_result S (bind x f) (bind y g).
Proof. destruct x, y; cbn; try tauto; auto. Qed.
Lemma same_context_err {A} (R : A -> A -> Prop) m (x y : result A) :
  same_result R x y -> same_result R (with_context m x) (with_context m y).
Proof. destruct x, y; cbn; try tauto; congruence. Qed.
Lemma merge_alike a a' b b' f : alike a a' -> alike b b' -> same_result alike (merge_config a b f) (merge_config a' b' f).
Proof.
  intros Ha Hb. assert (E : map_ok hide (merge_config a b f) = map_ok hide (merge_config a' b' f)).
  { rewrite <- !merge_hide. congruence. }
  destruct (merge_config a b f), (merge_config a' b' f); cbn in *; try discriminate; unfold alike; congruence.
Qed.
Lemma load_rest_alike f f' bp c c' ps : same_files f f' -> alike c c' ->
  same_result alike (load_rest f bp c ps) (load_rest f' bp c' ps).
Proof.
  intros F. revert c c'. induction ps as [|p ps IH]; intros c c' H; cbn [load_rest]; [exact H|].
  eapply same_bind; [now apply load_file_alike|]. intros a b Hab. cbn beta.
  eapply same_bind; [apply same_context_err, merge_alike; eassumption|]. intros. now apply IH.
Qed.
Lemma walk_all_ext ex ex' s : (forall p, ex p = ex' p) -> walk_all ex s = walk_all ex' s.
Proof.
  intros H. assert (K : forall d, config_path ex d = config_path ex' d) by (intros; unfold config_path; now rewrite !H).
  rewrite !walk_all_list. unfold walk_list. f_equal.
  - apply flat_map_ext. intros. now rewrite K.
  - destruct (dedup_all _ _); [now rewrite K | reflexivity].
Qed.
Lemma load_alike f f' cwd home : same_files f f' ->
  same_result alike (load_with_options f cwd home) (load_with_options f' cwd home).
Proof.
  intros F. unfold load_with_options. assert (W : walk_all (fs_exists f) (walk_init cwd home) = walk_all (fs_exists f') (walk_init cwd home)).
  { apply walk_all_ext. apply F. }
  rewrite W. clear W. unfold load_files. destruct (walk_all _ _) as [|p ps]; [exact eq_refl|].
  eapply same_bind; [now apply load_file_alike|]. intros. now apply load_rest_alike.
Qed.

(** ** Variables *)
Notation same_pair := (fun x y : str * str => fst x = fst y
   /\ (snd x = snd y \/ token_variable (fst x) /\ (utf8 (snd x) <-> utf8 (snd y)))).
Lemma same_get l l' n : same_variables l l' -> ~ token_variable n -> env_get n l = env_get n l'.
Proof.
  intros H T. induction H as [|[k v] [k' v'] l l' (K & V) H IH]; [reflexivity|]. cbn [fst snd] in *. subst k'.
  cbn [env_get]. destruct (str_eqb n k) eqn:E; [|exact IH]. apply str_eqb_eq in E. subst k.
  destruct V as [-> |(V & _)]; tauto.
Qed.
Lemma same_get_any l l' n : same_variables l l' ->
  match env_get n l, env_get n l' with
  | None, None => True
  | Some v, Some v' => v = v' \/ token_variable n /\ (utf8 v <-> utf8 v')
  | _, _ => False
  end.
Proof.
  intros H. induction H as [|[k v] [k' v'] l l' (K & V) H IH]; [exact I|]. cbn [fst snd] in *. subst k'.
  cbn [env_get]. destruct (str_eqb n k) eqn:E; [|exact IH]. apply str_eqb_eq in E. now subst k.
Qed.
Lemma same_var l l' n : same_variables l l' -> ~ token_variable n -> cx_env_var l n = cx_env_var l' n.
Proof. intros H T. unfold cx_env_var. now rewrite (same_get l l' n H T). Qed.
Lemma utf8_same v v' : (utf8 v <-> utf8 v') -> utf8_valid v = utf8_valid v'.
Proof. intros H. apply eq_true_iff_eq. now rewrite !utf8_valid_iff. Qed.
Lemma same_redacted l l' n : same_variables l l' ->
  same_result (fun o o' => option_map hide_value o = option_map hide_value o')
    (cx_env_redacted l n) (cx_env_redacted l' n).
Proof.
  intros H. unfold cx_env_redacted. pose proof (same_get_any l l' n H) as K.
  destruct (env_get n l) as [v|], (env_get n l') as [v'|]; try easy. unfold to_str.
  assert (U : utf8_valid v = utf8_valid v') by (destruct K as [-> |(_ & K)]; [reflexivity | now apply utf8_same]).
  rewrite U. now destruct (utf8_valid v').
Qed.
Ltac not_token := let T := fresh in intros [T|(? & T)]; discriminate T.
Ltac same_vars H := repeat match goal with
  | |- context [cx_env_var ?e ?n] => lazymatch type of H with same_variables e _ =>
        rewrite (same_var _ _ n H) by not_token end
  end.
Section Same.
Variables (l l' : env_map) (H : same_variables l l').
Lemma same_build b : apply_build l b = apply_build l' b.
Proof. unfold apply_build, env_first, env_flags, env_incremental, cx_env_parse. same_vars H. reflexivity. Qed.
Lemma same_doc d : apply_doc l d = apply_doc l' d.
Proof. unfold apply_doc. same_vars H. reflexivity. Qed.
Lemma same_future d : apply_future l d = apply_future l' d.
Proof. unfold apply_future, cx_env_parse. same_vars H. reflexivity. Qed.
Lemma same_http d : apply_http l d = apply_http l' d.
Proof. unfold apply_http, cx_env_parse. same_vars H. reflexivity. Qed.
Lemma same_net d : apply_net l d = apply_net l' d.
Proof. unfold apply_net, cx_env_parse. same_vars H. reflexivity. Qed.
Lemma same_term d : apply_term l d = apply_term l' d.
Proof. unfold apply_term, apply_progress, cx_env_parse. same_vars H. reflexivity. Qed.
Lemma same_registry r r' : hide_registry r = hide_registry r' ->
  same_result (fun a b => hide_registry a = hide_registry b) (apply_registry l r) (apply_registry l' r').
Proof.
  intros R. unfold apply_registry. same_vars H. destruct (cx_env_var l' _) as [d| |]; cbn [bind]; [|reflexivity..].
  eapply same_bind; [apply same_redacted, H|]. intros a b Hab. cbn [same_result].
  unfold hide_registry in *. cbn [rg_default rg_token]. injection R as R1 R2. rewrite R1. f_equal.
  destruct a, b; try discriminate Hab; [exact Hab | exact R2].
Qed.
End Same.

Definition same_vstate (x y : vstate) : Prop := fst x = fst y /\ bmapv hide_registries (snd x) = bmapv hide_registries (snd y).
Lemma bget_alike k m m' : bmapv hide_registries m = bmapv hide_registries m' ->
  option_map hide_registries (bget k m) = option_map hide_registries (bget k m').
Proof. intros E. rewrite <- !bget_bmapv. now rewrite E. Qed.
Lemma update_alike k f f' m m' :
  (forall r r', hide_registries r = hide_registries r' -> hide_registries (f r) = hide_registries (f' r')) ->
  bmapv hide_registries m = bmapv hide_registries m' ->
  bmapv hide_registries (update_registry k f m) = bmapv hide_registries (update_registry k f' m').
Proof.
  intros F E. unfold update_registry. pose proof (bget_alike k _ _ E) as K.
  destruct (bget k m) as [r|], (bget k m') as [r'|]; try discriminate K; rewrite !binsert_bmapv, E;
    f_equal; apply F; [cbn [option_map] in K; congruence | reflexivity].
Qed.
Lemma same_apply_var k v v' st st' :
  v = v' \/ token_variable k /\ (utf8 v <-> utf8 v') -> same_vstate st st' ->
  same_result same_vstate (apply_var k v st) (apply_var k v' st').
Proof.
  intros V (A & R). rewrite !apply_var_kind.
  assert (U : utf8_valid v = utf8_valid v') by (destruct V as [-> |(_ & K)]; [reflexivity | now apply utf8_same]).
  destruct V as [-> |(T & _)].
  - destruct (kind_of k); cbn [kind_effect]; try (now split); destruct (to_str v'); cbn [same_result]; try reflexivity.
    + split; cbn [fst snd]; congruence.
    + split; cbn [fst snd]; [assumption|]. apply update_alike; [|exact R].
      unfold hide_registries. cbn. intros r r' E. injection E as E1 E2 E3. congruence.
    + split; cbn [fst snd]; [assumption|]. apply update_alike; [|exact R].
      unfold hide_registries. cbn. intros r r' E. injection E as E1 E2 E3. congruence.
    + destruct (protocol_from_str _); cbn [same_result]; [|reflexivity].
      split; cbn [fst snd]; [assumption|]. apply update_alike; [|exact R].
      unfold hide_registries. cbn. intros r r' E. injection E as E1 E2 E3. congruence.
  - destruct T as [-> |(n & ->)]; [now split|].
    rewrite (kind_of_name (KToken n) _ eq_refl). cbn [kind_effect]. unfold to_str. rewrite U.
    destruct (utf8_valid v'); cbn [same_result]; [|reflexivity].
    split; cbn [fst snd]; [assumption|]. apply update_alike; [|exact R].
    unfold hide_registries. cbn. intros r r' E. injection E as E1 E2 E3. unfold hide_value. cbn [def]. congruence.
Qed.
Lemma same_apply_vars l l' st st' : same_variables l l' -> same_vstate st st' ->
  same_result same_vstate (apply_vars l st) (apply_vars l' st').
Proof.
  intros H. revert st st'. induction H as [|[k v] [k' v'] l l' (K & V) H IH]; intros st st' E; [exact E|].
  cbn [fst snd] in *. subst k'. cbn [apply_vars]. eapply same_bind; [now apply same_apply_var|]. exact IH.
Qed.
Lemma alike_parts c c' : alike c c' ->
  c_alias c = c_alias c' /\ c_build c = c_build c' /\ c_doc c = c_doc c' /\ c_env c = c_env c'
  /\ c_future_incompat_report c = c_future_incompat_report c' /\ c_cargo_new c = c_cargo_new c'
  /\ c_http c = c_http c' /\ c_net c = c_net c'
  /\ bmapv hide_registries (c_registries c) = bmapv hide_registries (c_registries c')
  /\ hide_registry (c_registry c) = hide_registry (c_registry c')
  /\ c_target c = c_target c' /\ c_term c = c_term c'.
Proof.
  intros H. unfold alike in H.
  repeat split; [ now apply (f_equal c_alias) in H | now apply (f_equal c_build) in H | now apply (f_equal c_doc) in H
    | now apply (f_equal c_env) in H | now apply (f_equal c_future_incompat_report) in H
    | now apply (f_equal c_cargo_new) in H | now apply (f_equal c_http) in H | now apply (f_equal c_net) in H
    | now apply (f_equal c_registries) in H | now apply (f_equal c_registry) in H
    | now apply (f_equal c_target) in H | now apply (f_equal c_term) in H ].
Qed.
Lemma same_apply_env l l' c c' : same_variables l l' -> alike c c' ->
  same_result alike (apply_env l c) (apply_env l' c').
Proof.
  intros H A. apply alike_parts in A. destruct A as (E1 & E2 & E3 & E4 & E5 & E6 & E7 & E8 & E9 & E10 & E11 & E12).
  unfold apply_env. rewrite E1, E2, E3, E4, E5, E6, E7, E8, E11, E12.
  eapply same_bind; [apply (same_apply_vars _ _ _ (c_alias c', c_registries c') H); now split|]. intros st st' (S1 & S2).
  rewrite (same_build _ _ H), (same_doc _ _ H), (same_future _ _ H), (same_http _ _ H), (same_net _ _ H), (same_term _ _ H).
  do 5 (match goal with |- same_result _ (bind ?x _) (bind ?x _) => destruct x; cbn [bind]; [|reflexivity..] end).
  eapply same_bind; [now apply same_registry|]. intros r r' R.
  destruct (apply_term l' _); cbn [bind]; [|reflexivity..].
  cbn [same_result]. unfold alike, hide. cbn. rewrite S1, R. f_equal. exact S2.
Qed.

(** ** Resolution *)
Lemma same_insert k v v' e e' : same_pair (k, v) (k, v') -> same_variables e e' ->
  same_variables (env_insert k v e) (env_insert k v' e').
Proof.
  intros P H. induction H as [|[n w] [n' w'] e e' (K & V) H IH]; cbn [env_insert].
  - constructor; [exact P | constructor].
  - cbn [fst snd] in *. subst n'. destruct (str_eqb k n) eqn:E; constructor; auto.
    apply str_eqb_eq in E. now subst.
Qed.
Lemma same_collect vs vs' e e' : same_variables vs vs' -> same_variables e e' ->
  same_variables (env_collect vs e) (env_collect vs' e').
Proof.
  intros H. revert e e'. induction H as [|[n w] [n' w'] vs vs' (K & V) H IH]; intros e e' E; [exact E|].
  cbn [fst snd] in *. subst n'. cbn [env_collect]. apply IH. unfold to_str. destruct (utf8_valid n); [|exact E].
  destruct (env_relevant n); [|exact E]. apply same_insert; [now split|exact E].
Qed.
Lemma same_filter vs vs' : same_variables vs vs' -> same_variables (env_filter vs) (env_filter vs').
Proof. intros H. apply same_collect; [exact H | constructor]. Qed.
Lemma same_into p p' o o' cwd : same_process p p' -> same_options o o' ->
  same_context (into_context p o cwd) (into_context p' o' cwd).
Proof.
  intros (P & _) (E & O1 & O2 & O3 & O4). unfold into_context, same_context. cbn [cx_env cx_cargo cx_current_dir cx_rustc0 cx_cargo_home0 cx_host0]. cbn zeta. rewrite O1, O2, O3, O4.
  assert (V : same_variables (match o_env o with Some e => e | None => env_filter (p_vars p) end)
                             (match o_env o' with Some e => e | None => env_filter (p_vars p') end)).
  { destruct (o_env o), (o_env o'); try easy. now apply same_filter. }
  repeat split; [exact V|]. destruct (o_cargo o'); [reflexivity|].
  pose proof (same_get _ _ (B "CARGO") V) as K. fold env_map in *. rewrite K by not_token. reflexivity.
Qed.
Lemma same_home p p' cx cx' cwd : same_process p p' -> same_context cx cx' ->
  cx_cargo_home p cx cwd = cx_cargo_home p' cx' cwd.
Proof.
  intros (P & D) (_ & _ & _ & _ & C & _). unfold cx_cargo_home. rewrite C, D.
  now rewrite (same_get _ _ (B "CARGO_HOME") P) by not_token.
Qed.
Lemma bmapv_bmapv {A A' A''} (f : A -> A') (g : A' -> A'') m : bmapv g (bmapv f m) = bmapv (fun a => g (f a)) m.
Proof. unfold bmapv. now rewrite map_map. Qed.
Lemma bmapv_ext {A A'} (f g : A -> A') m : (forall a, f a = g a) -> bmapv f m = bmapv g m.
Proof. intros H. unfold bmapv. apply map_ext. intros [k a]. cbn. now rewrite H. Qed.
Lemma hide_of_registries r : hide_easy_registries (eregistries_of r) = eregistries_of (hide_registries r).
Proof. unfold hide_easy_registries, eregistries_of, hide_registries. cbn. now destruct (r_token r). Qed.
Lemma hide_of_registry r : hide_easy_registry (eregistry_of r) = eregistry_of (hide_registry r).
Proof. unfold hide_easy_registry, eregistry_of, hide_registry. cbn. now destruct (rg_token r). Qed.
Lemma same_from c c' cx cx' : alike c c' -> same_context cx cx' ->
  same_result same_easy (from_unresolved c cx) (from_unresolved c' cx').
Proof.
  intros A X. pose proof X as (V & C & D & _). unfold from_unresolved. rewrite D.
  eapply same_bind; [now apply same_apply_env|]. intros d d' A'. apply alike_parts in A'.
  destruct A' as (E1 & E2 & E3 & E4 & E5 & E6 & E7 & E8 & E9 & E10 & E11 & E12).
  rewrite E1, E2, E3, E4, E5, E6, E7, E8, E11, E12.
  do 3 (match goal with |- same_result _ (bind ?x _) (bind ?x _) => destruct x; cbn [bind]; [|reflexivity..] end).
  cbn [same_result]. split; [|exact X]. unfold hide_easy. cbn. f_equal.
  - change (bmapv hide_easy_registries (bmapv eregistries_of (c_registries d))
            = bmapv hide_easy_registries (bmapv eregistries_of (c_registries d'))).
    rewrite !bmapv_bmapv, !(bmapv_ext _ _ _ hide_of_registries), <- !(bmapv_bmapv hide_registries eregistries_of). now rewrite E9.
  - rewrite !hide_of_registry. now rewrite E10.
Qed.
Lemma same_load f f' p p' cwd o o' : same_files f f' -> same_process p p' -> same_options o o' ->
  same_result same_easy (easy_load_with_options f p cwd o) (easy_load_with_options f' p' cwd o').
Proof.
  intros F P O. unfold easy_load_with_options. pose proof (same_into p p' o o' cwd P O) as X.
  rewrite (same_home p p' _ _ cwd P X). pose proof X as (_ & _ & D & _). rewrite D.
  eapply same_bind; [now apply load_alike|]. intros. now apply same_from.
Qed.

(** ** Queries *)
Lemma bindM_ext {A A'} (m m' : M A) (f f' : A -> M A') s :
  (forall t, m t = m' t) -> (forall a t, f a t = f' a t) -> bindM m f s = bindM m' f' s.
Proof. intros H K. unfold bindM. rewrite H. destruct (m' s) as [[| |] ?]; auto. Qed.
Section Query.
Variables (pr : profile) (w : world) (cx cx' : context) (X : same_context cx cx').
Lemma same_cargo : cx_cargo cx = cx_cargo cx'.
Proof. apply X. Qed.
Lemma same_eval b e t : eval_cfg pr w cx b e t = eval_cfg pr w cx' b e t.
Proof. unfold eval_cfg, target_cfg, cx_rustc, base_rustc. now rewrite same_cargo. Qed.
Lemma same_cfgs b t tables acc s : resolve_cfgs pr w cx b t tables acc s = resolve_cfgs pr w cx' b t tables acc s.
Proof.
  revert acc s. induction tables as [|[k v] tables IH]; intros acc s; [reflexivity|]. cbn [resolve_cfgs].
  destruct (negb _); [apply IH|]. rewrite same_eval. apply bindM_ext; [reflexivity|].
  intros m u. destruct acc as [[? ?] ?]. apply IH.
Qed.
Lemma same_resolve b tables t s : resolve_target pr w cx b tables t s = resolve_target pr w cx' b tables t s.
Proof.
  unfold resolve_target. destruct (starts_with _ _); [reflexivity|]. destruct X as (V & _). cbn zeta. same_vars V.
  do 5 (apply bindM_ext; [reflexivity|]; intros). apply bindM_ext; [intros; apply same_cfgs|]. reflexivity.
Qed.
Lemma same_host b : cx_host_triple pr w cx b = cx_host_triple pr w cx' b.
Proof.
  unfold cx_host_triple, cargo_host, rustc_host, rustc_for_version, base_rustc. now rewrite same_cargo.
Qed.
End Query.
Lemma same_query pr w c c' q s : same_easy c c' -> run_query pr w c q s = run_query pr w c' q s.
Proof.
  intros (E & X). assert (Eb : ec_build c = ec_build c') by now apply (f_equal ec_build) in E.
  assert (Et : ec_de_target c = ec_de_target c') by now apply (f_equal ec_de_target) in E.
  assert (T : forall a t, q_target pr w c a t = q_target pr w c' a t).
  { intros a t. unfold q_target. apply bindM_ext; [reflexivity|]. intros tr u. unfold q_target_of.
    apply bindM_ext; [|reflexivity]. intros u'. unfold init_target_config. apply bindM_ext; [reflexivity|].
    intros st u2. destruct (bget _ _); [reflexivity|]. rewrite Eb, Et. pose proof X as (_ & _ & D & _). rewrite D.
    apply bindM_ext; [intros; now apply same_resolve|]. reflexivity. }
  destruct q; cbn [run_query]; unfold mapM, q_linker, q_runner, q_rustflags, q_rustdocflags;
    try (apply bindM_ext; [|reflexivity]; intros u; first [apply T | apply bindM_ext; [apply T|reflexivity]]).
  - apply bindM_ext; [|reflexivity]. intros u. unfold q_build_target_for_config.
    rewrite Eb, (same_host pr w _ _ X). reflexivity.
  - unfold q_build_target_for_cli. now rewrite Eb.
  - unfold q_rustc, cx_rustc, base_rustc. now rewrite Eb, (same_cargo _ _ X).
  - unfold q_cargo. now rewrite (same_cargo _ _ X).
  - unfold q_host_triple. now rewrite Eb, (same_host pr w _ _ X).
  - unfold q_rustc_version, cx_rustc_version. rewrite Eb, (same_host pr w _ _ X).
    unfold rustc_for_version, base_rustc. now rewrite (same_cargo _ _ X).
  - unfold q_cargo_version, cx_cargo_version. now rewrite Eb, (same_host pr w _ _ X), (same_cargo _ _ X).
Qed.
