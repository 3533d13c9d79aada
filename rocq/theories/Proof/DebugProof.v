(** Lemmas about Debug output. *)
From Verif.Model Require Import Base Str BMap Error Value De Debug EasyTypes Triple Context Resolve Easy EasySerde.
From Verif.Spec Require Import StrSpec ConfigSpec RootSpec SerdeSpec SecretSpec FinalSpec DebugSpec.
From Verif.Proof Require Import StrFacts BMapFacts SecretProof.

#[local] Arguments B : simpl never.

(** ** Places *)
Lemma origin_shown d : dbg_definition d = shown_origin d.
Proof. now destruct d as [p|n|[p|]]. Qed.
Lemma option_shown {A} (f : A -> dbg) o : dbg_opt f o = shown_option (option_map f o).
Proof. now destruct o. Qed.
Lemma value_shown {A} (f : A -> dbg) (v : value A) : dbg_value f v = shown_value (f (val v)) (def v).
Proof.
  unfold dbg_value, shown_value. do 4 f_equal. rewrite option_shown. destruct (def v); cbn; [now rewrite origin_shown|reflexivity].
Qed.
Lemma word_shown w : dbg_vstr w = shown_word w.
Proof. apply value_shown. Qed.
Lemma words_shown l : map dbg_vstr l = map shown_word l.
Proof. apply map_ext. exact word_shown. Qed.
Lemma form_shown r : dbg_repr r = shown_form (form_of r).
Proof. now destruct r. Qed.
Lemma flags_shown f : dbg_flags f = shown_words "Flags" "flags" (flags_words f).
Proof. unfold dbg_flags, shown_words. cbn [fst snd flags_words]. now rewrite words_shown, form_shown. Qed.
Lemma slist_shown s : dbg_string_list s = shown_words "StringList" "list" (form_of (sl_repr s), sl_list s).
Proof. unfold dbg_string_list, shown_words. cbn [fst snd]. now rewrite words_shown, form_shown. Qed.
Lemma pa_shown p : shown_program (program_words p) (dbg_path_and_args p).
Proof.
  exists (pa_path p), (pa_args p). split; [reflexivity|]. unfold dbg_path_and_args, program_words. cbn [fst].
  now rewrite words_shown, form_shown, word_shown.
Qed.

Lemma field_shown {T} (f : T -> dbg) (o : option T) p t :
  at_debug p t = and_then (present (dbg_opt f o)) (at_debug []) -> at_debug p t = option_map f o.
Proof. intros ->. now destruct o. Qed.
Lemma map_shown {V} (f : V -> dbg) k m : map_entry k (map (fun kv => (DStr (fst kv), f (snd kv))) m) = option_map f (bget k m).
Proof.
  unfold map_entry. induction m as [|[k' v] m IH]; [reflexivity|]. cbn. destruct (str_eqb k k'); [reflexivity|exact IH].
Qed.
(** Below an entry of a map. *)
Lemma under_shown {V T} (g : V -> dbg) (f : T -> dbg) (h : V -> option T) m n k t :
  t = dbg_map g m ->
  (forall v, at_debug [k] (g v) = and_then (present (dbg_opt f (h v))) (at_debug [])) ->
  at_debug [n; k] t = option_map f (under m n h).
Proof.
  intros -> H. change (at_debug [n; k] (dbg_map g m)) with
    (and_then (map_entry n (map (fun kv => (DStr (fst kv), g (snd kv))) m)) (at_debug [k])).
  rewrite map_shown. unfold under. destruct (bget n m) as [v|]; [|reflexivity]. cbn [option_map and_then].
  rewrite H. now destruct (h v).
Qed.

Lemma shows_both {A} (k : scalar_key A) (o : option (value A)) (f : A -> dbg) :
  (forall a, shown_as k a (f a)) -> both (shows k) o (option_map (dbg_value f) o).
Proof. intros H. destruct o as [v|]; cbn; [|exact I]. exists (f (val v)). split; [apply H|apply value_shown]. Qed.
Lemma redact_both (k : scalar_key str) o : (forall a, shown_as k a (DStr (B "[REDACTED]"))) ->
  both (shows k) o (option_map dbg_vstr (redact o)).
Proof. intros H. destruct o as [v|]; cbn; [|exact I]. exists (DStr (B "[REDACTED]")). split; [apply H|]. apply (value_shown DStr (mkValue (B "[REDACTED]") (def v))). Qed.

Ltac static_at f o := match goal with |- both _ _ (at_debug ?p ?t) => rewrite (field_shown f o p t eq_refl) end.
Ltac static f o := static_at (dbg_value f) o; apply shows_both.
Lemma scalar_shown {A} (k : scalar_key A) c : ~ of_env k -> both (shows k) (look k c) (at_debug (place k) (dbg_config c)).
Proof.
  intros N. destruct k; cbn [look place of_env] in *; try (now destruct N).
  - static DNum (b_jobs (c_build c)). reflexivity.
  - static DStr (b_rustc (c_build c)). reflexivity.
  - static DStr (b_rustc_wrapper (c_build c)). reflexivity.
  - static DStr (b_rustc_workspace_wrapper (c_build c)). reflexivity.
  - static DStr (b_rustdoc (c_build c)). reflexivity.
  - static DStr (b_target_dir (c_build c)). reflexivity.
  - static DBool (b_incremental (c_build c)). reflexivity.
  - static DStr (b_dep_info_basedir (c_build c)). reflexivity.
  - static dbg_frequency (f_frequency (c_future_incompat_report c)). intros []; eexists; (split; [|reflexivity]); cbn; tauto.
  - static dbg_vcs (cn_vcs (c_cargo_new c)). intros []; eexists; (split; [|reflexivity]); cbn; tauto.
  - static DBool (h_debug (c_http c)). reflexivity.
  - static DStr (h_proxy (c_http c)). reflexivity.
  - static dbg_n (h_timeout (c_http c)). reflexivity.
  - static DStr (h_cainfo (c_http c)). reflexivity.
  - static DBool (h_check_revoke (c_http c)). reflexivity.
  - static dbg_n (h_low_speed_limit (c_http c)). reflexivity.
  - static DBool (h_multiplexing (c_http c)). reflexivity.
  - static DStr (h_user_agent (c_http c)). reflexivity.
  - static dbg_n (n_retry (c_net c)). reflexivity.
  - static DBool (n_git_fetch_with_cli (c_net c)). reflexivity.
  - static DBool (n_offline (c_net c)). reflexivity.
  - change (at_debug [B "registries"; name; B "index"] (dbg_config c)) with
      (at_debug [name; B "index"] (dbg_map dbg_registries (c_registries c))).
    rewrite (under_shown dbg_registries dbg_vstr r_index _ _ _ _ eq_refl) by reflexivity.
    apply shows_both. reflexivity.
  - change (at_debug [B "registries"; name; B "token"] (dbg_config c)) with
      (at_debug [name; B "token"] (dbg_map dbg_registries (c_registries c))).
    rewrite (under_shown dbg_registries dbg_vstr (fun r => redact (r_token r)) _ _ _ _ eq_refl) by reflexivity.
    replace (under (c_registries c) name (fun r => redact (r_token r))) with (redact (under (c_registries c) name r_token)).
    + apply redact_both. reflexivity.
    + unfold under. now destruct (bget name (c_registries c)).
  - change (at_debug [B "registries"; name; B "protocol"] (dbg_config c)) with
      (at_debug [name; B "protocol"] (dbg_map dbg_registries (c_registries c))).
    rewrite (under_shown dbg_registries (dbg_value dbg_protocol) r_protocol _ _ _ _ eq_refl) by reflexivity.
    apply shows_both. intros []; eexists; (split; [|reflexivity]); cbn; tauto.
  - static DStr (rg_default (c_registry c)). reflexivity.
  - static_at dbg_vstr (redact (rg_token (c_registry c))). apply redact_both. reflexivity.
  - change (at_debug [B "target"; t; B "linker"] (dbg_config c)) with
      (at_debug [t; B "linker"] (dbg_map dbg_target (c_target c))).
    rewrite (under_shown dbg_target dbg_vstr t_linker _ _ _ _ eq_refl) by reflexivity.
    apply shows_both. reflexivity.
  - static DBool (tm_quiet (c_term c)). reflexivity.
  - static DBool (tm_verbose (c_term c)). reflexivity.
  - static dbg_color (tm_color (c_term c)). intros []; eexists; (split; [|reflexivity]); cbn; tauto.
  - static dbg_when (p_when (tm_progress (c_term c))). intros []; eexists; (split; [|reflexivity]); cbn; tauto.
  - static dbg_n (p_width (tm_progress (c_term c))). reflexivity.
Qed.

Lemma list_shown k c : both (shown_list k) (look_list k c) (at_debug (list_place k) (dbg_config c)).
Proof.
  destruct k; cbn [look_list list_place].
  - change (at_debug [B "alias"; name] (dbg_config c)) with
      (and_then (map_entry name (map (fun kv => (DStr (fst kv), dbg_string_list (snd kv))) (c_alias c))) (at_debug [])).
    rewrite map_shown. unfold under. destruct (bget name (c_alias c)); cbn; [apply slist_shown|exact I].
  - static_at dbg_soa (b_target (c_build c)).
    destruct (b_target (c_build c)) as [[v|l]|]; cbn; [| |exact I].
    + left. exists v. split; [reflexivity|]. now rewrite word_shown.
    + right. split; [reflexivity|]. now rewrite words_shown.
  - static_at dbg_flags (b_rustflags (c_build c)).
    destruct (b_rustflags (c_build c)); cbn; [apply flags_shown|exact I].
  - static_at dbg_flags (b_rustdocflags (c_build c)).
    destruct (b_rustdocflags (c_build c)); cbn; [apply flags_shown|exact I].
  - change (at_debug [B "target"; t; B "rustflags"] (dbg_config c)) with
      (at_debug [t; B "rustflags"] (dbg_map dbg_target (c_target c))).
    rewrite (under_shown dbg_target dbg_flags t_rustflags _ _ _ _ eq_refl) by reflexivity.
    unfold under. destruct (bget t (c_target c)) as [x|]; [|exact I].
    destruct (t_rustflags x); cbn; [apply flags_shown|exact I].
  - change (at_debug [B "target"; t; B "rustdocflags"] (dbg_config c)) with
      (at_debug [t; B "rustdocflags"] (dbg_map dbg_target (c_target c))).
    rewrite (under_shown dbg_target dbg_flags t_rustdocflags _ _ _ _ eq_refl) by reflexivity.
    unfold under. destruct (bget t (c_target c)) as [x|]; [|exact I].
    destruct (t_rustdocflags x); cbn; [apply flags_shown|exact I].
Qed.
Lemma program_shown k c : both shown_program (look_program k c) (at_debug (program_place k) (dbg_config c)).
Proof.
  destruct k; cbn [look_program program_place].
  - static_at dbg_path_and_args (d_browser (c_doc c)).
    destruct (d_browser (c_doc c)); cbn; [apply pa_shown|exact I].
  - change (at_debug [B "target"; t; B "runner"] (dbg_config c)) with
      (at_debug [t; B "runner"] (dbg_map dbg_target (c_target c))).
    rewrite (under_shown dbg_target dbg_path_and_args t_runner _ _ _ _ eq_refl) by reflexivity.
    unfold under. destruct (bget t (c_target c)) as [x|]; [|exact I].
    destruct (t_runner x); cbn; [apply pa_shown|exact I].
Qed.

(** ** Nothing else is lost *)
Section Inj.
Context {A : Type} (f : A -> dbg).
Definition inj := forall a b, f a = f b -> a = b.
End Inj.
Lemma opt_inj {A} (f : A -> dbg) : inj f -> inj (dbg_opt f).
Proof. intros H [a|] [b|]; cbn; [intros [= E]; f_equal; auto|discriminate..|reflexivity]. Qed.
Lemma list_inj {A} (f : A -> dbg) l l' : inj f -> map f l = map f l' -> l = l'.
Proof.
  intros H. revert l'. induction l as [|a l IH]; intros [|b l']; cbn; [reflexivity|discriminate..|].
  intros [= E E']. f_equal; auto.
Qed.
Lemma definition_inj : inj dbg_definition.
Proof. intros [p|n|[p|]] [p'|n'|[p'|]]; cbn; congruence. Qed.
Lemma value_inj {A} (f : A -> dbg) : inj f -> inj (dbg_value f).
Proof.
  intros H [a d] [a' d']. unfold dbg_value. cbn [val def]. intros E. injection E as E1 E2.
  apply H in E1. apply (opt_inj _ definition_inj) in E2. now subst.
Qed.
Lemma str_inj : inj DStr. Proof. intros a b [= ->]. reflexivity. Qed.
Lemma os_inj : inj DOs. Proof. intros a b [= ->]. reflexivity. Qed.
Lemma bool_inj : inj DBool. Proof. intros a b [= ->]. reflexivity. Qed.
Lemma num_inj : inj DNum. Proof. intros a b [= ->]. reflexivity. Qed.
Lemma n_inj : inj dbg_n. Proof. intros a b [= E]. now apply N2Z.inj. Qed.
Lemma vstr_inj : inj dbg_vstr. Proof. exact (value_inj _ str_inj). Qed.
Lemma vbool_inj : inj dbg_vbool. Proof. exact (value_inj _ bool_inj). Qed.
Lemma vn_inj : inj dbg_vn. Proof. exact (value_inj _ n_inj). Qed.
Lemma vcs_inj : inj dbg_vcs. Proof. intros [] []; cbn; congruence. Qed.
Lemma protocol_inj : inj dbg_protocol. Proof. intros [] []; cbn; congruence. Qed.
Lemma color_inj : inj dbg_color. Proof. intros [] []; cbn; congruence. Qed.
Lemma when_inj : inj dbg_when. Proof. intros [] []; cbn; congruence. Qed.
Lemma frequency_inj : inj dbg_frequency. Proof. intros [] []; cbn; congruence. Qed.
Lemma repr_inj : inj dbg_repr. Proof. intros [] []; cbn; congruence. Qed.
Lemma strs_inj l l' : DList (map DStr l) = DList (map DStr l') -> l = l'.
Proof. intros [= E]. now apply (list_inj _ _ _ str_inj). Qed.
Lemma words_inj l l' : DList (map dbg_vstr l) = DList (map dbg_vstr l') -> l = l'.
Proof. intros E. injection E as E. now apply (list_inj _ _ _ vstr_inj). Qed.
Lemma struct_inj n n' l l' : DStruct n l = DStruct n' l' -> map snd l = map snd l'.
Proof. now intros [= _ ->]. Qed.
Ltac fields H := apply struct_inj in H; cbn [map snd] in H; injection H; clear H; intros.
Lemma flags_inj : inj dbg_flags.
Proof.
  intros [l r] [l' r'] H. unfold dbg_flags in H. fields H. cbn [fl_flags fl_repr] in *.
  apply repr_inj in H. apply (list_inj _ _ _ vstr_inj) in H0. now subst.
Qed.
Lemma pa_inj : inj dbg_path_and_args.
Proof.
  intros [p l r] [p' l' r'] H. unfold dbg_path_and_args in H. fields H. cbn [pa_path pa_args pa_repr] in *.
  apply repr_inj in H. apply (list_inj _ _ _ vstr_inj) in H0.
  assert (E : dbg_vstr p = dbg_vstr p') by (unfold dbg_vstr, dbg_value; congruence). apply vstr_inj in E. now subst.
Qed.
Lemma slist_inj : inj dbg_string_list.
Proof.
  intros [l r] [l' r'] H. unfold dbg_string_list in H. fields H. cbn [sl_list sl_repr] in *.
  apply repr_inj in H. apply (list_inj _ _ _ vstr_inj) in H0. now subst.
Qed.
Lemma tuple_inj n n' a b : DTuple n [a] = DTuple n' [b] -> n = n' /\ a = b.
Proof. intros H. injection H. auto. Qed.
Lemma soa_inj : inj dbg_soa.
Proof.
  intros [v|l] [v'|l'] H; unfold dbg_soa in H; apply tuple_inj in H as [N E]; try discriminate N.
  - f_equal. now apply vstr_inj.
  - f_equal. now apply words_inj.
Qed.
Lemma env_inj : inj dbg_env_config_value.
Proof.
  intros [v|v f r] [v'|v' f' r'] H; unfold dbg_env_config_value in H; try discriminate H.
  - apply tuple_inj in H as [_ E]. f_equal. now apply vstr_inj.
  - apply struct_inj in H. cbn [map snd] in H.
    assert (E : dbg_vstr v = dbg_vstr v' /\ dbg_opt dbg_vbool f = dbg_opt dbg_vbool f' /\ dbg_opt dbg_vbool r = dbg_opt dbg_vbool r')
      by (generalize dependent (dbg_vstr v); generalize dependent (dbg_vstr v'); intros ? ? H; injection H; auto).
    destruct E as (E1 & E2 & E3). apply vstr_inj in E1. apply (opt_inj _ vbool_inj) in E2, E3. now subst.
Qed.
Lemma map_inj {V} (f : V -> dbg) : inj f -> inj (dbg_map f).
Proof.
  intros H m m' E. unfold dbg_map in E. injection E as E.
  revert m' E. induction m as [|[k v] m IH]; intros [|[k' v'] m']; cbn; [reflexivity|discriminate..|].
  intros E. injection E as -> E1 E2. apply H in E1. apply IH in E2. now subst.
Qed.
Create HintDb dbg discriminated.
#[local] Hint Resolve opt_inj value_inj str_inj os_inj bool_inj num_inj n_inj vstr_inj vbool_inj vn_inj vcs_inj protocol_inj
  color_inj when_inj frequency_inj flags_inj pa_inj slist_inj soa_inj env_inj map_inj : dbg.
Lemma inj_use {A} (f : A -> dbg) a b : f a = f b -> inj f -> a = b.
Proof. auto. Qed.
Ltac use_inj := repeat match goal with
  | H : dbg_opt ?f _ = dbg_opt ?f _ |- _ => apply (inj_use (dbg_opt f)) in H; [|solve [eauto with dbg]]
  | H : dbg_map ?f _ = dbg_map ?f _ |- _ => apply (inj_use (dbg_map f)) in H; [|solve [eauto with dbg]]
  end.
Lemma build_inj : inj dbg_build.
Proof.
  intros [] [] H. unfold dbg_build in H. fields H.
  cbn [De.b_jobs De.b_rustc De.b_rustc_wrapper De.b_rustc_workspace_wrapper De.b_rustdoc De.b_target De.b_target_dir De.b_rustflags De.b_rustdocflags
       De.b_incremental De.b_dep_info_basedir De.b_override_target_rustflags De.b_override_target_rustdocflags] in *.
  use_inj. subst. reflexivity.
Qed.
Lemma target_inj : inj dbg_target.
Proof.
  intros [] [] H. unfold dbg_target in H. fields H. cbn [De.t_linker De.t_runner De.t_rustflags De.t_rustdocflags] in *.
  use_inj. subst. reflexivity.
Qed.
Lemma doc_inj : inj dbg_doc.
Proof. intros [] [] H. unfold dbg_doc in H. fields H. cbn [De.d_browser] in *. use_inj. now subst. Qed.
Lemma future_inj : inj dbg_future.
Proof. intros [] [] H. unfold dbg_future in H. fields H. cbn [De.f_frequency] in *. use_inj. now subst. Qed.
Lemma cargo_new_inj : inj dbg_cargo_new.
Proof. intros [] [] H. unfold dbg_cargo_new in H. fields H. cbn [De.cn_vcs] in *. use_inj. now subst. Qed.
Lemma http_inj : inj dbg_http.
Proof.
  intros [] [] H. unfold dbg_http in H. fields H.
  cbn [De.h_debug De.h_proxy De.h_timeout De.h_cainfo De.h_check_revoke De.h_low_speed_limit De.h_multiplexing De.h_user_agent] in *.
  use_inj. subst. reflexivity.
Qed.
Lemma net_inj : inj dbg_net.
Proof. intros [] [] H. unfold dbg_net in H. fields H. cbn [De.n_retry De.n_git_fetch_with_cli De.n_offline] in *. use_inj. now subst. Qed.
Lemma term_inj : inj dbg_term.
Proof.
  intros [q v c [wn wd]] [q' v' c' [wn' wd']] H. unfold dbg_term in H.
  cbn [De.tm_quiet De.tm_verbose De.tm_color De.tm_progress] in H.
  apply struct_inj in H. cbn [map snd] in H. unfold dbg_progress in H. cbn [De.p_when De.p_width] in H. injection H; clear H; intros.
  use_inj. now subst.
Qed.
Lemma redact_inj t t' : redact t = redact t' -> option_map hide_value t = option_map hide_value t'.
Proof. destruct t as [v|], t' as [v'|]; cbn; [intros H; injection H as E; unfold hide_value; now rewrite E|discriminate..|reflexivity]. Qed.
Lemma registries_inj r r' : dbg_registries r = dbg_registries r' -> hide_registries r = hide_registries r'.
Proof.
  destruct r, r'. intros H. unfold dbg_registries in H. fields H. cbn [De.r_index De.r_token De.r_protocol] in *. use_inj.
  unfold hide_registries. cbn [De.r_index De.r_token De.r_protocol]. apply redact_inj in H0. rewrite H0. now subst.
Qed.
Lemma registry_inj r r' : dbg_registry r = dbg_registry r' -> hide_registry r = hide_registry r'.
Proof.
  destruct r, r'. intros H. unfold dbg_registry in H. fields H. cbn [De.rg_default De.rg_token] in *. use_inj.
  unfold hide_registry. cbn [De.rg_default De.rg_token]. apply redact_inj in H. rewrite H. now subst.
Qed.
Lemma hidden_map_inj {V W} (f : V -> dbg) (g : V -> W) (m m' : bmap V) :
  (forall a b, f a = f b -> g a = g b) -> dbg_map f m = dbg_map f m' ->
  map (fun x => (fst x, g (snd x))) m = map (fun x => (fst x, g (snd x))) m'.
Proof.
  intros H E. unfold dbg_map in E. injection E as E.
  revert m' E. induction m as [|[k v] m IH]; intros [|[k' v'] m']; cbn; [reflexivity|discriminate..|].
  intros E. injection E as -> E1 E2. apply H in E1. apply IH in E2. now rewrite E1, E2.
Qed.
#[local] Hint Resolve target_inj : dbg.
Opaque dbg_map dbg_build dbg_doc dbg_future dbg_cargo_new dbg_http dbg_net dbg_registries dbg_registry dbg_term.
Lemma cons_inj {A} (a b : A) l l' : a :: l = b :: l' -> a = b /\ l = l'.
Proof. intros H. injection H. auto. Qed.
Ltac uncons H := repeat (let E := fresh "E" in apply cons_inj in H as [E H]).
Lemma config_inj c c' : dbg_config c = dbg_config c' -> hide c = hide c'.
Proof.
  intros H. unfold dbg_config in H. apply struct_inj in H. cbn [map snd] in H.
  destruct c, c'. cbn [De.c_alias De.c_build De.c_doc De.c_env De.c_future_incompat_report De.c_cargo_new De.c_http De.c_net
                     De.c_registries De.c_registry De.c_target De.c_term] in H. uncons H.
  unfold hide. cbn [De.c_alias De.c_build De.c_doc De.c_env De.c_future_incompat_report De.c_cargo_new De.c_http De.c_net
                     De.c_registries De.c_registry De.c_target De.c_term].
  repeat match goal with
  | H : dbg_build _ = _ |- _ => apply build_inj in H
  | H : dbg_doc _ = _ |- _ => apply doc_inj in H
  | H : dbg_future _ = _ |- _ => apply future_inj in H
  | H : dbg_cargo_new _ = _ |- _ => apply cargo_new_inj in H
  | H : dbg_http _ = _ |- _ => apply http_inj in H
  | H : dbg_net _ = _ |- _ => apply net_inj in H
  | H : dbg_term _ = _ |- _ => apply term_inj in H
  | H : dbg_registry _ = _ |- _ => apply registry_inj in H
  | H : dbg_map dbg_registries _ = _ |- _ => apply (hidden_map_inj _ _ _ _ registries_inj) in H
  end.
  use_inj. subst. f_equal; assumption.
Qed.
Transparent dbg_map dbg_build dbg_doc dbg_future dbg_cargo_new dbg_http dbg_net dbg_registries dbg_registry dbg_term.

Lemma env_shown c n : at_debug [B "env"; n] (dbg_config c) = option_map shown_entry (bget n (c_env c)).
Proof.
  change (at_debug [B "env"; n] (dbg_config c)) with
    (and_then (map_entry n (map (fun kv => (DStr (fst kv), dbg_env_config_value (snd kv))) (c_env c))) (at_debug [])).
  rewrite map_shown. destruct (bget n (c_env c)) as [[v|v f r]|]; [| |reflexivity]; cbn [option_map and_then at_debug]; f_equal.
  - unfold dbg_env_config_value, dbg_vstr. rewrite value_shown. reflexivity.
  - unfold dbg_env_config_value, dbg_vstr, dbg_vbool. rewrite !option_shown, value_shown.
    assert (K : forall o, option_map (dbg_value DBool) o = option_map shown_flag o).
    { intros [b|]; [cbn [option_map]; now rewrite value_shown|reflexivity]. }
    rewrite !K. reflexivity.
Qed.

(** ** The resolved configuration *)
Lemma plain_both {A} (R : A -> dbg -> Prop) (o : option A) (f : A -> dbg) :
  (forall a, R a (f a)) -> both R o (option_map f o).
Proof. intros H. destruct o as [v|]; cbn; [apply H|exact I]. Qed.
Lemma under_plain {V T} (g : V -> dbg) (f : T -> dbg) (h : V -> option T) (R : T -> dbg -> Prop) m n k t :
  at_debug [n; k] t = at_debug [n; k] (dbg_map g m) ->
  (forall v, at_debug [k] (g v) = and_then (present (dbg_opt f (h v))) (at_debug [])) -> (forall a, R a (f a)) ->
  both R (under m n h) (at_debug [n; k] t).
Proof. intros -> H Hr. rewrite (under_shown g f h m n k _ eq_refl H). now apply plain_both. Qed.
Lemma edbg_redact_eq t : edbg_redact t = dbg_opt (fun _ => DStr (B "[REDACTED]")) t.
Proof. now destruct t. Qed.

Ltac plain f o := static_at f o; apply plain_both.
Lemma easy_shown {A} (k : scalar_key A) c s : field k = true ->
  both (shown_plain k) (easy_look k c) (at_debug (place k) (edbg_config c s)).
Proof.
  intros N. destruct k; cbn [easy_look place field] in *; try discriminate N.
  - plain DNum (eb_jobs (ec_build c)). reflexivity.
  - plain DOs (eb_rustc (ec_build c)). reflexivity.
  - plain DOs (eb_rustc_wrapper (ec_build c)). reflexivity.
  - plain DOs (eb_rustc_workspace_wrapper (ec_build c)). reflexivity.
  - plain DOs (eb_rustdoc (ec_build c)). reflexivity.
  - plain DOs (eb_target_dir (ec_build c)). reflexivity.
  - plain DBool (eb_incremental (ec_build c)). reflexivity.
  - plain DOs (eb_dep_info_basedir (ec_build c)). reflexivity.
  - plain dbg_frequency (efr_frequency (ec_future_incompat_report c)). intros []; eexists; (split; [|reflexivity]); cbn; tauto.
  - plain dbg_vcs (ecn_vcs (ec_cargo_new c)). intros []; eexists; (split; [|reflexivity]); cbn; tauto.
  - plain DBool (eh_debug (ec_http c)). reflexivity.
  - plain DStr (eh_proxy (ec_http c)). reflexivity.
  - plain dbg_n (eh_timeout (ec_http c)). reflexivity.
  - plain DStr (eh_cainfo (ec_http c)). reflexivity.
  - plain DBool (eh_check_revoke (ec_http c)). reflexivity.
  - plain dbg_n (eh_low_speed_limit (ec_http c)). reflexivity.
  - plain DBool (eh_multiplexing (ec_http c)). reflexivity.
  - plain DStr (eh_user_agent (ec_http c)). reflexivity.
  - plain dbg_n (en_retry (ec_net c)). reflexivity.
  - plain DBool (en_git_fetch_with_cli (ec_net c)). reflexivity.
  - plain DBool (en_offline (ec_net c)). reflexivity.
  - change (at_debug [B "registries"; name; B "index"] (edbg_config c s)) with
      (at_debug [name; B "index"] (dbg_map edbg_registries (ec_registries c))).
    apply (under_plain edbg_registries DStr er_index); reflexivity.
  - change (at_debug [B "registries"; name; B "token"] (edbg_config c s)) with
      (at_debug [name; B "token"] (dbg_map edbg_registries (ec_registries c))).
    apply (under_plain edbg_registries (fun _ => DStr (B "[REDACTED]")) er_token); [reflexivity| |reflexivity].
    intros v. rewrite <- edbg_redact_eq. reflexivity.
  - change (at_debug [B "registries"; name; B "protocol"] (edbg_config c s)) with
      (at_debug [name; B "protocol"] (dbg_map edbg_registries (ec_registries c))).
    apply (under_plain edbg_registries dbg_protocol er_protocol); [reflexivity..|].
    intros []; eexists; (split; [|reflexivity]); cbn; tauto.
  - plain DStr (erg_default (ec_registry c)). reflexivity.
  - rewrite (field_shown (fun _ => DStr (B "[REDACTED]")) (erg_token (ec_registry c))).
    + apply plain_both. reflexivity.
    + rewrite <- edbg_redact_eq. reflexivity.
  - plain DBool (etm_quiet (ec_term c)). reflexivity.
  - plain DBool (etm_verbose (ec_term c)). reflexivity.
  - plain dbg_color (etm_color (ec_term c)). intros []; eexists; (split; [|reflexivity]); cbn; tauto.
  - plain dbg_when (epr_when (etm_progress (ec_term c))). intros []; eexists; (split; [|reflexivity]); cbn; tauto.
  - plain dbg_n (epr_width (etm_progress (ec_term c))). reflexivity.
Qed.
Ltac static_eq f o := match goal with |- at_debug ?p ?t = _ => rewrite (field_shown f o p t eq_refl) end.
Lemma easy_lists_shown c s :
  (forall n, at_debug (list_place (Alias n)) (edbg_config c s)
     = option_map (fun l => shown_texts "StringList" "list" (esl_list l)) (bget n (ec_alias c)))
  /\ at_debug (list_place BuildRustflags) (edbg_config c s)
     = option_map (fun f => shown_texts "Flags" "flags" (ef_flags f)) (eb_rustflags (ec_build c))
  /\ at_debug (list_place BuildRustdocflags) (edbg_config c s)
     = option_map (fun f => shown_texts "Flags" "flags" (ef_flags f)) (eb_rustdocflags (ec_build c))
  /\ at_debug (list_place BuildTarget) (edbg_config c s)
     = option_map (fun l => DList (map shown_triple l)) (eb_target (ec_build c))
  /\ at_debug (program_place DocBrowser) (edbg_config c s) = option_map shown_command (ed_browser (ec_doc c))
  /\ (forall n, at_debug [B "env"; n] (edbg_config c s) = option_map shown_variable (bget n (ec_env c))).
Proof.
  split; [|split; [|split; [|split; [|split]]]].
  - intros n. change (at_debug (list_place (Alias n)) (edbg_config c s)) with
      (and_then (map_entry n (map (fun kv => (DStr (fst kv), edbg_strs "StringList" "list" (esl_list (snd kv)))) (ec_alias c))) (at_debug [])).
    rewrite (map_shown (fun v => edbg_strs "StringList" "list" (esl_list v))). now destruct (bget n (ec_alias c)).
  - static_eq edbg_flags (eb_rustflags (ec_build c)). reflexivity.
  - static_eq edbg_flags (eb_rustdocflags (ec_build c)). reflexivity.
  - static_eq (fun l => DList (map edbg_triple l)) (eb_target (ec_build c)).
    destruct (eb_target (ec_build c)) as [l|]; [|reflexivity]. cbn [option_map]. f_equal. f_equal. apply map_ext.
    intros t. unfold edbg_triple, shown_triple. now rewrite option_shown.
  - static_eq edbg_pa (ed_browser (ec_doc c)). reflexivity.
  - intros n. change (at_debug [B "env"; n] (edbg_config c s)) with
      (and_then (map_entry n (map (fun kv => (DStr (fst kv), edbg_env (snd kv))) (ec_env c))) (at_debug [])).
    rewrite map_shown. now destruct (bget n (ec_env c)).
Qed.

(** Nothing else is lost here either. *)
Lemma eflags_inj : inj edbg_flags.
Proof. intros [l] [l'] H. unfold edbg_flags, edbg_strs in H. fields H. cbn [ef_flags] in *. apply (list_inj _ _ _ str_inj) in H. now subst. Qed.
Lemma epa_inj : inj edbg_pa.
Proof.
  intros [p l] [p' l'] H. unfold edbg_pa in H. fields H. cbn [epa_path epa_args] in *.
  apply (list_inj _ _ _ os_inj) in H. now subst.
Qed.
Lemma etriple_inj : inj edbg_triple.
Proof. intros [t p] [t' p'] H. unfold edbg_triple in H. fields H. cbn [tt_triple tt_spec_path] in *. apply (opt_inj _ os_inj) in H. now subst. Qed.
Lemma etriples_inj : inj (fun l => DList (map edbg_triple l)).
Proof. intros l l' H. injection H as H. now apply (list_inj _ _ _ etriple_inj). Qed.
#[local] Hint Resolve eflags_inj epa_inj etriple_inj etriples_inj : dbg.
Lemma ebuild_inj : inj edbg_build.
Proof.
  intros [] [] H. unfold edbg_build in H. apply struct_inj in H. cbn [map snd] in H.
  cbn [EasyTypes.eb_jobs EasyTypes.eb_rustc EasyTypes.eb_rustc_wrapper EasyTypes.eb_rustc_workspace_wrapper
    EasyTypes.eb_rustdoc EasyTypes.eb_target EasyTypes.eb_target_dir EasyTypes.eb_rustflags EasyTypes.eb_rustdocflags
    EasyTypes.eb_incremental EasyTypes.eb_dep_info_basedir EasyTypes.eb_override_target_rustflags EasyTypes.eb_de_rustflags
    EasyTypes.eb_override_target_rustdocflags EasyTypes.eb_de_rustdocflags] in H. uncons H.
  use_inj. repeat match goal with E : DBool _ = DBool _ |- _ => apply bool_inj in E end. subst. reflexivity.
Qed.
Lemma etarget_inj : inj edbg_target.
Proof.
  intros [] [] H. unfold edbg_target in H. apply struct_inj in H. cbn [map snd] in H.
  cbn [EasyTypes.et_linker EasyTypes.et_runner EasyTypes.et_rustflags EasyTypes.et_rustdocflags] in H. uncons H.
  use_inj. now subst.
Qed.
Lemma edoc_inj : inj edbg_doc.
Proof. intros [] [] H. unfold edbg_doc in H. apply struct_inj in H. cbn [map snd EasyTypes.ed_browser] in H. uncons H. use_inj. now subst. Qed.
Lemma eenv_inj : inj edbg_env.
Proof. intros [] [] H. unfold edbg_env in H. fields H. cbn [EasyTypes.ee_value EasyTypes.ee_force EasyTypes.ee_relative] in *. now subst. Qed.
Lemma efuture_inj : inj edbg_future.
Proof. intros [] [] H. unfold edbg_future in H. apply struct_inj in H. cbn [map snd EasyTypes.efr_frequency] in H. uncons H. use_inj. now subst. Qed.
Lemma ecargo_new_inj : inj edbg_cargo_new.
Proof. intros [] [] H. unfold edbg_cargo_new in H. apply struct_inj in H. cbn [map snd EasyTypes.ecn_vcs] in H. uncons H. use_inj. now subst. Qed.
Lemma ehttp_inj : inj edbg_http.
Proof.
  intros [] [] H. unfold edbg_http in H. apply struct_inj in H. cbn [map snd] in H.
  cbn [EasyTypes.eh_debug EasyTypes.eh_proxy EasyTypes.eh_timeout EasyTypes.eh_cainfo EasyTypes.eh_check_revoke
    EasyTypes.eh_low_speed_limit EasyTypes.eh_multiplexing EasyTypes.eh_user_agent] in H. uncons H. use_inj. now subst.
Qed.
Lemma enet_inj : inj edbg_net.
Proof.
  intros [] [] H. unfold edbg_net in H. apply struct_inj in H.
  cbn [map snd EasyTypes.en_retry EasyTypes.en_git_fetch_with_cli EasyTypes.en_offline] in H. uncons H. use_inj. now subst.
Qed.
Lemma eterm_inj : inj edbg_term.
Proof.
  intros [q v c [wn wd]] [q' v' c' [wn' wd']] H. unfold edbg_term in H. apply struct_inj in H.
  cbn [map snd EasyTypes.etm_quiet EasyTypes.etm_verbose EasyTypes.etm_color EasyTypes.etm_progress
    EasyTypes.epr_when EasyTypes.epr_width] in H. uncons H.
  match goal with E : DStruct _ _ = DStruct _ _ |- _ => apply struct_inj in E; cbn [map snd] in E; uncons E end.
  use_inj. now subst.
Qed.
Lemma eredact_inj t t' : edbg_redact t = edbg_redact t' -> option_map (fun _ : str => @nil ascii) t = option_map (fun _ => []) t'.
Proof. destruct t, t'; cbn; congruence. Qed.
Lemma eregistries_inj r r' : edbg_registries r = edbg_registries r' -> hide_easy_registries r = hide_easy_registries r'.
Proof.
  destruct r, r'. intros H. unfold edbg_registries in H. apply struct_inj in H.
  cbn [map snd EasyTypes.er_index EasyTypes.er_token EasyTypes.er_protocol] in H. uncons H. use_inj.
  unfold hide_easy_registries. cbn [EasyTypes.er_index EasyTypes.er_token EasyTypes.er_protocol].
  match goal with E : edbg_redact _ = _ |- _ => apply eredact_inj in E; rewrite E end. now subst.
Qed.
Lemma eregistry_inj r r' : edbg_registry r = edbg_registry r' -> hide_easy_registry r = hide_easy_registry r'.
Proof.
  destruct r, r'. intros H. unfold edbg_registry in H. apply struct_inj in H.
  cbn [map snd EasyTypes.erg_default EasyTypes.erg_token] in H. uncons H. use_inj.
  unfold hide_easy_registry. cbn [EasyTypes.erg_default EasyTypes.erg_token].
  match goal with E : edbg_redact _ = _ |- _ => apply eredact_inj in E; rewrite E end. now subst.
Qed.

Lemma pairs_inj {K V} (g : K -> dbg) (f : V -> dbg) (l l' : list (K * V)) : inj g -> inj f ->
  DMap (map (fun kv => (g (fst kv), f (snd kv))) l) = DMap (map (fun kv => (g (fst kv), f (snd kv))) l') -> l = l'.
Proof.
  intros Hg Hf H. injection H as H. revert l' H.
  induction l as [|[k v] l IH]; intros [|[k' v'] l'] H; try discriminate; [reflexivity|]. cbn [map fst snd] in H.
  injection H as Hk Hv H. apply Hg in Hk. apply Hf in Hv. apply IH in H. now subst.
Qed.
Lemma sets_inj l l' : DSet (map DStr l) = DSet (map DStr l') -> l = l'.
Proof. intros H. injection H as H. exact (list_inj _ _ _ str_inj H). Qed.
Lemma cx_inj x x' s s' : edbg_cx x s = edbg_cx x' s' ->
  cx_env x = cx_env x' /\ s_rustc s = s_rustc s' /\ cx_cargo x = cx_cargo x' /\ cx_cargo_home0 x = cx_cargo_home0 x'
  /\ s_host s = s_host s' /\ s_rustc_version s = s_rustc_version s' /\ s_cargo_version s = s_cargo_version s'
  /\ s_cfg s = s_cfg s' /\ cx_current_dir x = cx_current_dir x'.
Proof.
  intros H. unfold edbg_cx in H. apply struct_inj in H. cbn [map snd] in H. uncons H.
  repeat split.
  - revert E. apply (pairs_inj DStr DOs); [exact str_inj|exact os_inj].
  - revert E0. apply opt_inj. exact epa_inj.
  - now apply os_inj.
  - revert E2. apply opt_inj, opt_inj. exact os_inj.
  - revert E3. apply opt_inj. exact str_inj.
  - revert E4. apply opt_inj. intros [a b p n] [a' b' p' n'] G. apply struct_inj in G.
    cbn [map snd rv_major rv_minor rv_patch rv_nightly] in G. uncons G. use_inj.
    repeat match goal with K : dbg_n _ = dbg_n _ |- _ => apply n_inj in K | K : DBool _ = DBool _ |- _ => apply bool_inj in K end.
    now subst.
  - revert E5. apply opt_inj. intros [a b p n] [a' b' p' n'] G. apply struct_inj in G.
    cbn [map snd cv_major cv_minor cv_patch cv_nightly] in G. uncons G.
    repeat match goal with K : dbg_n _ = dbg_n _ |- _ => apply n_inj in K | K : DBool _ = DBool _ |- _ => apply bool_inj in K end.
    now subst.
  - revert E6.
    apply (pairs_inj DOs (fun c => DStruct "Cfg"
                [("flags"%string, DSet (map DStr (cfg_flags c)));
                 ("key_values"%string, DMap (map (fun kv => (DStr (fst kv), DSet (map DStr (snd kv))))
                                        (cfg_key_values c)))])); [exact os_inj|].
    intros [f kv] [f' kv'] G. apply struct_inj in G. cbn [map snd cfg_flags cfg_key_values] in G. uncons G.
    apply sets_inj in E6. apply (pairs_inj DStr (fun l => DSet (map DStr l))) in E8; [now subst|exact str_inj|].
    intros l l'. apply sets_inj.
  - now apply os_inj.
Qed.
#[local] Hint Resolve eenv_inj etarget_inj target_inj : dbg.
Lemma alias_inj : inj (fun l => edbg_strs "StringList" "list" (esl_list l)).
Proof. intros [l] [l'] H. unfold edbg_strs in H. apply struct_inj in H. cbn [map snd esl_list] in H. uncons H. apply strs_inj in E. now subst. Qed.
Opaque edbg_strs edbg_build edbg_doc edbg_env edbg_future edbg_cargo_new edbg_http edbg_net edbg_registries edbg_registry edbg_term
  edbg_cx edbg_target dbg_map dbg_target.
Lemma econfig_inj c c' s s' : edbg_config c s = edbg_config c' s' ->
  (forall x, hide_easy c x = hide_easy c' x) /\ same_cells c c' s s'.
Proof.
  intros H. unfold edbg_config in H. apply struct_inj in H. cbn [map snd] in H. uncons H.
  apply (map_inj _ alias_inj) in E. apply ebuild_inj in E0. apply edoc_inj in E1. apply (map_inj _ eenv_inj) in E2.
  apply efuture_inj in E3. apply ecargo_new_inj in E4. apply ehttp_inj in E5. apply enet_inj in E6.
  apply (hidden_map_inj _ _ _ _ eregistries_inj) in E7. apply eregistry_inj in E8.
  apply (pairs_inj DOs edbg_target) in E9; [|exact os_inj|exact etarget_inj].
  apply (map_inj _ target_inj) in E10. apply eterm_inj in E11. apply cx_inj in E12.
  split; [|constructor; tauto].
  intros x. unfold hide_easy. rewrite E, E0, E1, E2, E3, E4, E5, E6, E8, E10, E11. f_equal. exact E7.
Qed.
Lemma econfig_same c c' s s' :
  (forall x, hide_easy c x = hide_easy c' x) -> same_cells c c' s s' -> edbg_config c s = edbg_config c' s'.
Proof.
  intros H []. specialize (H (ec_cx c)).
  transitivity (edbg_config (mkEconfig (ec_alias c') (ec_build c') (ec_doc c') (ec_env c') (ec_future_incompat_report c')
    (ec_cargo_new c') (ec_http c') (ec_net c') (ec_registries c') (ec_registry c') (ec_de_target c') (ec_term c') (ec_cx c)) s).
  - assert (K : forall d, edbg_config (hide_easy d (ec_cx d)) s = edbg_config d s).
    { intros d. rewrite edbg_hide. now destruct d. }
    rewrite <- (K c), H. match goal with |- _ = edbg_config ?d s => exact (K d) end.
  - assert (X : edbg_cx (ec_cx c) s = edbg_cx (ec_cx c') s').
    { Transparent edbg_cx. unfold edbg_cx.
      now rewrite sc_env, sc_rustc, sc_cargo, sc_home, sc_host, sc_rustc_version, sc_cargo_version, sc_cfg, sc_dir. }
    unfold edbg_config. cbn [ec_alias ec_build ec_doc ec_env ec_future_incompat_report ec_cargo_new ec_http ec_net ec_registries
      ec_registry ec_de_target ec_term ec_cx]. rewrite sc_target, X. reflexivity.
Qed.
