(** Lemmas about the settings of a target. *)
From Verif.Model Require Import Base Str Path BMap Error Value De CfgExpr Triple EasyTypes Context
  ApplyEnv Process Resolve Easy.
From Verif.Spec Require Import StrSpec ConfigSpec EnvSpec CfgSpec TripleSpec TargetSpec.
From Verif.Proof Require Import StrFacts BMapFacts CfgEvalProof CfgOutputProof StateProof TripleProof.

(** ** Names of variables *)

Lemma upper_chars s : target_u_upper s = map env_char s.
Proof.
  unfold target_u_upper, ascii_uppercase, target_u_lower. rewrite map_map. apply map_ext. intros c.
  destruct c as [[] [] [] [] [] [] [] []]; reflexivity.
Qed.
Lemma target_var_name t key :
  B "CARGO_TARGET_" ++ target_u_upper t ++ (B "_" ++ key) = target_variable t key.
Proof. unfold target_variable. now rewrite upper_chars. Qed.

Lemma is_cfg_starts k : starts_with (B "cfg(") k = is_cfg k.
Proof.
  unfold is_cfg. apply eq_true_iff_eq. rewrite starts_with_iff, str_eqb_eq. split.
  - intros (r & ->). reflexivity.
  - intros H. exists (skipn 4 k). rewrite <- H. symmetry. apply firstn_skipn.
Qed.

(** ** Cells used by [target_cfg] *)

Definition any_config (cx : context) (b : ebuild) : econfig :=
  mkEconfig [] b (mkEdoc None) [] (mkEfuture None) (mkEcargoNew None)
    (mkEhttp None None None None None None None None) (mkEnet None None None) []
    (mkEregistry None None) [] (mkEterm None None None (mkEprogress None None)) cx.

Section Cfg.
Context (pr : profile) (w : world) (cx : context) (b : ebuild) (t : triple).

Lemma grows_target_cfg s : grows s (snd (target_cfg w cx b t s)).
Proof.
  apply (q_target_cfg grows grows_refl grows_trans w (any_config cx b)); intros; try (grow; fail).
  cbv zeta in *. cbn in *. grow. intros t' c' G.
  destruct (str_eqb t' (cli_target t0)) eqn:E; [|assumption]. apply str_eqb_eq in E as ->. congruence.
Qed.
Lemma grows_resolve_cfgs tables acc s : grows s (snd (resolve_cfgs pr w cx b t tables acc s)).
Proof.
  apply (q_resolve_cfgs grows grows_refl grows_trans pr w (any_config cx b)); intros; try (grow; fail).
  cbv zeta in *. cbn in *. grow. intros t' c' G.
  destruct (str_eqb t' (cli_target t0)) eqn:E; [|assumption]. apply str_eqb_eq in E as ->. congruence.
Qed.
Lemma grows_resolve_target tables s : grows s (snd (resolve_target pr w cx b tables t s)).
Proof.
  apply (q_resolve_target grows grows_refl grows_trans pr w (any_config cx b)); intros; try (grow; fail).
  cbv zeta in *. cbn in *. grow. intros t' c' G.
  destruct (str_eqb t' (cli_target t0)) eqn:E; [|assumption]. apply str_eqb_eq in E as ->. congruence.
Qed.

Lemma target_cfg_cached s c : cfg_get (cli_target t) (s_cfg s) = Some c ->
  target_cfg w cx b t s = (Ok c, s).
Proof. intros H. unfold target_cfg. rewrite bindM_eq. cbn [get]. now rewrite H. Qed.
Lemma target_cfg_ok s c s' : target_cfg w cx b t s = (Ok c, s') ->
  cfg_get (cli_target t) (s_cfg s') = Some c.
Proof.
  unfold target_cfg. rewrite bindM_eq. cbn [get].
  destruct (cfg_get (cli_target t) (s_cfg s)) as [c0|] eqn:E; [now intros [= <- <-]|].
  intros H. apply bindM_ok in H as (r & s1 & _ & H). apply bindM_ok in H as (out & s2 & _ & H).
  cbv zeta in H. apply bindM_ok in H as ([] & s3 & Ha & H). injection H as <- <-.
  injection Ha as <-. cbn. now rewrite str_eqb_refl.
Qed.

Definition matched (c : cfg) (k : str) : bool :=
  match parse_expr pr k with
  | Ok e => match eval_expr (E := error) logic_bool (cfg_pred c) e with Ok m => m | _ => false end
  | _ => false
  end.
Definition matched_in (s : state) (k : str) : bool :=
  match cfg_get (cli_target t) (s_cfg s) with Some c => matched c k | None => false end.

Lemma eval_cfg_ok k s m s' : eval_cfg pr w cx b k t s = (Ok m, s') ->
  exists e c, parse_expr pr k = Ok e /\ target_cfg w cx b t s = (Ok c, s') /\
  eval_expr (E := error) logic_bool (cfg_pred c) e = Ok m.
Proof.
  unfold eval_cfg. intros H. apply bindM_ok in H as (e & s1 & He & H). unfold lift in He.
  destruct (parse_expr pr k) as [e'| |] eqn:P; cbn in He; try discriminate. injection He as <- <-.
  apply bindM_ok in H as (c & s2 & Hc & H). unfold lift in H. injection H as H <-. eauto 10.
Qed.

Notation settings := (option (value str) * option path_and_args * option flags)%type.
Definition add_table (acc : settings) (v : target_config) : settings :=
  let '(linker, runner, rustflags) := acc in
  (or_keep linker (t_linker v), or_keep runner (t_runner v),
   match t_rustflags v with Some f => append_flags rustflags f | None => rustflags end).

Lemma resolve_cfgs_ok tables : forall acc s r s',
  resolve_cfgs pr w cx b t tables acc s = (Ok r, s') ->
  r = fold_left add_table (matching tables (matched_in s')) acc
  /\ (forall k v, In (k, v) tables -> is_cfg k = true ->
        exists e c, parse_expr pr k = Ok e /\ cfg_get (cli_target t) (s_cfg s') = Some c
        /\ eval_expr (E := error) logic_bool (cfg_pred c) e = Ok (matched_in s' k)).
Proof.
  induction tables as [|[k v] tables IH]; intros acc s r s' H.
  { cbn in H. injection H as <- <-. split; [reflexivity|]. intros k v []. }
  cbn [resolve_cfgs] in H. unfold matching. cbn [filter fst]. rewrite is_cfg_starts in H.
  destruct (is_cfg k) eqn:K; cbn [negb andb] in *.
  - apply bindM_ok in H as (m & s1 & Hm & H). apply eval_cfg_ok in Hm as (e & c & P & Hc & Ev).
    assert (G := grows_resolve_cfgs tables
      (let '(linker, runner, rustflags) := acc in
       if m then (match linker with Some _ => linker | None => t_linker v end,
              match runner with Some _ => runner | None => t_runner v end,
              match t_rustflags v with
              | Some f => append_flags rustflags f
              | None => rustflags
              end) else acc) s1).
    destruct acc as [[li ru] rf]. rewrite H in G. cbn [snd] in G.
    apply target_cfg_ok in Hc.
    assert (Hc' : cfg_get (cli_target t) (s_cfg s') = Some c) by now apply G.
    assert (Em : matched_in s' k = m).
    { unfold matched_in, matched. now rewrite Hc', P, Ev. }
    apply IH in H as [-> H]. split.
    + rewrite Em. destruct m; [|reflexivity]. cbn [map fold_left snd add_table].
      assert (forall A (x y : option A), match x with Some _ => x | None => y end = or_keep x y) as EE
        by (intros A [] y; reflexivity).
      now rewrite !EE.
    + intros k' v' [[= <- <-]|I] K'; [|eauto]. exists e, c. rewrite Em. auto.
  - apply IH in H as [-> H]. split; [reflexivity|].
    intros k' v' [[= <- <-]|I] K'; [congruence|eauto].
Qed.

(** ** Folding *)

Lemma fold_linker l : forall acc,
  fst (fst (fold_left add_table l acc)) = first_defined (fst (fst acc) :: map t_linker l).
Proof.
  induction l as [|v l IH]; intros [[li ru] rf]; [now destruct li|]. cbn [fold_left]. rewrite IH.
  cbn. destruct li; reflexivity.
Qed.
Lemma first_defined_map {A A'} (f : A -> A') l :
  first_defined (map (option_map f) l) = option_map f (first_defined l).
Proof. induction l as [|[a|] l IH]; cbn; auto. Qed.
Lemma fold_runner l : forall acc,
  snd (fst (fold_left add_table l acc)) = first_defined (snd (fst acc) :: map t_runner l).
Proof.
  induction l as [|v l IH]; intros [[li ru] rf]; [now destruct ru|]. cbn [fold_left]. rewrite IH.
  cbn. destruct ru; reflexivity.
Qed.

Lemma gathered_none l : gathered (None :: l) = gathered l. Proof. reflexivity. Qed.
Lemma gathered_merge x y l :
  gathered (Some x :: Some y :: l) = gathered (Some (fst x, snd x ++ snd y) :: l).
Proof.
  destruct x as [fx wx], y as [fy wy]. unfold gathered. cbn. now rewrite app_assoc.
Qed.
Lemma append_words o f l :
  gathered (option_map flags_words (append_flags o f) :: l)
  = gathered (option_map flags_words o :: Some (flags_words f) :: l).
Proof. destruct o as [g|]; [|reflexivity]. cbn [option_map append_flags]. now rewrite gathered_merge. Qed.
Lemma fold_rustflags l : forall acc,
  option_map flags_words (snd (fold_left add_table l acc))
  = gathered (option_map flags_words (snd acc) :: map rustflags_words l).
Proof.
  induction l as [|v l IH]; intros [[li ru] rf].
  - cbn. destruct rf; [|reflexivity]. cbn. unfold flags_words. now rewrite app_nil_r.
  - cbn [fold_left]. rewrite IH. cbn [add_table snd map]. unfold rustflags_words at 2.
    destruct (t_rustflags v) as [f|]; [now rewrite append_words|]. now destruct rf.
Qed.

(** ** Variables *)

Lemma env_var_ok env name o : cx_env_var env name = Ok o ->
  o = option_map (of_variable name) (env_get name env)
  /\ (forall v, env_get name env = Some v -> utf8_valid v = true).
Proof.
  unfold cx_env_var, to_str. destruct (env_get name env) as [v|]; [|intros [= <-]; split; [reflexivity|discriminate]].
  destruct (utf8_valid v) eqn:V; [|discriminate]. intros [= <-]. split; [reflexivity|]. now intros v' [= <-].
Qed.
Lemma env_var_iff env name :
  (exists o, cx_env_var env name = Ok o) <-> (forall v, env_get name env = Some v -> utf8_valid v = true).
Proof.
  split; [intros (o & H); now apply env_var_ok in H|]. intros H. unfold cx_env_var, to_str.
  destruct (env_get name env) as [v|]; [|eauto]. rewrite (H v eq_refl). eauto.
Qed.
Lemma env_var_no_panic env name p : cx_env_var env name <> Panic p.
Proof. unfold cx_env_var. destruct (env_get name env) as [v|]; [|discriminate]. destruct (to_str v); discriminate. Qed.
End Cfg.

Lemma lift_ok {A} (r : result A) s a s' : lift r s = (Ok a, s') -> r = Ok a /\ s' = s.
Proof. unfold lift. now intros [= -> ->]. Qed.

Lemma with_def_variable name l : with_def (Some (DefEnv name)) l = map (of_variable name) l.
Proof. reflexivity. Qed.

Lemma pa_of_var_ok name v p : pa_of_var (of_variable name v) = Ok p ->
  program_words p = (AsString, map (of_variable name) (split_space_separated v))
  /\ split_space_separated v <> [].
Proof.
  unfold pa_of_var, pa_from_string. cbn [val def of_variable].
  destruct (split_space_separated v) as [|x l]; [discriminate|]. cbn. intros [= <-]. split; [reflexivity|discriminate].
Qed.

(** ** The settings of a target *)

(** How the [cfg(..)] keys were decided. *)
Definition decided (pr : profile) (t : triple) (s : state) (tables : bmap target_config) : Prop :=
  forall k v, In (k, v) tables -> is_cfg k = true ->
  exists e c, parse_expr pr k = Ok e /\ cfg_get (cli_target t) (s_cfg s) = Some c
  /\ eval_expr (E := error) logic_bool (cfg_pred c) e = Ok (matched_in pr t s k).

Lemma resolve_target_ok pr w cx b tables t s r s' :
  resolve_target pr w cx b tables t s = (Ok r, s') ->
  let env := cx_env cx in let T := tt_triple t in let m := matched_in pr t s' in
  is_cfg T = false /\ target_vars_readable env T /\ decided pr t s' tables
  /\ t_linker r = target_linker env tables m T
  /\ option_map program_words (t_runner r) = target_runner env tables m T
  /\ option_map flags_words (t_rustflags r)
     = target_rustflags env tables m T (eb_override_target_rustflags b) (option_map flags_words (eb_de_rustflags b))
  /\ option_map flags_words (t_rustdocflags r)
     = target_rustdocflags env tables T (eb_override_target_rustdocflags b) (option_map flags_words (eb_de_rustdocflags b)).
Proof.
  unfold resolve_target. cbv zeta. rewrite is_cfg_starts. destruct (is_cfg (tt_triple t)) eqn:C; [discriminate|].
  change (B "_LINKER") with (B "_" ++ B "LINKER"). change (B "_RUNNER") with (B "_" ++ B "RUNNER").
  change (B "_RUSTFLAGS") with (B "_" ++ B "RUSTFLAGS").
  change (B "_RUSTDOCFLAGS") with (B "_" ++ B "RUSTDOCFLAGS").
  rewrite !target_var_name. intros H.
  apply bindM_ok in H as (li & s1 & H1 & H). apply lift_ok in H1 as [H1 ->].
  apply bindM_ok in H as (rv & s2 & H2 & H). apply lift_ok in H2 as [H2 ->].
  apply bindM_ok in H as (ru & s3 & H3 & H). apply lift_ok in H3 as [H3 ->].
  apply bindM_ok in H as (fv & s4 & H4 & H). apply lift_ok in H4 as [H4 ->].
  apply bindM_ok in H as (dv & s5 & H5 & H). apply lift_ok in H5 as [H5 ->].
  apply bindM_ok in H as ([[li' ru'] rf'] & s6 & H6 & H). injection H as <- ->.
  apply resolve_cfgs_ok in H6 as [E D].
  apply env_var_ok in H1 as [-> V1]. apply env_var_ok in H2 as [-> V2].
  apply env_var_ok in H4 as [-> V4]. apply env_var_ok in H5 as [-> V5].
  set (T := tt_triple t) in *. set (m := matched_in pr t s') in *.
  set (base := match bget T tables with Some c => c | None => target_default end) in *.
  assert (Own : forall A (f : target_config -> option A), f target_default = None -> own tables T f = f base).
  { intros A f F. unfold own, under, base. destruct (bget T tables); auto. }
  assert (Ru : option_map program_words ru = var_words (cx_env cx) T (B "RUNNER")
               /\ (forall v, env_get (target_variable T (B "RUNNER")) (cx_env cx) = Some v ->
                             split_space_separated v <> [])).
  { unfold var_words. destruct (env_get (target_variable T (B "RUNNER")) (cx_env cx)) as [v|].
    - cbn [option_map opt_traverse] in H3.
      destruct (pa_of_var (of_variable (target_variable T (B "RUNNER")) v)) as [p|?|?] eqn:Q; try discriminate H3.
      injection H3 as <-. apply pa_of_var_ok in Q as [Q1 Q2].
      cbn. rewrite Q1. split; [reflexivity|]. now intros v' [= <-].
    - injection H3 as <-. split; [reflexivity|discriminate]. }
  destruct Ru as [Ru Nr].
  split; [reflexivity|]. split.
  { split; [|assumption]. intros key v I G.
    repeat (destruct I as [<-|I]; [eauto|]). destruct I. }
  split; [exact D|].
  assert (E1 := f_equal (fun x => fst (fst x)) E). assert (E2 := f_equal (fun x => snd (fst x)) E).
  assert (E3 := f_equal snd E). cbn [fst snd] in E1, E2, E3. clear E D.
  rewrite fold_linker in E1. rewrite fold_runner in E2. cbn [fst snd] in E1, E2.
  cbn [t_linker t_runner t_rustflags t_rustdocflags].
  split.
  { rewrite E1. unfold target_linker. rewrite (Own _ t_linker) by reflexivity. fold m. cbn [app].
    unfold var. destruct (env_get (target_variable T (B "LINKER")) (cx_env cx)); cbn; [reflexivity|].
    reflexivity. }
  split.
  { rewrite E2. unfold target_runner. rewrite (Own _ runner_words) by reflexivity. cbn [app].
    rewrite <- Ru. unfold runner_words at 2. rewrite <- (map_map t_runner (option_map program_words)).
    change (runner_words base) with (option_map program_words (t_runner base)).
    transitivity (option_map program_words (first_defined ([ru; t_runner base] ++ map t_runner (matching tables m)))).
    - f_equal. destruct ru; reflexivity.
    - rewrite <- first_defined_map. rewrite map_app. reflexivity. }
  assert (Add : forall cur key l,
            gathered (option_map flags_words
              (match option_map (of_variable (target_variable T key)) (env_get (target_variable T key) (cx_env cx)) with
               | Some v => append_flags cur (flags_from_space_separated (val v) (def v))
               | None => cur
               end) :: l)
            = gathered (option_map flags_words cur :: var_words (cx_env cx) T key :: l)).
  { intros cur key l. unfold var_words. destruct (env_get (target_variable T key) (cx_env cx)) as [v|]; cbn [option_map].
    - rewrite append_words. reflexivity.
    - now destruct (option_map flags_words cur). }
  split.
  - unfold target_rustflags. destruct (eb_override_target_rustflags b); [reflexivity|].
    rewrite (Own _ rustflags_words) by reflexivity.
    assert (F : option_map flags_words rf' = gathered ([rustflags_words base; var_words (cx_env cx) T (B "RUSTFLAGS")]
                  ++ map rustflags_words (matching tables m))).
    { rewrite E3, fold_rustflags. cbn [snd]. rewrite Add. reflexivity. }
    rewrite <- F. destruct rf'; reflexivity.
  - unfold target_rustdocflags. destruct (eb_override_target_rustdocflags b); [reflexivity|].
    rewrite (Own _ rustdocflags_words) by reflexivity.
    assert (Add' := Add (t_rustdocflags base) (B "RUSTDOCFLAGS") []).
    change (rustdocflags_words base) with (option_map flags_words (t_rustdocflags base)).
    rewrite <- Add'.
    destruct (match option_map _ _ with Some v => append_flags (t_rustdocflags base) _ | None => t_rustdocflags base end);
      [|reflexivity].
    cbn. unfold flags_words. now rewrite app_nil_r.
Qed.

(** ** Where the cached cfgs come from *)

Lemma printed_grows w s s' T out : grows s s' -> printed w s T out -> printed w s' T out.
Proof.
  intros (G1 & (l & G2) & G3 & _) (n & rustc & H1 & H2 & H3 & H4). exists n, rustc. cbv zeta.
  repeat split; auto; [lia|]. rewrite G2. apply in_or_app. now right.
Qed.
Lemma cfgs_printed_grows w s s' : grows s s' -> s_cfg s' = s_cfg s -> cfgs_printed w s -> cfgs_printed w s'.
Proof.
  intros G E H T c Hc. rewrite E in Hc. destruct (H T c Hc) as (out & Ho & P).
  exists out. split; [assumption|]. now apply (printed_grows w s).
Qed.

Section Known.
Context (pr : profile) (w : world) (c : econfig).
Let cx := ec_cx c.

Definition targets_known (s : state) : Prop :=
  forall T e, bget T (s_target s) = Some e ->
  exists t s1 s2 r, made t /\ cli_target t = T
    /\ resolve_target pr w cx (ec_build c) (ec_de_target c) t s1 = (Ok r, s2)
    /\ etarget_of (cx_current_dir cx) r = Ok e /\ grows s2 s.
Definition step (s s' : state) : Prop :=
  grows s s' /\ (cfgs_printed w s -> cfgs_printed w s') /\ (targets_known s -> targets_known s').

Lemma step_refl s : step s s. Proof. split; [apply grows_refl|auto]. Qed.
Lemma step_trans a b d : step a b -> step b d -> step a d.
Proof. intros (A1 & A2 & A3) (B1 & B2 & B3). split; [eapply grows_trans; eauto|auto]. Qed.
Lemma step_same s s' : grows s s' -> s_cfg s' = s_cfg s -> s_target s' = s_target s -> step s s'.
Proof.
  intros G E F. split; [assumption|]. split; [now apply cfgs_printed_grows|].
  intros H T e He. rewrite F in He. destruct (H T e He) as (t & s1 & s2 & r & H1 & H2 & H3 & H4 & H5).
  exists t, s1, s2, r. repeat (split; [assumption|]). now apply (grows_trans _ s).
Qed.

Lemma add_target_grows t e s : bget (cli_target t) (s_target s) = None ->
  grows s (snd (add_target (cli_target t) e s)).
Proof.
  intros N. grow. intros t' e' G. rewrite bget_binsert.
  destruct (str_eqb t' (cli_target t)) eqn:E; [|assumption]. apply str_eqb_eq in E as ->. congruence.
Qed.
Lemma add_cfg_grows T x s : cfg_get T (s_cfg s) = None -> grows s (snd (add_cfg T x s)).
Proof.
  intros N. grow. intros t' c' G.
  destruct (str_eqb t' T) eqn:E; [|assumption]. apply str_eqb_eq in E as ->. congruence.
Qed.

Lemma query_step q s : real_query q -> step s (snd (run_query pr w c q s)).
Proof.
  intros Rq.
  apply (query_moves step step_refl step_trans pr w c) with (P := made);
    try (intros; apply step_same; [grow|reflexivity|reflexivity]).
  - (* add_cfg *)
    intros s0 rustc t out Hr s1 Hout N.
    assert (G1 : grows s0 s1) by grow.
    assert (G2 := add_cfg_grows (cli_target t) (cfg_parse out) s1 N).
    assert (G := grows_trans _ _ _ G1 G2).
    split; [assumption|]. split.
    + intros H T x Hx. cbn in Hx. destruct (str_eqb T (cli_target t)) eqn:E.
      * apply str_eqb_eq in E as ->. injection Hx as <-. exists out. split; [reflexivity|].
        exists (s_clock s0), rustc. cbn. repeat split; auto.
      * destruct (H T x Hx) as (o & Ho & P). exists o. split; [assumption|]. now apply (printed_grows w s0).
    + intros H T e He. destruct (H T e He) as (t0 & a & b & r & H1 & H2 & H3 & H4 & H5).
      exists t0, a, b, r. repeat (split; [assumption|]). now apply (grows_trans _ s0).
  - (* add_target *)
    intros s0 t r s1 e Pt Hr He N (G1 & C1 & K1).
    assert (G2 := add_target_grows t e s1 N). assert (G := grows_trans _ _ _ G1 G2).
    split; [assumption|]. split.
    + intros H. apply (cfgs_printed_grows w s1); [assumption|reflexivity|auto].
    + intros H T x Hx. cbn in Hx. rewrite bget_binsert in Hx. destruct (str_eqb T (cli_target t)) eqn:E.
      * apply str_eqb_eq in E as ->. injection Hx as <-. exists t, s0, s1, r. auto 10.
      * destruct (K1 H T x Hx) as (t0 & a & b & r0 & H1 & H2 & H3 & H4 & H5).
        exists t0, a, b, r0. repeat (split; [assumption|]). now apply (grows_trans _ s1).
  - destruct q; cbn in *; auto; intros t Ht; destruct a; cbn in *; try congruence;
      unfold triple_from in Ht; unfold made; eauto.
Qed.

Lemma reached_known s : reached pr w c s -> cfgs_printed w s /\ targets_known s.
Proof.
  intros (qs & Hq & ->).
  assert (I : cfgs_printed w (state_init cx) /\ targets_known (state_init cx)) by (split; intros ? ? [=]).
  fold cx. revert I. generalize (state_init cx) as s. induction Hq as [|q qs H Hq IH]; intros s I; [assumption|].
  cbn [run_queries]. apply IH. destruct (query_step q s H) as (_ & A & K). split; [apply A, I|apply K, I].
Qed.
Lemma reached_step q s : reached pr w c s -> real_query q -> reached pr w c (snd (run_query pr w c q s)).
Proof.
  intros (qs & Hq & ->) Rq. exists (qs ++ [q]). split; [apply Forall_app; auto|].
  generalize (state_init (ec_cx c)) as s. induction qs as [|x qs IH]; intros s; [reflexivity|].
  cbn. inversion Hq; subst. now apply IH.
Qed.
End Known.

(** ** From cached cfgs to what was printed *)

Lemma cfg_pred_seen out p : cfg_pred (cfg_parse out) p = true <-> seen out p.
Proof.
  unfold seen. destruct p as [f|k v].
  - rewrite cfg_pred_iff by discriminate. tauto.
  - destruct v as [|x v].
    + rewrite cfg_pred_empty. split; [discriminate|intros [_ []]; reflexivity].
    + rewrite cfg_pred_iff by (intros ? ? [= <- <-]; discriminate). split; [|tauto].
      intros H. split; [assumption|discriminate].
Qed.

Lemma decided_true pr k e out b :
  utf8_valid k = true -> parse_expr pr k = Ok e ->
  eval_expr (E := error) logic_bool (cfg_pred (cfg_parse out)) e = Ok b ->
  true_of out k b.
Proof.
  intros V P Ev.
  destruct (parse_ok_accepted pr k V) as (x & roots & U & A); [now rewrite P|].
  exists x, roots. split; [assumption|]. split; [assumption|]. intros N.
  exists (cfg_pred (cfg_parse out)). split; [intros p; apply cfg_pred_seen|]. intros d.
  assert (Q := @parse_eval_bool error pr k x roots e d (cfg_pred (cfg_parse out)) V U (proj1 A) N P).
  rewrite Ev in Q. now injection Q.
Qed.

Definition keys_utf8 {V} (m : bmap V) : Prop := forall k v, In (k, v) m -> utf8_valid k = true.

Lemma decided_decided_by pr w t s s' tables :
  keys_utf8 tables -> decided pr t s tables -> grows s s' -> cfgs_printed w s' ->
  decided_by w s' (cli_target t) tables (matched_in pr t s).
Proof.
  intros U D G P.
  assert (Cases : has_cfg tables \/ ~ has_cfg tables).
  { clear. induction tables as [|[k v] l IH].
    - right. intros (k & v & [] & _).
    - destruct (is_cfg k) eqn:E; [left; exists k, v; cbn; auto|].
      destruct IH as [(k' & v' & I & K)|N]; [left; exists k', v'; cbn; auto|].
      right. intros (k' & v' & [[= <- <-]|I] & K); [congruence|]. apply N. exists k', v'. auto. }
  destruct Cases as [(k & v & I & K)|N].
  - destruct (D k v I K) as (e & x & _ & Hx & _).
    assert (Hx' : cfg_get (cli_target t) (s_cfg s') = Some x) by now apply G.
    destruct (P _ _ Hx') as (out & -> & Pr). exists out. split; [auto|].
    intros k' v' I' K'. destruct (D k' v' I' K') as (e' & x' & P' & Hx2 & Ev).
    assert (x' = cfg_parse out) as -> by congruence.
    eapply decided_true; eauto.
  - exists []. split; [tauto|]. intros k v I K. destruct N. exists k, v. auto.
Qed.

(** ** Answers *)

Lemma q_target_ok pr w c a s e s' : q_target pr w c a s = (Ok e, s') ->
  exists t, to_triple a = Ok t /\ bget (cli_target t) (s_target s') = Some e.
Proof.
  unfold q_target. intros H. apply bindM_ok in H as (t & s1 & Ht & H). apply lift_ok in Ht as [Ht ->].
  exists t. split; [assumption|]. unfold q_target_of in H.
  apply bindM_ok in H as ([] & s2 & _ & H). apply bindM_ok in H as (s3 & s4 & Hg & H). injection Hg as <- <-.
  destruct (bget (cli_target t) (s_target s2)) as [x|] eqn:E; [|discriminate]. now injection H as <- <-.
Qed.
Lemma real_arg_made a t : real_arg a -> to_triple a = Ok t -> made t.
Proof.
  destruct a as [x|x]; cbn; intros R H; [|congruence]. unfold triple_from in H. unfold made. eauto.
Qed.

Definition answer_of (q : query) (e : etarget) : answer :=
  match q with
  | QLinker _ => APath (et_linker e)
  | QRunner _ => APa (et_runner e)
  | QRustflags _ => AFlags (et_rustflags e)
  | QRustdocflags _ => AFlags (et_rustdocflags e)
  | _ => ATarget e
  end.
Lemma bindM_assoc {A A1 A2} (m : M A) (f : A -> M A1) (g : A1 -> M A2) s :
  bindM (bindM m f) g s = bindM m (fun a => bindM (f a) g) s.
Proof. rewrite !bindM_eq. destruct (m s) as [[x|x|x] s1]; reflexivity. Qed.
Lemma target_query_run pr w c q a s : target_query q a ->
  run_query pr w c q s = bindM (q_target pr w c a) (fun e => ret (answer_of q e)) s.
Proof.
  intros [-> | [-> | [-> | [-> | -> ]]]]; cbn [run_query]; unfold mapM, q_linker, q_runner, q_rustflags, q_rustdocflags;
    try rewrite bindM_assoc; reflexivity.
Qed.
Lemma target_query_ok pr w c q a s x s' : target_query q a -> run_query pr w c q s = (Ok x, s') ->
  exists e, q_target pr w c a s = (Ok e, s') /\ x = answer_of q e.
Proof.
  intros Q H. rewrite (target_query_run _ _ _ _ _ _ Q) in H. apply bindM_ok in H as (e & s1 & H & K).
  injection K as <- <-. eauto.
Qed.
Lemma target_query_real q a : target_query q a -> real_arg a -> real_query q.
Proof. intros [-> | [-> | [-> | [-> | -> ]]]]; auto. Qed.

(** Where the answer came from. *)
Lemma target_answer pr w c q a t s x s' :
  reached pr w c s -> target_query q a -> real_arg a -> to_triple a = Ok t ->
  run_query pr w c q s = (Ok x, s') ->
  exists e s1 s2 r,
    x = answer_of q e /\ bget (cli_target t) (s_target s') = Some e
    /\ resolve_target pr w (ec_cx c) (ec_build c) (ec_de_target c) t s1 = (Ok r, s2)
    /\ etarget_of (cx_current_dir (ec_cx c)) r = Ok e /\ grows s2 s' /\ cfgs_printed w s'.
Proof.
  intros Rs Q Ra Ht H.
  assert (Rs' := reached_step pr w c q s Rs (target_query_real _ _ Q Ra)). rewrite H in Rs'. cbn [snd] in Rs'.
  destruct (reached_known _ _ _ _ Rs') as [P K].
  apply (target_query_ok _ _ _ _ _ _ _ _ Q) in H as (e & H & ->).
  apply q_target_ok in H as (t' & Ht' & He). assert (t' = t) as -> by congruence.
  destruct (K _ _ He) as (t0 & s1 & s2 & r & M0 & E0 & H1 & H2 & H3).
  assert (t0 = t) as -> by (apply made_unique; eauto using real_arg_made).
  exists e, s1, s2, r. auto 10.
Qed.

(** ** Success *)

Section Success.
Context (pr : profile) (w : world) (cx : context) (b : ebuild) (t : triple).

Lemma resolve_cfgs_success tables : keys_utf8 tables ->
  (forall k v, In (k, v) tables -> is_cfg k = true -> is_ok (parse_expr pr k) = true) ->
  forall acc s, (has_cfg tables -> exists x s1, target_cfg w cx b t s = (Ok x, s1)) ->
  exists r s', resolve_cfgs pr w cx b t tables acc s = (Ok r, s').
Proof.
  induction tables as [|[k v] tables IH]; intros U P acc s H; [cbn; unfold ret; eauto|].
  cbn [resolve_cfgs]. rewrite is_cfg_starts.
  assert (U' : keys_utf8 tables) by (intros k' v' I; apply (U k' v'); now right).
  assert (P' : forall k v, In (k, v) tables -> is_cfg k = true -> is_ok (parse_expr pr k) = true)
    by (intros k' v' I; apply (P k' v'); now right).
  destruct (is_cfg k) eqn:K; cbn [negb].
  - assert (Pk := P k v (or_introl eq_refl) K). assert (Uk := U k v (or_introl eq_refl)).
    destruct H as (x & s1 & H); [exists k, v; cbn; auto|].
    unfold eval_cfg. destruct (parse_expr pr k) as [e| |] eqn:Q; try discriminate Pk.
    destruct (parse_eval_ok (E := error) logic_bool (cfg_pred x) pr k e Uk Q) as (m & Ev).
    rewrite bindM_eq. cbn [map_err]. rewrite bindM_eq. unfold lift at 1. rewrite bindM_eq, H. unfold lift. rewrite Ev.
    destruct acc as [[x1 x2] x3]. apply IH; auto. intros _. exists x, s1.
    apply target_cfg_cached. now apply target_cfg_ok in H.
  - apply IH; auto. intros (k' & v' & I & K'). apply H. exists k', v'. cbn; auto.
Qed.

Lemma resolve_target_success tables s : keys_utf8 tables ->
  is_cfg (tt_triple t) = false -> target_vars_readable (cx_env cx) (tt_triple t) ->
  (forall k v, In (k, v) tables -> is_cfg k = true -> is_ok (parse_expr pr k) = true) ->
  (has_cfg tables -> exists x s1, target_cfg w cx b t s = (Ok x, s1)) ->
  exists r s', resolve_target pr w cx b tables t s = (Ok r, s').
Proof.
  intros U C [V N] P H. unfold resolve_target. cbv zeta. rewrite is_cfg_starts, C.
  change (B "_LINKER") with (B "_" ++ B "LINKER"). change (B "_RUNNER") with (B "_" ++ B "RUNNER").
  change (B "_RUSTFLAGS") with (B "_" ++ B "RUSTFLAGS").
  change (B "_RUSTDOCFLAGS") with (B "_" ++ B "RUSTDOCFLAGS").
  rewrite !target_var_name.
  assert (R : forall key, In key [B "LINKER"; B "RUNNER"; B "RUSTFLAGS"; B "RUSTDOCFLAGS"] ->
              cx_env_var (cx_env cx) (target_variable (tt_triple t) key)
              = Ok (option_map (of_variable (target_variable (tt_triple t) key))
                      (env_get (target_variable (tt_triple t) key) (cx_env cx)))).
  { intros key I. destruct (proj2 (env_var_iff (cx_env cx) (target_variable (tt_triple t) key))) as (o & E).
    - intros v. now apply V.
    - rewrite E. apply env_var_ok in E as [-> _]. reflexivity. }
  do 2 (rewrite bindM_eq; unfold lift at 1; rewrite R by (cbn; auto)).
  assert (Ru : exists p, opt_traverse pa_of_var
              (option_map (of_variable (target_variable (tt_triple t) (B "RUNNER")))
                 (env_get (target_variable (tt_triple t) (B "RUNNER")) (cx_env cx))) = Ok p).
  { destruct (env_get (target_variable (tt_triple t) (B "RUNNER")) (cx_env cx)) as [v|] eqn:E; [|cbn; eauto].
    specialize (N v eq_refl). cbn [option_map opt_traverse]. unfold pa_of_var, pa_from_string. cbn [val def of_variable].
    destruct (split_space_separated v) as [|y l]; [easy|]. cbn. eauto. }
  destruct Ru as (p & Ru). rewrite bindM_eq. unfold lift at 1. rewrite Ru.
  do 2 (rewrite bindM_eq; unfold lift at 1; rewrite R by (cbn; auto 10)).
  rewrite bindM_eq.
  match goal with |- context [resolve_cfgs pr w cx b t tables ?acc s] =>
    destruct (resolve_cfgs_success tables U P acc s H) as ([[r1 r2] r3] & s' & E) end.
  rewrite E. unfold ret. eauto.
Qed.

Lemma target_cfg_no_panic s p : fst (target_cfg w cx b t s) <> Panic p.
Proof.
  unfold target_cfg. rewrite bindM_eq. cbn [get].
  destruct (cfg_get (cli_target t) (s_cfg s)); [discriminate|].
  assert (Hr : exists r s1, cx_rustc w cx b s = (Ok r, s1)).
  { unfold cx_rustc. rewrite bindM_eq. cbn [get]. destruct (s_rustc s); [unfold ret; eauto|].
    unfold base_rustc. destruct (eb_rustc b); eexists; eexists; reflexivity. }
  destruct Hr as (r & s1 & Hr). rewrite bindM_eq, Hr, bindM_eq. unfold run_read at 1.
  assert (Np : forall cmd o p, read_outcome cmd o <> Panic p).
  { intros cmd o p'. unfold read_outcome. destruct o; try discriminate.
    destruct success; [|discriminate]. destruct (to_str stdout); discriminate. }
  destruct (read_outcome _ _) as [o|e|p'] eqn:E; [discriminate|discriminate|now apply Np in E].
Qed.
Lemma resolve_cfgs_no_panic tables p : keys_utf8 tables -> overflow_checks pr = false ->
  forall acc s, fst (resolve_cfgs pr w cx b t tables acc s) <> Panic p.
Proof.
  intros U O. induction tables as [|[k v] tables IH]; intros acc s; [discriminate|].
  assert (U' : keys_utf8 tables) by (intros k' v' I; apply (U k' v'); now right).
  cbn [resolve_cfgs]. destruct (negb (starts_with (B "cfg(") k)); [auto|].
  rewrite bindM_eq. unfold eval_cfg. rewrite bindM_eq. unfold lift at 1.
  assert (Uk := U k v (or_introl eq_refl)).
  destruct (parse_expr pr k) as [e|e|p'] eqn:Q; cbn [map_err]; [|discriminate|].
  - rewrite bindM_eq. assert (Tp := target_cfg_no_panic s).
    destruct (target_cfg w cx b t s) as [[x|e'|p'] s1]; [|discriminate|now destruct (Tp p')].
    destruct (parse_eval_ok (E := error) logic_bool (cfg_pred x) pr k e Uk Q) as (m & Ev).
    unfold lift. rewrite Ev. destruct acc as [[x1 x2] x3]. auto.
  - apply parse_no_panic in Q; [|assumption]. destruct Q as (_ & O' & _). congruence.
Qed.
Lemma resolve_target_no_panic tables s p : keys_utf8 tables -> overflow_checks pr = false ->
  fst (resolve_target pr w cx b tables t s) <> Panic p.
Proof.
  intros U O. unfold resolve_target. cbv zeta. destruct (starts_with _ _); [discriminate|].
  assert (Lb : forall A B (r : result A) (f : A -> M B) s, (forall q, r <> Panic q) ->
            (forall a s, fst (f a s) <> Panic p) -> fst (bindM (lift r) f s) <> Panic p).
  { intros A B0 r f s0 Nr Nf. rewrite bindM_eq. unfold lift. destruct r; [auto|discriminate|now destruct (Nr p0)]. }
  apply Lb; [intros q; apply env_var_no_panic|intros x1 s1].
  apply Lb; [intros q; apply env_var_no_panic|intros x2 s2].
  apply Lb; [|intros x3 s3].
  { intros q. destruct x2 as [v|]; [|discriminate]. cbn. unfold pa_of_var, context_opt.
    destruct (pa_from_string _ _); discriminate. }
  apply Lb; [intros q; apply env_var_no_panic|intros x4 s4].
  apply Lb; [intros q; apply env_var_no_panic|intros x5 s5].
  rewrite bindM_eq.
  match goal with |- context [resolve_cfgs pr w cx b t tables ?acc s5] =>
    assert (K := resolve_cfgs_no_panic tables p U O acc s5);
    destruct (resolve_cfgs pr w cx b t tables acc s5) as [[[[r1 r2] r3]|e|q] s6] end;
    [discriminate|discriminate|cbn in *; congruence].
Qed.
End Success.
