(** Borrow flags. *)
From Verif.Model Require Import Base Str Path BMap Error Value De Triple EasyTypes Context ApplyEnv Resolve Easy CfgExpr Borrow.
From Verif.Spec Require Import BorrowSpec.

Scheme script_ind2 := Induction for script Sort Prop with call_ind2 := Induction for call Sort Prop.
Combined Scheme script_call_ind from script_ind2, call_ind2.

(** ** Without callbacks: the flags do not matter *)
Definition at_flags (t cf : flag) (s : bstate) : Prop := b_target s = t /\ b_cfg s = cf.
Definition agree {A} (t cf : flag) (b : BM A) (m : M A) : Prop := forall s, at_flags t cf s -> b s = plain m s.
Lemma plain_agree {A} t cf (m : M A) : agree t cf (plain m) m.
Proof. intros s _. reflexivity. Qed.
Lemma ret_agree {A} t cf (a : A) : agree t cf (bret a) (ret a).
Proof. intros [s t' cf'] _. reflexivity. Qed.
Lemma bind_agree {A A'} t cf (b : BM A) (m : M A) (f : A -> BM A') g :
  agree t cf b m -> (forall a, agree t cf (f a) (g a)) -> agree t cf (bbind b f) (bindM m g).
Proof.
  intros H K s F. unfold bbind. rewrite (H s F). destruct F as [Ft Fc]. unfold plain, bindM.
  destruct (m (b_cells s)) as [[a|e|p] s'] eqn:E; try reflexivity. rewrite (K a); [reflexivity|]. now split.
Qed.
Lemma get_agree {A} t cf (f : state -> BM A) g :
  (forall z s, at_flags t cf s -> b_cells s = z -> f z s = plain (g z) s) -> agree t cf (bbind (plain get) f) (bindM get g).
Proof. intros H s F. unfold bbind, plain at 1, get, bindM. rewrite (H (b_cells s)); destruct s; [reflexivity|exact F|reflexivity]. Qed.

Lemma base_rustc_cell w cx b s : s_rustc (snd (base_rustc w cx b s)) = s_rustc s.
Proof. unfold base_rustc. now destruct (eb_rustc b). Qed.
Lemma rustc_agree w cx b t cf : agree t cf (b_rustc w cx b) (cx_rustc w cx b).
Proof.
  apply get_agree. intros z s F E. destruct (s_rustc z) as [r|] eqn:R; [now apply ret_agree with t cf|].
  subst z. pose proof (base_rustc_cell w cx b (b_cells s)) as K. rewrite R in K.
  unfold bbind, plain, bindM, get. cbv beta.
  destruct (base_rustc w cx b (b_cells s)) as [[p|e|p] s1]; cbn [snd] in K; [|reflexivity..].
  cbn [b_cells b_target b_cfg]. rewrite K. reflexivity.
Qed.
Lemma target_cfg_agree w cx b tr t cf : agree t cf (b_target_cfg w cx b tr) (target_cfg w cx b tr).
Proof.
  apply get_agree. intros z s F E. destruct (cfg_get _ _); [now apply (ret_agree t cf)|].
  refine (bind_agree t cf _ _ _ _ (rustc_agree w cx b t cf) _ s F). intros r.
  refine (bind_agree t cf _ _ _ _ (plain_agree t cf _) _). intros l.
  refine (bind_agree t cf _ _ _ _ (plain_agree t cf _) _). intros []. apply ret_agree.
Qed.
(** A guard around something that does not care. *)
Lemma with_target_agree {A} t cf f (take : flag -> option flag) (b : BM A) m :
  take t = Some f -> release f = t -> agree f cf b m -> agree t cf (with_target take b) m.
Proof.
  intros T R H s [Ft Fc]. unfold with_target. rewrite Ft, T, (H (on_target f s)) by now split.
  unfold plain, on_target. cbn [b_cells b_target b_cfg]. destruct (m (b_cells s)) as [r s']. cbn. now rewrite R, Ft.
Qed.
Lemma with_cfg_agree {A} t cf f (take : flag -> option flag) (b : BM A) m :
  take cf = Some f -> release f = cf -> agree t f b m -> agree t cf (with_cfg take b) m.
Proof.
  intros T R H s [Ft Fc]. unfold with_cfg. rewrite Fc, T, (H (on_cfg f s)) by now split.
  unfold plain, on_cfg. cbn [b_cells b_target b_cfg]. destruct (m (b_cells s)) as [r s']. cbn. now rewrite R, Fc.
Qed.
Lemma eval_cfg_agree pr w cx b k tr t : agree t (Shared 0) (b_eval_cfg pr w cx b k tr) (eval_cfg pr w cx b k tr).
Proof.
  apply bind_agree; [apply plain_agree|]. intros e. apply (with_cfg_agree t (Shared 0) Unique); [reflexivity..|].
  apply bind_agree; [apply target_cfg_agree|]. intros c. apply plain_agree.
Qed.
Lemma resolve_cfgs_agree pr w cx b tr t tables : forall acc,
  agree t (Shared 0) (b_resolve_cfgs pr w cx b tr tables acc) (resolve_cfgs pr w cx b tr tables acc).
Proof.
  induction tables as [|[k v] l IH]; intros acc; [apply ret_agree|]. cbn [b_resolve_cfgs resolve_cfgs].
  destruct (negb _); [apply IH|]. apply bind_agree; [apply eval_cfg_agree|]. intros m.
  destruct acc as [[li ru] rf]. apply IH.
Qed.
Lemma resolve_target_agree pr w cx b tables tr t :
  agree t (Shared 0) (b_resolve_target pr w cx b tables tr) (resolve_target pr w cx b tables tr).
Proof.
  unfold b_resolve_target, resolve_target. destruct (starts_with _ _); [apply plain_agree|].
  repeat (apply bind_agree; [apply plain_agree|intros ?]).
  apply bind_agree; [apply resolve_cfgs_agree|]. intros [[li ru] rf]. apply ret_agree.
Qed.
Lemma init_agree pr w c tr : agree (Shared 0) (Shared 0) (b_init_target_config pr w c tr) (init_target_config pr w c tr).
Proof.
  apply (with_target_agree _ _ Unique); [reflexivity..|]. apply get_agree. intros z s F E.
  destruct (bget _ _); [now apply (ret_agree Unique (Shared 0))|].
  refine (bind_agree Unique (Shared 0) _ _ _ _ (resolve_target_agree _ _ _ _ _ _ _) _ s F). intros de.
  apply bind_agree; [apply plain_agree|]. intros e. apply plain_agree.
Qed.
Lemma target_query_agree pr w c a : agree (Shared 0) (Shared 0) (b_target_query pr w c a) (q_target pr w c a).
Proof.
  apply bind_agree; [apply plain_agree|]. intros tr. apply bind_agree; [apply init_agree|]. intros [].
  apply (with_target_agree _ _ (Shared 1)); [reflexivity..|]. apply get_agree. intros z s F E.
  destruct (bget _ _); [now apply (ret_agree (Shared 1) (Shared 0))|reflexivity].
Qed.
Lemma mapped_agree {A} pr w c a (k : etarget -> A) :
  agree (Shared 0) (Shared 0) (bbind (b_target_query pr w c a) (fun e => bret (k e))) (mapM k (q_target pr w c a)).
Proof. apply bind_agree; [apply target_query_agree|]. intros e. apply ret_agree. Qed.
Lemma mapped_twice {A A' A''} (g : A' -> A'') (f : A -> A') (m : M A) s :
  mapM g (bindM m (fun e => ret (f e))) s = mapM (fun a => g (f a)) m s.
Proof. unfold mapM, bindM, ret. now destruct (m s) as [[]]. Qed.
Lemma query_agree pr w c q : agree (Shared 0) (Shared 0) (b_query pr w c q) (run_query pr w c q).
Proof.
  destruct q as [a|a|a|a|a|l|l| | | | | ]; cbn [b_query run_query].
  - apply mapped_agree.
  - intros s F. rewrite (mapped_agree pr w c a _ s F). unfold plain, q_linker. now rewrite mapped_twice.
  - intros s F. rewrite (mapped_agree pr w c a _ s F). unfold plain, q_runner. now rewrite mapped_twice.
  - intros s F. rewrite (mapped_agree pr w c a _ s F). unfold plain, q_rustflags. now rewrite mapped_twice.
  - intros s F. rewrite (mapped_agree pr w c a _ s F). unfold plain, q_rustdocflags. now rewrite mapped_twice.
  - apply plain_agree.
  - apply plain_agree.
  - apply bind_agree; [apply rustc_agree|]. intros r. apply ret_agree.
  - apply plain_agree.
  - apply plain_agree.
  - apply plain_agree.
  - apply plain_agree.
Qed.
(** Queries that are not about a target never look at the flags. *)
Lemma modest_query_agree pr w c q t cf : about_target q = None -> agree t cf (b_query pr w c q) (run_query pr w c q).
Proof.
  destruct q as [a|a|a|a|a|l|l| | | | | ]; intros H; try discriminate H; cbn [b_query run_query].
  - apply plain_agree.
  - apply plain_agree.
  - apply bind_agree; [apply rustc_agree|]. intros r. apply ret_agree.
  - apply plain_agree.
  - apply plain_agree.
  - apply plain_agree.
  - apply plain_agree.
Qed.
(** A known target needs the flag of [target] only. *)
Lemma known_agree pr w c q a tr s cf :
  about_target q = Some a -> to_triple a = Ok tr -> at_flags (Shared 0) cf s ->
  bget (cli_target tr) (s_target (b_cells s)) <> None ->
  b_query pr w c q s = plain (run_query pr w c q) s.
Proof.
  intros Q T [Ft Fc] K. destruct s as [z t f]. cbn in Ft, Fc, K. subst t f. destruct (bget (cli_target tr) (s_target z)) as [e|] eqn:E; [|easy].
  assert (X : b_target_query pr w c a (mkB z (Shared 0) cf) = (Done (Ok e), mkB z (Shared 0) cf)).
  { unfold b_target_query, bbind, plain, lift. rewrite T. cbn. rewrite E. cbn. rewrite E. reflexivity. }
  assert (Y : q_target pr w c a z = (Ok e, z)).
  { unfold q_target, q_target_of, init_target_config, bindM, lift, get, ret. rewrite T, E. cbn. now rewrite E. }
  destruct q; try discriminate Q; injection Q as ->; cbn [b_query run_query];
    unfold q_linker, q_runner, q_rustflags, q_rustdocflags, bbind, plain, mapM, bindM; rewrite X; cbn [b_cells]; now rewrite Y.
Qed.
(** A target query with [target] borrowed. *)
Lemma trips pr w c q a tr s :
  about_target q = Some a -> to_triple a = Ok tr -> b_target s <> Shared 0 -> b_query pr w c q s = (Tripped, s).
Proof.
  intros Q T F.
  assert (X : b_target_query pr w c a s = (Tripped, s)).
  { unfold b_target_query, bbind, plain, lift. rewrite T. unfold b_init_target_config, with_target. cbn. destruct s as [z [[|n]|] cf]; [now destruct F|reflexivity..]. }
  destruct q; try discriminate Q; injection Q as ->; cbn [b_query]; unfold bbind; now rewrite X.
Qed.

(** ** Every guard is given back *)
Definition keeps {A} (b : BM A) : Prop := forall s, b_target (snd (b s)) = b_target s /\ b_cfg (snd (b s)) = b_cfg s.
Lemma keeps_plain {A} (m : M A) : keeps (plain m).
Proof. intros s. unfold plain. now destruct (m (b_cells s)). Qed.
Lemma keeps_ret {A} (a : A) : keeps (bret a). Proof. now intros s. Qed.
Lemma keeps_bind {A A'} (b : BM A) (f : A -> BM A') : keeps b -> (forall a, keeps (f a)) -> keeps (bbind b f).
Proof.
  intros H K s. unfold bbind. specialize (H s). destruct (b s) as [[[a|e|p]| |] s']; cbn [snd] in *; try exact H.
  destruct (K a s') as [K1 K2]. now rewrite K1, K2.
Qed.
Lemma keeps_with_target {A} take (b : BM A) :
  (forall t f, take t = Some f -> release f = t) -> keeps b -> keeps (with_target take b).
Proof.
  intros T H s. unfold with_target. destruct (take (b_target s)) as [f|] eqn:E; [|now split].
  specialize (H (on_target f s)). destruct (b (on_target f s)) as [r s']. cbn in *. destruct H as [-> ->]. split; [now apply T|reflexivity].
Qed.
Lemma keeps_with_cfg {A} take (b : BM A) :
  (forall t f, take t = Some f -> release f = t) -> keeps b -> keeps (with_cfg take b).
Proof.
  intros T H s. unfold with_cfg. destruct (take (b_cfg s)) as [f|] eqn:E; [|now split].
  specialize (H (on_cfg f s)). destruct (b (on_cfg f s)) as [r s']. cbn in *. destruct H as [-> ->]. split; [reflexivity|now apply T].
Qed.
Lemma unique_back t f : take_unique t = Some f -> release f = t.
Proof. destruct t as [[|n]|]; try discriminate. now intros [= <-]. Qed.
Lemma shared_back t f : take_shared t = Some f -> release f = t.
Proof. destruct t as [n|]; try discriminate. now intros [= <-]. Qed.
#[local] Hint Resolve keeps_plain keeps_ret keeps_bind keeps_with_target keeps_with_cfg unique_back shared_back : keeps.
Lemma keeps_trip {A} : keeps (@btrip A). Proof. now intros s. Qed.
#[local] Hint Resolve keeps_trip : keeps.
Ltac keeps := repeat first [apply keeps_plain | apply keeps_ret | apply keeps_trip
  | apply keeps_with_target; [first [exact unique_back|exact shared_back]|]
  | apply keeps_with_cfg; [first [exact unique_back|exact shared_back]|]
  | apply keeps_bind; [|intros ?]
  | match goal with |- keeps (match ?x with _ => _ end) => destruct x end].
Lemma keeps_rustc w cx b : keeps (b_rustc w cx b).
Proof. unfold b_rustc. keeps. Qed.
Lemma keeps_eval_cfg pr w cx b k tr : keeps (b_eval_cfg pr w cx b k tr).
Proof. unfold b_eval_cfg, b_target_cfg. keeps. Qed.
Lemma keeps_resolve_cfgs pr w cx b tr tables : forall acc, keeps (b_resolve_cfgs pr w cx b tr tables acc).
Proof.
  induction tables as [|[k v] l IH]; intros acc; [apply keeps_ret|]. cbn [b_resolve_cfgs]. destruct (negb _); [apply IH|].
  apply keeps_bind; [apply keeps_eval_cfg|]. intros m. destruct acc as [[li ru] rf]. apply IH.
Qed.
Lemma keeps_target_query pr w c a : keeps (b_target_query pr w c a).
Proof.
  unfold b_target_query, b_init_target_config, b_resolve_target. keeps. apply keeps_resolve_cfgs.
Qed.
Lemma keeps_query pr w c q : keeps (b_query pr w c q).
Proof.
  assert (T : forall A (k : etarget -> A) a, keeps (bbind (b_target_query pr w c a) (fun e => bret (k e)))).
  { intros A k a. apply keeps_bind; [apply keeps_target_query|]. intros e. apply keeps_ret. }
  destruct q as [a|a|a|a|a|l|l| | | | | ]; cbn [b_query].
  1-5: apply T.
  1, 2, 4-7: apply keeps_plain.
  apply keeps_bind; [apply keeps_rustc|]. intros r. apply keeps_ret.
Qed.
Lemma keeps_show {A} (wc : (flag -> option flag) -> BM A -> BM A) f a b :
  (keeps (wc take_shared b)) -> keeps (try_show wc f a b).
Proof. intros H s. unfold try_show. destruct (f s); [apply H|now split]. Qed.
Lemma keeps_both pr w c : (forall sc, keeps (run_script pr w c sc)) /\ (forall x, keeps (run_call pr w c x)).
Proof.
  apply script_call_ind.
  - now intros s.
  - intros q s. now split.
  - intros x Hx k Hk s. cbn [run_script]. specialize (Hx s). destruct (run_call pr w c x s) as [r s']. cbn [snd] in Hx.
    destruct (Hk r s') as [K1 K2]. now rewrite K1, K2.
  - intros b Hb. cbn [run_call]. apply keeps_bind; [exact Hb|]. intros q. apply keeps_bind; [apply keeps_query|]. intros a. apply keeps_ret.
  - intros t Ht cf Hc. cbn [run_call]. apply keeps_bind; [apply keeps_show, keeps_with_target; [exact shared_back|exact Ht]|]. intros _.
    apply keeps_bind; [apply keeps_show, keeps_with_cfg; [exact shared_back|exact Hc]|]. intros _. apply keeps_ret.
  - intros t Ht. cbn [run_call]. apply keeps_bind; [apply keeps_with_target; [exact shared_back|apply keeps_plain]|]. intros s0.
    destruct (s_target s0); [apply keeps_ret|]. apply keeps_bind; [apply keeps_with_target; [exact shared_back|exact Ht]|]. intros _. apply keeps_ret.
Qed.

(** ** Careful calls are queries in turn *)
Lemma run_queries_app pr w c a b s : run_queries pr w c (a ++ b) s = run_queries pr w c b (run_queries pr w c a s).
Proof. revert s. induction a as [|q a IH]; intros s; [reflexivity|]. apply IH. Qed.
Lemma plain_fst {A} (m : M A) s : fst (plain m s) = Done (fst (m (b_cells s))) /\ b_cells (snd (plain m s)) = snd (m (b_cells s)).
Proof. unfold plain. now destruct (m (b_cells s)). Qed.

(** How the code of the caller ends. *)
Definition script_turns pr w c sc (s : state) (r : ending query) (s' : state) : Prop :=
  (r = Thrown \/ exists q, r = Done (Ok q) /\ gives sc q)
  /\ exists qs, Forall (makes sc) qs /\ s' = run_queries pr w c qs s.
Lemma ask_turns pr w c sc (r : ending query) z z' s' :
  run_script pr w c sc z = (r, z') -> script_turns pr w c sc (b_cells z) r (b_cells z') ->
  (forall q, r = Done (Ok q) -> b_query pr w c q z' = plain (run_query pr w c q) z') ->
  forall r', run_call pr w c (Ask sc) z = (r', s') ->
  in_turn pr w c (Ask sc) (b_cells z) r' (b_cells s').
Proof.
  intros E [R [qs [F Q]]] H r' X. cbn [run_call] in X. unfold bbind in X. rewrite E in X.
  assert (F' : Forall (asks (Ask sc)) qs) by (revert F; apply Forall_impl; cbn; auto).
  destruct R as [->|[q [-> G]]].
  - injection X as <- <-. exists qs. split; [exact F'|]. split; [exact Q|now left].
  - rewrite (H q eq_refl) in X. exists (qs ++ [q]). split; [apply Forall_app; split; [exact F'|constructor; [now right|constructor]]|].
    rewrite run_queries_app, <- Q. cbn [run_queries]. unfold plain in X.
    split; [|right; exists qs, q; split; [reflexivity|]; split; [exact G|]]; rewrite <- ?Q;
      destruct (run_query pr w c q (b_cells z')) as [[a|e|p] t]; now injection X as <- <-.
Qed.

(** Modest code does not look at the flags, as long as nothing is borrowed mutably. *)
Definition open (s : bstate) : Prop := b_target s <> Unique /\ b_cfg s <> Unique.
Lemma open_keeps {A} (b : BM A) s : keeps b -> open s -> open (snd (b s)).
Proof. intros K [H1 H2]. destruct (K s) as [K1 K2]. unfold open. now rewrite K1, K2. Qed.
Lemma show_target pr w c sc z r z' :
  b_target z <> Unique -> try_show with_target b_target no_query (run_script pr w c sc) z = (r, z') ->
  exists z0 z1, run_script pr w c sc z0 = (r, z1) /\ b_cells z0 = b_cells z /\ b_cells z1 = b_cells z'
  /\ b_cfg z0 = b_cfg z /\ b_target z0 <> Unique.
Proof.
  intros U. unfold try_show, with_target, take_shared. destruct (b_target z) as [n|] eqn:E; [|easy].
  destruct (run_script pr w c sc (on_target (Shared (S n)) z)) as [r0 z1] eqn:R. intros [= <- <-].
  exists (on_target (Shared (S n)) z), z1. now repeat split.
Qed.
Lemma show_cfg pr w c sc z r z' :
  b_cfg z <> Unique -> try_show with_cfg b_cfg no_query (run_script pr w c sc) z = (r, z') ->
  exists z0 z1, run_script pr w c sc z0 = (r, z1) /\ b_cells z0 = b_cells z /\ b_cells z1 = b_cells z'
  /\ b_target z0 = b_target z /\ b_cfg z0 <> Unique.
Proof.
  intros U. unfold try_show, with_cfg, take_shared. destruct (b_cfg z) as [n|] eqn:E; [|easy].
  destruct (run_script pr w c sc (on_cfg (Shared (S n)) z)) as [r0 z1] eqn:R. intros [= <- <-].
  exists (on_cfg (Shared (S n)) z), z1. now repeat split.
Qed.

(** Showing and storing, given that the code in the middle ends in turn. *)
Definition script_ok pr w c (P : bstate -> Prop) sc : Prop :=
  forall z r z', P z -> run_script pr w c sc z = (r, z') -> script_turns pr w c sc (b_cells z) r (b_cells z').
Lemma show_in_turn pr w c t cf z r z' :
  script_ok pr w c open t -> script_ok pr w c open cf -> open z -> run_call pr w c (Show t cf) z = (r, z') ->
  in_turn pr w c (Show t cf) (b_cells z) r (b_cells z').
Proof.
  intros Ht Hc O X. cbn [run_call] in X. unfold bbind in X at 1.
  destruct (try_show with_target b_target no_query (run_script pr w c t) z) as [r1 z1] eqn:E1.
  destruct (show_target _ _ _ _ _ _ _ (proj1 O) E1) as (a0 & a1 & A & A0 & A1 & Ac & At).
  assert (O0 : open a0) by (split; [exact At|rewrite Ac; apply O]).
  destruct (Ht _ _ _ O0 A) as [R1 [qs1 [F1 Q1]]]. rewrite A0, A1 in Q1.
  assert (F1' : Forall (asks (Show t cf)) qs1) by (revert F1; apply Forall_impl; cbn; auto).
  destruct R1 as [->|[q [-> _]]].
  { injection X as <- <-. exists qs1. auto. }
  assert (O1 : open z1).
  { replace z1 with (snd (try_show with_target b_target no_query (run_script pr w c t) z)) by now rewrite E1.
    apply open_keeps; [|exact O]. apply keeps_show, keeps_with_target; [exact shared_back|apply keeps_both]. }
  unfold bbind in X. destruct (try_show with_cfg b_cfg no_query (run_script pr w c cf) z1) as [r2 z2] eqn:E2.
  destruct (show_cfg _ _ _ _ _ _ _ (proj2 O1) E2) as (b0 & b1 & Bb & B0 & B1 & Bt & Bc).
  assert (O2 : open b0) by (split; [rewrite Bt; apply O1|exact Bc]).
  destruct (Hc _ _ _ O2 Bb) as [R2 [qs2 [F2 Q2]]]. rewrite B0, B1, Q1, <- run_queries_app in Q2.
  assert (F2' : Forall (asks (Show t cf)) qs2) by (revert F2; apply Forall_impl; cbn; auto).
  exists (qs1 ++ qs2). rewrite Forall_app.
  destruct R2 as [->|[q2 [-> _]]]; injection X as <- <-; auto.
Qed.
Lemma store_in_turn pr w c t z r z' :
  script_ok pr w c open t -> open z -> run_call pr w c (Store t) z = (r, z') ->
  in_turn pr w c (Store t) (b_cells z) r (b_cells z').
Proof.
  intros Ht O X. cbn [run_call] in X. unfold bbind in X at 1. unfold with_target in X at 1.
  destruct (b_target z) as [n|] eqn:E; [|now destruct (proj1 O)]. cbn [take_shared] in X.
  cbn [plain get on_target b_cells b_target b_cfg release] in X.
  destruct (s_target (b_cells z)) eqn:T.
  { injection X as <- <-. exists []. auto. }
  unfold bbind, with_target in X. cbn [b_target on_target take_shared] in X.
  match type of X with context [run_script pr w c t ?a] => destruct (run_script pr w c t a) as [r1 z1] eqn:E1 end.
  assert (O1 : open (on_target (Shared (S n)) (on_target (Shared n) (on_target (Shared (S n)) z)))) by (split; [discriminate|apply O]).
  destruct (Ht _ _ _ O1 E1) as [R1 [qs1 [F1 Q1]]]. cbn [on_target b_cells] in Q1. exists qs1.
  destruct R1 as [->|[q [-> _]]]; injection X as <- <-; auto.
Qed.
Lemma do_ok pr w c (P : bstate -> Prop) x k :
  (forall z, P z -> P (snd (run_call pr w c x z))) ->
  (forall z r z', P z -> run_call pr w c x z = (r, z') -> in_turn pr w c x (b_cells z) r (b_cells z')) ->
  (forall r, script_ok pr w c P (k r)) -> script_ok pr w c P (Do x k).
Proof.
  intros KP Hx Hk z r z' Pz X. cbn [run_script] in X. destruct (run_call pr w c x z) as [r1 z1] eqn:E.
  assert (P1 : P z1) by (specialize (KP z Pz); now rewrite E in KP).
  destruct (Hx _ _ _ Pz E) as [qs0 [F0 [Q0 _]]]. destruct (Hk r1 _ _ _ P1 X) as [R [qs [F Q]]]. split.
  { destruct R as [->|[q [-> G]]]; [now left|right; exists q; split; [reflexivity|now exists r1]]. }
  exists (qs0 ++ qs). rewrite run_queries_app, <- Q0. split; [|exact Q]. apply Forall_app. split.
  - revert F0. apply Forall_impl. cbn. auto.
  - revert F. apply Forall_impl. intros q G. cbn. right. now exists r1.
Qed.
Lemma modest_gives sc : modest_script sc -> forall q, gives sc q -> about_target q = None.
Proof.
  revert sc. apply (script_ind2 (fun sc => modest_script sc -> forall q, gives sc q -> about_target q = None) (fun _ => True)); auto.
  - intros _ q [].
  - intros q' M q ->. exact M.
  - intros x _ k Hk [_ M] q [r G]. exact (Hk r (M r) q G).
Qed.
Lemma modest_turns pr w c :
  (forall sc, modest_script sc -> script_ok pr w c open sc)
  /\ (forall x, modest x -> forall z r z', open z -> run_call pr w c x z = (r, z') ->
        in_turn pr w c x (b_cells z) r (b_cells z')).
Proof.
  apply script_call_ind.
  - intros _ z r z' _ [= <- <-]. split; [now left|]. exists []. auto.
  - intros q M z r z' _ [= <- <-]. split; [right; now exists q|]. exists []. auto.
  - intros x Hx k Hk [Mx Mk]. apply do_ok; [|now apply Hx|intros r; now apply Hk].
    intros z O. apply open_keeps; [apply keeps_both|exact O].
  - intros b Hb M z r z' O X. destruct (run_script pr w c b z) as [r1 z1] eqn:E. specialize (Hb M _ _ _ O E).
    refine (ask_turns pr w c b r1 z z1 z' E Hb _ r X). intros q ->.
    destruct Hb as [[D|[q' [D G]]] _]; [discriminate D|injection D as <-].
    apply (modest_query_agree pr w c q (b_target z1) (b_cfg z1)); [now apply (modest_gives b)|now split].
  - intros t Ht cf Hc [Mt Mc] z r z' O X. apply (show_in_turn pr w c t cf z); [apply Ht, Mt|apply Hc, Mc|exact O|exact X].
  - intros t Ht M z r z' O X. apply (store_in_turn pr w c t z); [apply Ht, M|exact O|exact X].
Qed.
Lemma unborrowed_open s : unborrowed s -> open s.
Proof. intros [H1 H2]. unfold open. now rewrite H1, H2. Qed.
Lemma careful_turns pr w c :
  (forall sc, careful_script sc -> script_ok pr w c unborrowed sc)
  /\ (forall x, careful x -> forall z r z', unborrowed z -> run_call pr w c x z = (r, z') ->
        in_turn pr w c x (b_cells z) r (b_cells z')).
Proof.
  assert (KU : forall A (b : BM A) z, keeps b -> unborrowed z -> unborrowed (snd (b z))).
  { intros A b z K [H1 H2]. destruct (K z) as [K1 K2]. unfold unborrowed. now rewrite K1, K2. }
  apply script_call_ind.
  - intros _ z r z' _ [= <- <-]. split; [now left|]. exists []. auto.
  - intros q _ z r z' _ [= <- <-]. split; [right; now exists q|]. exists []. auto.
  - intros x Hx k Hk [Mx Mk]. apply do_ok; [|now apply Hx|intros r; now apply Hk]. intros z O. apply KU; [apply keeps_both|exact O].
  - intros b Hb M z r z' O X. destruct (run_script pr w c b z) as [r1 z1] eqn:E.
    refine (ask_turns pr w c b r1 z z1 z' E (Hb M _ _ _ O E) _ r X). intros q _.
    apply query_agree. change (unborrowed z1). replace z1 with (snd (run_script pr w c b z)) by now rewrite E.
    apply KU; [apply keeps_both|exact O].
  - intros t _ cf _ [Mt Mc] z r z' O X.
    apply (show_in_turn pr w c t cf z); [now apply modest_turns..|now apply unborrowed_open|exact X].
  - intros t _ M z r z' O X. apply (store_in_turn pr w c t z); [now apply modest_turns|now apply unborrowed_open|exact X].
Qed.
