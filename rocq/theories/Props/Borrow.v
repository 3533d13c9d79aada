(** C66: code of the caller that runs in the middle of a call. *)
From Verif.Model Require Import Base Str Path BMap Error Value De CfgExpr Triple EasyTypes Context ApplyEnv Process Resolve Easy Borrow.
From Verif.Spec Require Import StrSpec TripleSpec TargetSpec QuerySpec BorrowSpec.
From Verif.Proof Require Import BorrowProof.
From Verif.Props Require Import Query.

(** Without such code, a query never trips over a cell, and it is the query of the other
    theorems. *)
Theorem C66_query pr w c q s :
  run_call pr w c (Ask (Give q)) (fresh_cells s)
  = (answered (fst (run_query pr w c q s)), fresh_cells (snd (run_query pr w c q s))).
Proof.
  cbn [run_call run_script]. unfold bbind at 1, bret at 1. unfold bbind.
  rewrite (query_agree pr w c q (fresh_cells s)) by now split. unfold plain. cbn [b_cells fresh_cells b_target b_cfg].
  now destruct (run_query pr w c q s) as [[a|e|p] s'].
Qed.
Print Assumptions C66_query.

(** Whatever happens in a call (errors, panics of the library, of the cells or of the
    caller's code, at any depth), afterwards the cells are borrowed as they were before. *)
Theorem C66_released pr w c x s r s' :
  run_call pr w c x s = (r, s') -> b_target s' = b_target s /\ b_cfg s' = b_cfg s.
Proof. intros E. pose proof (proj2 (keeps_both pr w c) x s) as K. now rewrite E in K. Qed.
Print Assumptions C66_released.

(** Conversions may call the configuration in any way, at any depth: the call comes to
    what its queries come to one after another; in particular no cell is tripped over. *)
Theorem C66_in_turn pr w c x s r s' :
  careful x -> run_call pr w c x (fresh_cells s) = (r, s') ->
  in_turn pr w c x s r (b_cells s') /\ unborrowed s'.
Proof.
  intros C E. split; [exact (proj2 (careful_turns pr w c) x C (fresh_cells s) r s' (conj eq_refl eq_refl) E)|].
  exact (C66_released pr w c x _ r s' E).
Qed.
Print Assumptions C66_in_turn.
(** So all that is said about states reached by queries holds with such code as well, ... *)
Theorem C66_reached pr w c x s r s' :
  careful x -> (forall q, asks x q -> real_query q) -> reached pr w c s ->
  run_call pr w c x (fresh_cells s) = (r, s') -> reached pr w c (b_cells s').
Proof.
  intros C R [qs [F ->]] E. destruct (C66_in_turn _ _ _ _ _ _ _ C E) as [[qs' [F' [-> _]]] _].
  exists (qs ++ qs'). rewrite run_queries_app. split; [|reflexivity]. apply Forall_app. split; [exact F|].
  revert F'. apply Forall_impl. exact R.
Qed.
Print Assumptions C66_reached.
(** ... and, while the world does not change, such code has no influence on the answer
    about a target. *)
Theorem C66_answer pr w c before s r s' :
  careful_script before -> (forall q, asks (Ask before) q -> real_query q) ->
  (forall q, gives before q -> exists a, target_query q a) ->
  steady w -> reached pr w c s -> run_call pr w c (Ask before) (fresh_cells s) = (r, s') ->
  r = Thrown \/ exists q, gives before q /\ r = answered (fst (run_query pr w c q (state_init (ec_cx c)))).
Proof.
  intros C R T St Rs E. destruct (C66_in_turn pr w c (Ask before) s r s' C E) as [[qs [F [Q [X|(qs0 & q & -> & G & ->)]]]] _]; [now left|].
  right. exists q. split; [exact G|]. destruct (T q G) as [a Ta]. f_equal.
  assert (Rq : real_query q) by (apply R; now right).
  apply (C34_transparent pr w c _ q a St); [|exact Ta|].
  - destruct Rs as [qs1 [F1 ->]]. exists (qs1 ++ qs0). rewrite run_queries_app. split; [|reflexivity].
    apply Forall_app. split; [exact F1|]. apply Forall_app in F as [F _]. revert F. apply Forall_impl. exact R.
  - now destruct Ta as [->|[->|[->|[->| ->]]]].
Qed.
Print Assumptions C66_answer.

(** Code that makes no query about a target may run at any time, unless a cell is
    borrowed mutably (which it never is while the caller's code runs). *)
Theorem C66_modest pr w c x s r s' :
  modest x -> b_target s <> Unique -> b_cfg s <> Unique -> run_call pr w c x s = (r, s') ->
  in_turn pr w c x (b_cells s) r (b_cells s').
Proof. intros M T Cf E. exact (proj2 (modest_turns pr w c) x M s r s' (conj T Cf) E). Qed.
Print Assumptions C66_modest.

(** Writers and serializers: while the settings of the targets are written, every query
    about a target (whose name is one) panics, known or not, and changes nothing ... *)
Theorem C66_written pr w c q a t s :
  about_target q = Some a -> to_triple a = Ok t -> b_target s <> Shared 0 ->
  run_call pr w c (Ask (Give q)) s = (Tripped, s).
Proof.
  intros Q T F. cbn [run_call run_script]. unfold bbind at 1, bret at 1. unfold bbind. now rewrite (trips pr w c q a t s Q T F).
Qed.
Print Assumptions C66_written.
(** ... while the answers of rustc are written, a target that is known may be asked about. *)
Theorem C66_known pr w c q a t s :
  about_target q = Some a -> to_triple a = Ok t -> b_target s = Shared 0 ->
  bget (cli_target t) (s_target (b_cells s)) <> None ->
  run_call pr w c (Ask (Give q)) s
  = (answered (fst (run_query pr w c q (b_cells s))), mkB (snd (run_query pr w c q (b_cells s))) (Shared 0) (b_cfg s)).
Proof.
  intros Q T F K. cbn [run_call run_script]. unfold bbind at 1, bret at 1. unfold bbind.
  rewrite (known_agree pr w c q a t s (b_cfg s) Q T (conj F eq_refl) K). unfold plain. rewrite F.
  now destruct (run_query pr w c q (b_cells s)) as [[x|e|p] s'].
Qed.
Print Assumptions C66_known.

(** ** Examples *)
Definition linker_of (t : string) : query := QLinker (ArgText (B t)).
(** A conversion that asks for the host and makes its target from the answer. *)
Definition convert_host : script :=
  Do (Ask (Give QHostTriple))
     (fun r => match r with
               | Done (Ok (Some (AStr h))) => Give (QLinker (ArgText h))
               | _ => Throw
               end).
(** One that asks about another target first, by such a conversion. *)
Definition convert_deep : script := Do (Ask convert_host) (fun _ => Do (Ask (Give QRustc)) (fun _ => Give (linker_of "t"))).
(** A writer that asks about a target and panics if that panics in a cell. *)
Definition nosy (t : string) : script :=
  Do (Ask (Give (linker_of t))) (fun r => match r with Tripped => Throw | _ => Give no_query end).
Definition bor_world : world := ex_tools (ex_says ex_cargo_vv) (ex_says ex_rustc_vv).
Definition bor_run (x : call) (qs : list query) : option (ending (option answer)) :=
  match from_unresolved ex_config ex_context with
  | Ok c => Some (fst (run_call debug bor_world c x (fresh_cells (run_queries debug bor_world c qs (state_init (ec_cx c))))))
  | _ => None
  end.
Example C66_ex_careful : careful (Ask convert_host) /\ careful (Ask convert_deep) /\ modest (Ask (Give QRustc)).
Proof.
  assert (H : careful (Ask convert_host)).
  { cbn. split; [exact I|]. intros [[[[]|]|e|p]| |]; exact I. }
  split; [exact H|]. split; [|reflexivity]. split; [exact H|]. intros _. split; [exact I|]. intros _. exact I.
Qed.
Example C66_ex_convert : bor_run (Ask convert_host) [] = Some (Done (Ok (Some (APath (Some (B "ld"))))))
  /\ bor_run (Ask convert_deep) [] = Some (Done (Ok (Some (APath (Some (B "ld")))))).
Proof. vm_compute. split; reflexivity. Qed.
Example C66_ex_writer :
  (* while the answers of rustc are shown *)
  bor_run (Show (Give no_query) (nosy "t")) [linker_of "t"] = Some (Done (Ok None))
  /\ bor_run (Show (Give no_query) (nosy "u")) [linker_of "t"] = Some Thrown
  (* nothing to serialize yet *)
  /\ bor_run (Store (nosy "t")) [] = Some (Done (Ok None)).
Proof. vm_compute. repeat split. Qed.

(** A writer or serializer that asks about a target, even one that is known, panics. *)
Theorem C66_writer_refuted : exists c s sc,
  from_unresolved ex_config ex_context = Ok c /\ reached debug bor_world c s
  /\ bget (B "t") (s_target s) <> None
  /\ (forall q, makes sc q -> q = QLinker (ArgText (B "t")))
  /\ fst (run_call debug bor_world c (Show sc (Give no_query)) (fresh_cells s)) = Thrown
  /\ fst (run_call debug bor_world c (Store sc) (fresh_cells s)) = Thrown
  /\ fst (run_call debug bor_world c (Ask sc) (fresh_cells s)) <> Thrown.
Proof.
  eexists. eexists (run_queries debug bor_world _ [linker_of "t"] (state_init ex_context)), (nosy "t").
  split; [vm_compute; reflexivity|]. split; [exists [linker_of "t"]; split; [repeat constructor|reflexivity]|].
  split; [vm_compute; discriminate|]. split.
  - intros q [[[]| ->]|[r H]]; [reflexivity|]. now destruct r.
  - split; [vm_compute; reflexivity|]. split; [vm_compute; reflexivity|vm_compute; discriminate].
Qed.
Print Assumptions C66_writer_refuted.
