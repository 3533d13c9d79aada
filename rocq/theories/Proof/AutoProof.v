(** Finding all reasons for a type to lack an auto trait, and the assertions of the generator. *)
From Verif.Model Require Import Base Str Types Codegen AssertImpl CrateTypes.
From Verif.Spec Require Import CodegenSpec AutoSpec.
From Verif.Proof Require Import StrFacts CodegenProof.

Definition auto_eqb (a b : auto) : bool :=
  match a, b with
  | Send, Send | Sync, Sync | Unpin, Unpin | UnwindSafe, UnwindSafe
  | RefUnwindSafe, RefUnwindSafe => true
  | _, _ => false
  end.
Lemma auto_eqb_eq a b : auto_eqb a b = true <-> a = b.
Proof. destruct a, b; cbn; split; congruence. Qed.
Definition among (tr : auto) (l : list auto) : bool := existsb (auto_eqb tr) l.
Lemma among_in tr l : among tr l = true <-> In tr l.
Proof.
  unfold among. rewrite existsb_exists. split.
  - intros (x & H & E). apply auto_eqb_eq in E. now subst.
  - intros H. exists tr. split; [exact H|now apply auto_eqb_eq].
Qed.

Section Auto.
Variable declared : list (str * list ty).

Definition each (tr : auto) (l : list ty) : list (ty * auto) := map (fun t => (t, tr)) l.
Definition given (b : bool) (l : list (ty * auto)) : list (ty * auto) := if b then l else [].

Definition req (x : ty * auto) : list (ty * auto) :=
  match fst x with
  | TParam _ | TDyn _ => []
  | TRef t =>
      match snd x with
      | Send | Sync => [(t, Sync)]
      | UnwindSafe | RefUnwindSafe => [(t, RefUnwindSafe)]
      | Unpin => []
      end
  | TMut t => given (among (snd x) [Send; Sync; RefUnwindSafe]) [(t, snd x)]
  | TStd name args =>
      given (str_mem name containers) (each (snd x) args)
      ++ given (str_mem name cells && among (snd x) [Send; Unpin; UnwindSafe])%bool (each (snd x) args)
      ++ given (str_eqb name (B "Box") && negb (auto_eqb (snd x) Unpin))%bool (each (snd x) args)
      ++ given (str_eqb name (B "BTreeMap") && among (snd x) [Send; Sync; RefUnwindSafe])%bool (each (snd x) args)
      ++ given (str_eqb name (B "BTreeMap") && auto_eqb (snd x) UnwindSafe)%bool (each RefUnwindSafe args)
      ++ given (str_eqb name (B "MutexGuard") && auto_eqb (snd x) Sync)%bool (each Sync args)
      ++ given (str_eqb name (B "*const") && among (snd x) [UnwindSafe; RefUnwindSafe])%bool (each RefUnwindSafe args)
  | TCrate name args =>
      flat_map (fun d => given (str_eqb (fst d) name) (each (snd x) (map (inst args) (snd d)))) declared
  end.
Definition stops (x : ty * auto) : bool :=
  match fst x with
  | TParam _ => true
  | TDyn b => negb (among (snd x) b)
  | TRef _ => false
  | TMut _ => auto_eqb (snd x) UnwindSafe
  | TStd name _ =>
      ((str_mem name cells && among (snd x) [Sync; RefUnwindSafe])
       || (str_eqb name (B "io::Error") && among (snd x) [UnwindSafe; RefUnwindSafe])
       || (str_eqb name (B "MutexGuard") && auto_eqb (snd x) Send)
       || (str_eqb name (B "PhantomPinned") && auto_eqb (snd x) Unpin)
       || (str_eqb name (B "*const") && among (snd x) [Send; Sync])
       || negb (str_mem name (data_types ++ containers ++ cells ++ special)))%bool
  | TCrate name _ => negb (str_mem name (map fst declared))
  end.

Lemma in_each y tr l : In y (each tr l) <-> exists t, In t l /\ y = (t, tr).
Proof.
  unfold each. rewrite in_map_iff. split; intros (t & H & H'); exists t; [now subst|subst; auto].
Qed.
Lemma in_given b y l : In y (given b l) <-> b = true /\ In y l.
Proof. destruct b; cbn; intuition discriminate. Qed.

Lemma req_needs x y : In y (req x) <-> needs declared x y.
Proof.
  destruct x as [t tr]. unfold req; cbn [fst snd]. split.
  - destruct t as [n|t|t|b|name args|name args]; cbn [In]; try tauto.
    + destruct tr; cbn [In]; intros H; try tauto; destruct H as [<- |[]]; constructor.
    + rewrite in_given. intros [A [<- |[]]]. constructor. now apply among_in.
    + rewrite !in_app_iff, !in_given, !Bool.andb_true_iff, !in_each, !among_in, !str_eqb_eq, !auto_eqb_eq,
        Bool.negb_true_iff, !str_mem_in.
      intros [(A & t & H & ->)|[((A & A') & t & H & ->)|[((-> & A) & t & H & ->)|[((-> & A) & t & H & ->)
        |[((-> & ->) & t & H & ->)|[((-> & ->) & t & H & ->)|((-> & A) & t & H & ->)]]]]]].
      * now apply needs_container.
      * now apply needs_cell.
      * apply needs_box; [exact H|]. intros ->. discriminate.
      * now apply needs_tree.
      * now apply needs_tree_unwind.
      * now apply needs_guard.
      * now apply needs_pointer.
    + rewrite in_flat_map. intros ([n parts] & D & H). cbn [fst snd] in H.
      apply in_given in H as [E H]. apply str_eqb_eq in E as ->.
      apply in_each in H as (t & H & ->). apply in_map_iff in H as (p & <- & H).
      now apply needs_part with (parts := parts).
  - intros H. inversion H; subst; clear H; cbn [In].
    + apply in_flat_map. exists (name, parts). split; [assumption|]. apply in_given. split; [apply str_eqb_refl|].
      apply in_each. exists (inst args p). split; [|reflexivity]. now apply in_map.
    + now left.
    + now left.
    + now left.
    + now left.
    + apply in_given. split; [now apply among_in|now left].
    + rewrite in_app_iff. left. apply in_given. split; [now apply str_mem_in|]. apply in_each. eauto.
    + rewrite !in_app_iff. right; left. apply in_given. split.
      * apply Bool.andb_true_iff. split; [now apply str_mem_in|now apply among_in].
      * apply in_each. eauto.
    + rewrite !in_app_iff. do 2 right; left. apply in_given. split.
      * apply Bool.andb_true_iff. split; [apply str_eqb_refl|]. apply Bool.negb_true_iff.
        destruct (auto_eqb tr Unpin) eqn:E; [apply auto_eqb_eq in E; contradiction|reflexivity].
      * apply in_each. eauto.
    + rewrite !in_app_iff. do 3 right; left. apply in_given. split.
      * apply Bool.andb_true_iff. split; [apply str_eqb_refl|now apply among_in].
      * apply in_each. eauto.
    + rewrite !in_app_iff. do 4 right; left. apply in_given. split; [reflexivity|]. apply in_each. eauto.
    + rewrite !in_app_iff. do 5 right; left. apply in_given. split; [reflexivity|]. apply in_each. eauto.
    + rewrite !in_app_iff. do 6 right. apply in_given. split.
      * apply Bool.andb_true_iff. split; [apply str_eqb_refl|now apply among_in].
      * apply in_each. eauto.
Qed.

Lemma stops_never x : stops x = true <-> never declared x.
Proof.
  destruct x as [t tr]. unfold stops; cbn [fst snd]. split.
  - destruct t as [n|t|t|b|name args|name args]; try discriminate.
    + intros _. constructor.
    + intros E. apply auto_eqb_eq in E as ->. constructor.
    + intros E. constructor. intros H. apply among_in in H. rewrite H in E. discriminate.
    + rewrite !Bool.orb_true_iff, !Bool.andb_true_iff, !among_in, !str_eqb_eq, !auto_eqb_eq, !str_mem_in.
      intros [[[[[[A A']|[-> A]]|[-> ->]]|[-> ->]]|[-> A]]|A].
      * now apply never_cell.
      * now apply never_io.
      * apply never_guard.
      * apply never_pinned.
      * now apply never_pointer.
      * apply never_unknown. intros H. apply str_mem_in in H. rewrite H in A. discriminate.
    + intros A. apply never_undeclared. intros H. apply str_mem_in in H. rewrite H in A. discriminate.
  - intros H. inversion H; subst; clear H; try reflexivity.
    + destruct (among tr b) eqn:E; [apply among_in in E; contradiction|reflexivity].
    + rewrite !Bool.orb_true_iff. do 5 left. apply Bool.andb_true_iff. split; [now apply str_mem_in|now apply among_in].
    + rewrite !Bool.orb_true_iff. do 4 left; right. apply Bool.andb_true_iff. split; [apply str_eqb_refl|now apply among_in].
    + rewrite !Bool.orb_true_iff. left; right. apply Bool.andb_true_iff. split; [apply str_eqb_refl|now apply among_in].
    + rewrite !Bool.orb_true_iff. right. destruct (str_mem name _) eqn:E; [apply str_mem_in in E; contradiction|reflexivity].
    + destruct (str_mem name _) eqn:E; [apply str_mem_in in E; contradiction|reflexivity].
Qed.

(** All reasons; [None] if the fuel does not suffice. *)
Fixpoint reasons (fuel : nat) (x : ty * auto) : option (list (ty * auto)) :=
  match fuel with
  | O => None
  | S k =>
      match all_some (map (reasons k) (req x)) with
      | Some l => Some (given (stops x) [x] ++ concat l)
      | None => None
      end
  end.
Lemma reasons_blamed fuel : forall x l, reasons fuel x = Some l ->
  forall z, blamed declared x z <-> In z l.
Proof.
  induction fuel as [|k IH]; intros x l E z; [discriminate|]. cbn [reasons] in E.
  destruct (all_some (map (reasons k) (req x))) as [r|] eqn:A; [|discriminate]. injection E as <-.
  apply all_some_spec in A. rewrite in_app_iff, in_given, in_concat.
  assert (W : forall y, In y (req x) -> exists l, In l r /\ reasons k y = Some l).
  { intros y H. assert (H' : In (reasons k y) (map Some r)) by (rewrite <- A; now apply in_map).
    apply in_map_iff in H' as (l & E & H'). exists l. now split. }
  assert (W' : forall l, In l r -> exists y, In y (req x) /\ reasons k y = Some l).
  { intros l H. assert (H' : In (Some l) (map (reasons k) (req x))) by (rewrite A; now apply in_map).
    apply in_map_iff in H' as (y & E & H'). exists y. now split. }
  split.
  - intros H. inversion H as [x' N|x' y z' N H']; subst; clear H.
    + left. split; [now apply stops_never|now left].
    + right. apply req_needs in N. destruct (W y N) as (l & L & E). exists l. split; [exact L|]. now apply (IH y l E).
  - intros [[N [<- |[]]]|(l & L & H)].
    + apply blamed_self. now apply stops_never.
    + destruct (W' l L) as (y & N & E). apply blamed_part with y; [now apply req_needs|]. now apply (IH y l E).
Qed.

Definition clean (o : option (list (ty * auto))) : option bool :=
  match o with Some [] => Some true | Some _ => Some false | None => None end.
Lemma clean_has fuel t tr : clean (reasons fuel (t, tr)) = Some true -> has declared t tr.
Proof.
  unfold clean. destruct (reasons fuel (t, tr)) as [[|z l]|] eqn:E; try discriminate. intros _ (z & H).
  now apply (reasons_blamed fuel _ _ E) in H.
Qed.
Lemma clean_lacks fuel t tr : clean (reasons fuel (t, tr)) = Some false -> lacks declared t tr.
Proof.
  unfold clean. destruct (reasons fuel (t, tr)) as [[|z l]|] eqn:E; try discriminate. intros _. exists z.
  apply (reasons_blamed fuel _ _ E). now left.
Qed.
End Auto.

Definition fuel : nat := 30.
Definition says_true (a : assertion) : bool :=
  match clean (reasons crate_types fuel (TCrate (as_path a) (map helper_type (as_args a)), as_trait a)) with
  | Some b => Bool.eqb b (as_holds a)
  | None => false
  end.
Lemma says_true_of a : says_true a = true -> true_of crate_types a.
Proof.
  unfold says_true, true_of. destruct (clean _) as [b|] eqn:E; [|discriminate]. intros H.
  apply Bool.eqb_prop in H as <-. destruct b; [now apply clean_has with fuel|now apply clean_lacks with fuel].
Qed.

(** ** The generator *)
Section titem_ind.
  Variable P : titem -> Prop.
  Hypothesis one : forall p n l t c, P (TypeItem p n l t c).
  Hypothesis module : forall n c, Forall P c -> P (TypeModule n c).
  Hypothesis within : forall c, Forall P c -> P (TypeWithin c).
  Fixpoint titem_rec' (i : titem) : P i :=
    let all := fix all (l : list titem) : Forall P l :=
      match l with
      | [] => Forall_nil P
      | j :: t => Forall_cons j (titem_rec' j) (all t)
      end in
    match i with
    | TypeItem p n l t c => one p n l t c
    | TypeModule n c => module n c (all c)
    | TypeWithin c => within c (all c)
    end.
End titem_ind.
Lemma tvisit_holds i : forall m x, In x (tvisit m i) <-> holds_type m i (fst x) (snd x).
Proof.
  induction i as [p n l t c | n c IH | c IH] using titem_rec'; intros m [m' j]; cbn [tvisit fst snd].
  - split; [intros [[= <- <-] | []]; constructor |]. intros H; inversion H; subst; left; reflexivity.
  - rewrite Forall_forall in IH. rewrite in_flat_map. split.
    + intros (k & Hk & Hx). apply holds_module with k; [exact Hk |]. apply (IH k Hk) in Hx. exact Hx.
    + intros H; inversion H; subst. eexists; split; [eassumption |]. apply IH; assumption.
  - rewrite Forall_forall in IH. rewrite in_flat_map. split.
    + intros (k & Hk & Hx). apply holds_within with k; [exact Hk |]. apply (IH k Hk) in Hx. exact Hx.
    + intros H; inversion H; subst. eexists; split; [eassumption |]. apply IH; assumption.
Qed.

Definition all_items (files : list (list str * list titem)) : list (list str * titem) :=
  flat_map (fun f => flat_map (tvisit (fst f)) (snd f)) files.
Lemma items_public files path lts params consts :
  public_type files path lts params consts
  <-> exists m name, In (m, TypeItem true name lts params consts) (all_items files) /\ path = path_string m name.
Proof.
  unfold public_type, all_items. split.
  - intros (f & j & m & name & F & J & -> & H). exists m, name. split; [|symmetry; apply path_qualified].
    apply in_flat_map. exists f. split; [exact F|]. apply in_flat_map. exists j. split; [exact J|]. now apply tvisit_holds.
  - intros (m & name & H & ->). apply in_flat_map in H as (f & F & H). apply in_flat_map in H as (j & J & H).
    apply tvisit_holds in H. exists f, j, m, name. split; [exact F|]. split; [exact J|]. split; [apply path_qualified|exact H].
Qed.

Definition listed (tr : auto) : list str :=
  match tr with
  | Send => not_send | Sync => not_sync | Unpin => not_unpin
  | UnwindSafe => not_unwind_safe | RefUnwindSafe => not_ref_unwind_safe
  end.
Lemma listed_exception path tr : str_mem path (listed tr) = true <-> In (path, tr) exceptions.
Proof.
  rewrite str_mem_in. unfold exceptions.
  destruct tr; cbn [listed not_send not_sync not_unpin not_unwind_safe not_ref_unwind_safe In]; split; intros H;
    repeat match goal with H : _ \/ _ |- _ => destruct H as [H|H] end; try contradiction; try discriminate;
    subst; auto 10; injection H as <-; auto 10.
Qed.
Lemma unlisted path tr : str_mem path (listed tr) = false <-> ~ In (path, tr) exceptions.
Proof. rewrite <- listed_exception. destruct (str_mem path (listed tr)); intuition congruence. Qed.

Definition said (path : str) (lts params : nat) (a : assertion) : Prop :=
  (exists tr, In (path, tr) exceptions /\ a = mkAssertion false tr path lts (repeat UnitType params))
  \/ (params = 0 /\ exists tr, ~ In (path, tr) exceptions /\ a = mkAssertion true tr path lts [])
  \/ (params <> 0 /\ exists tr h b, ~ In (path, tr) exceptions /\ probe tr h b /\ a = mkAssertion b tr path lts (repeat h params)).
Lemma assertions_said m name lts params l :
  assertions_of (m, TypeItem true name lts params 0) = Some l ->
  forall a, In a l <-> said (path_string m name) lts params a.
Proof.
  cbn [assertions_of]. rewrite Nat.eqb_refl. cbn [negb]. set (path := path_string m name).
  pose proof (fun tr => listed_exception path tr) as L. pose proof (fun tr => unlisted path tr) as U.
  change not_send with (listed Send). change not_sync with (listed Sync). change not_unpin with (listed Unpin).
  change not_unwind_safe with (listed UnwindSafe). change not_ref_unwind_safe with (listed RefUnwindSafe).
  assert (D : forall tr, (str_mem path (listed tr) = true /\ In (path, tr) exceptions)
                         \/ (str_mem path (listed tr) = false /\ ~ In (path, tr) exceptions)).
  { intros tr. destruct (str_mem path (listed tr)) eqn:E; [left; split; [reflexivity|now apply L]|right; split; [reflexivity|now apply U]]. }
  clear L U. destruct (Nat.eqb params 0) eqn:P; cbn [negb].
  - apply Nat.eqb_eq in P as ->. cbn [repeat]. intros [= <-] a. unfold said. cbn [repeat In]. split.
    + intros H.
      assert (K : forall tr, mkAssertion (negb (str_mem path (listed tr))) tr path lts [] = a ->
        (exists tr, In (path, tr) exceptions /\ a = mkAssertion false tr path lts [])
        \/ (0 = 0 /\ exists tr, ~ In (path, tr) exceptions /\ a = mkAssertion true tr path lts [])).
      { intros tr <-. destruct (D tr) as [[-> E]|[-> E]]; cbn [negb]; [left|right; split; [reflexivity|]]; exists tr; now split. }
      assert (K' : (exists tr, In (path, tr) exceptions /\ a = mkAssertion false tr path lts [])
        \/ (0 = 0 /\ exists tr, ~ In (path, tr) exceptions /\ a = mkAssertion true tr path lts [])).
      { destruct H as [H|[H|[H|[H|[H|[]]]]]]; [exact (K Send H)|exact (K Sync H)|exact (K Unpin H)|exact (K UnwindSafe H)|exact (K RefUnwindSafe H)]. }
      tauto.
    + intros [(tr & E & ->)|[(_ & tr & E & ->)|(N & _)]]; [| |now destruct N].
      * assert (F : mkAssertion (negb (str_mem path (listed tr))) tr path lts [] = mkAssertion false tr path lts []).
        { destruct (D tr) as [[-> _]|[_ X]]; [reflexivity|contradiction]. }
        rewrite <- F. destruct tr; auto 10.
      * assert (F : mkAssertion (negb (str_mem path (listed tr))) tr path lts [] = mkAssertion true tr path lts []).
        { destruct (D tr) as [[_ X]|[-> _]]; [contradiction|reflexivity]. }
        rewrite <- F. destruct tr; auto 10.
  - apply Nat.eqb_neq in P. intros E a.
    apply (f_equal (fun o => match o with Some x => x | None => [] end)) in E. cbn beta iota in E. rewrite <- E. clear E.
    rewrite !in_app_iff. unfold said.
    set (say := fun b tr h => mkAssertion b tr path lts (repeat h params)).
    repeat match goal with |- context [mkAssertion ?b ?tr path lts (repeat ?h params)] =>
      change (mkAssertion b tr path lts (repeat h params)) with (say b tr h) end.
    assert (X : forall tr l,
      (forall a, In a l <-> exists h b, probe tr h b /\ a = say b tr h) ->
      (In a (if str_mem path (listed tr) then [say false tr UnitType] else l)
       <-> (In (path, tr) exceptions /\ a = say false tr UnitType)
           \/ (exists h b, ~ In (path, tr) exceptions /\ probe tr h b /\ a = say b tr h))).
    { intros tr l' Hl. destruct (D tr) as [[-> E]|[-> E]].
      - cbn [In]. split; [intros [<- |[]]; left; now split|]. intros [[_ ->]|(h & b & N & _)]; [now left|contradiction].
      - rewrite Hl. split; [intros (h & b & Q & ->); right; now exists h, b|].
        intros [[N _]|(h & b & _ & Q & ->)]; [contradiction|now exists h, b]. }
    rewrite (X Send), (X Sync), (X Unpin), (X UnwindSafe), (X RefUnwindSafe).
    + split.
      * intros H.
        assert (K : forall tr, (In (path, tr) exceptions /\ a = say false tr UnitType)
             \/ (exists h b, ~ In (path, tr) exceptions /\ probe tr h b /\ a = say b tr h) ->
          (exists tr, In (path, tr) exceptions /\ a = say false tr UnitType)
          \/ (exists tr h b, ~ In (path, tr) exceptions /\ probe tr h b /\ a = say b tr h)).
        { intros tr [K|(h & b & K)]; [left; now exists tr|right; now exists tr, h, b]. }
        assert (K' : (exists tr, In (path, tr) exceptions /\ a = say false tr UnitType)
          \/ (exists tr h b, ~ In (path, tr) exceptions /\ probe tr h b /\ a = say b tr h)).
        { destruct H as [H|[H|[H|[H|H]]]]; exact (K _ H). }
        destruct K' as [K'|K']; [left; exact K'|right; right; split; [exact P|exact K']].
      * intros [(tr & E & ->)|[(N & _)|(_ & tr & h & b & E & Q & ->)]]; [|contradiction|].
        -- assert (F : (In (path, tr) exceptions /\ say false tr UnitType = say false tr UnitType)) by (split; [exact E|reflexivity]).
           fold (say false tr UnitType). destruct tr; [left|right;left|right;right;left|right;right;right;left|right;right;right;right]; now left.
        -- fold (say b tr h).
           assert (F : exists h' b', ~ In (path, tr) exceptions /\ probe tr h' b' /\ say b tr h = say b' tr h') by now exists h, b.
           destruct tr; [left|right;left|right;right;left|right;right;right;left|right;right;right;right]; now right.
    + intros a'. cbn [In]. split; [intros [<- |[<- |[]]]|intros (h & b & Q & ->); inversion Q; subst; auto].
      * exists UnitType, true. split; [constructor|reflexivity].
      * exists NotRefUnwindSafe, false. split; [constructor|reflexivity].
    + intros a'. cbn [In]. split; [intros [<- |[<- |[]]]|intros (h & b & Q & ->); inversion Q; subst; auto].
      * exists UnitType, true. split; [constructor|reflexivity].
      * exists NotUnwindSafe, false. split; [constructor|reflexivity].
    + intros a'. cbn [In]. split; [intros [<- |[<- |[]]]|intros (h & b & Q & ->); inversion Q; subst; auto].
      * exists UnitType, true. split; [constructor|reflexivity].
      * exists NotUnpin, false. split; [constructor|reflexivity].
    + intros a'. cbn [In]. split; [intros [<- |[<- |[<- |[]]]]|intros (h & b & Q & ->); inversion Q; subst; auto].
      * exists UnitType, true. split; [constructor|reflexivity].
      * exists NotSend, true. split; [constructor|reflexivity].
      * exists NotSync, false. split; [constructor|reflexivity].
    + intros a'. cbn [In]. split; [intros [<- |[<- |[<- |[]]]]|intros (h & b & Q & ->); inversion Q; subst; auto].
      * exists UnitType, true. split; [constructor|reflexivity].
      * exists NotSync, true. split; [constructor|reflexivity].
      * exists NotSend, false. split; [constructor|reflexivity].
Qed.
Lemma said_wanted files a :
  wanted files a <-> exists path lts params, public_type files path lts params 0 /\ said path lts params a.
Proof.
  split.
  - intros H. inversion H as [path lts params tr T E|path lts tr T E|path lts params tr h b T E Q]; subst.
    + exists path, lts, params. split; [exact T|]. left. now exists tr.
    + exists path, lts, 0. split; [exact T|]. right; left. split; [reflexivity|]. now exists tr.
    + exists path, lts, (S params). split; [exact T|]. right; right. split; [discriminate|]. now exists tr, h, b.
  - intros (path & lts & params & T & [(tr & E & ->)|[(-> & tr & E & ->)|(N & tr & h & b & E & Q & ->)]]).
    + now apply wanted_not.
    + now apply wanted_plain.
    + destruct params as [|k]; [contradiction|]. now apply wanted_generic.
Qed.

Lemma assertions_none m name lts params consts :
  assertions_of (m, TypeItem true name lts params consts) = None <-> consts <> 0.
Proof.
  cbn [assertions_of]. destruct (Nat.eqb consts 0) eqn:E; cbn [negb].
  - apply Nat.eqb_eq in E. destruct (negb (Nat.eqb params 0)); split; [discriminate|contradiction|discriminate|contradiction].
  - apply Nat.eqb_neq in E. now split.
Qed.

Lemma visited_public files t :
  str_mem t (flat_map visited_type (all_items files)) = true <-> exists lts params consts, public_type files t lts params consts.
Proof.
  rewrite str_mem_in, in_flat_map. split.
  - intros ([m [[] name lts params consts|?|?]] & I & H); cbn in H; try contradiction. destruct H as [<- |[]].
    exists lts, params, consts. apply items_public. now exists m, name.
  - intros (lts & params & consts & H). apply items_public in H as (m & name & I & ->).
    exists (m, TypeItem true name lts params consts). split; [exact I|now left].
Qed.

Lemma exceptions_listed t : In t (not_send ++ not_sync ++ not_unpin ++ not_unwind_safe ++ not_ref_unwind_safe)
  <-> exists tr, In (t, tr) exceptions.
Proof.
  split.
  - rewrite !in_app_iff. intros [H|[H|[H|[H|H]]]];
      [exists Send|exists Sync|exists Unpin|exists UnwindSafe|exists RefUnwindSafe];
      apply listed_exception, str_mem_in; exact H.
  - intros (tr & H). apply listed_exception, str_mem_in in H. rewrite !in_app_iff. destruct tr; cbn [listed] in H; auto.
Qed.

Lemma gen_assert_none files :
  gen_assert_impl files = None
  <-> (exists path lts params consts, public_type files path lts params consts /\ consts <> 0)
      \/ (exists t tr, In (t, tr) exceptions /\ forall lts params consts, ~ public_type files t lts params consts).
Proof.
  unfold gen_assert_impl. fold (all_items files). split.
  - destruct (all_some _) as [l|] eqn:A.
    + destruct (forallb _ _) eqn:F; [discriminate|]. intros _. right. apply forallb_false in F as (t & T & F).
      apply exceptions_listed in T as (tr & T). exists t, tr. split; [exact T|]. intros lts params consts H.
      assert (V : str_mem t (flat_map visited_type (all_items files)) = true) by (apply visited_public; eauto). congruence.
    + intros _. left. apply all_some_none in A. apply in_map_iff in A as ([m [[] name lts params consts|?|?]] & E & I); try discriminate.
      exists (path_string m name), lts, params, consts. split; [apply items_public; eauto|]. now apply assertions_none in E.
  - intros [(path & lts & params & consts & H & N)|(t & tr & T & N)].
    + apply items_public in H as (m & name & I & ->).
      assert (E : all_some (map assertions_of (all_items files)) = None).
      { apply all_some_none, in_map_iff. exists (m, TypeItem true name lts params consts). split; [now apply assertions_none|exact I]. }
      now rewrite E.
    + destruct (all_some _) as [l|]; [|reflexivity]. destruct (forallb _ _) eqn:F; [|reflexivity]. exfalso.
      rewrite forallb_forall in F. assert (L : exists tr, In (t, tr) exceptions) by eauto. apply exceptions_listed in L.
      apply F, visited_public in L as (lts & params & consts & H). now apply (N lts params consts).
Qed.

Lemma gen_assert_some files out : gen_assert_impl files = Some out -> forall a, In a out <-> wanted files a.
Proof.
  unfold gen_assert_impl. fold (all_items files). destruct (all_some _) as [l|] eqn:A; [|discriminate].
  destruct (forallb _ _); [|discriminate]. intros [= <-] a. rewrite said_wanted.
  apply all_some_spec in A. rewrite in_concat. split.
  - intros (x & X & H).
    assert (M : In (Some x) (map assertions_of (all_items files))) by (rewrite A; now apply in_map).
    apply in_map_iff in M as ([m [[] name lts params consts|?|?]] & E & I);
      try (cbn in E; injection E as <-; now destruct H).
    assert (C : consts = 0).
    { destruct (Nat.eq_dec consts 0) as [C|C]; [exact C|]. apply (assertions_none m name lts params) in C. congruence. }
    subst consts. exists (path_string m name), lts, params. split; [apply items_public; eauto|].
    exact (proj1 (assertions_said m name lts params x E a) H).
  - intros (path & lts & params & T & S). apply items_public in T as (m & name & I & ->).
    destruct (assertions_of (m, TypeItem true name lts params 0)) as [x|] eqn:E.
    + exists x. split; [|exact (proj2 (assertions_said m name lts params x E a) S)].
      assert (M : In (Some x) (map Some l)) by (rewrite <- A, <- E; now apply in_map).
      apply in_map_iff in M as (y & [= ->] & M). exact M.
    + apply assertions_none in E. now destruct E.
Qed.
