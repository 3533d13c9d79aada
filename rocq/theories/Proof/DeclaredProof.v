(** Lemmas about the keys from the declarations. *)
From Verif.Model Require Import Base Str Types Codegen Generated CrateTypes.
From Verif.Spec Require Import StrSpec SerdeSpec SerdeFormsSpec DeclaredSpec.
From Verif.Proof Require Import StrFacts CodegenProof.

Scheme laid_mut := Induction for laid Sort Prop with laid_fields_mut := Induction for laid_fields Sort Prop.
Combined Scheme laid_both from laid_mut, laid_fields_mut.

Definition mark (a : str) (f : field) : bool :=
  existsb (fun x => (str_eqb (Codegen.at_path x) (B "serde")
    && match at_args x with Some l => existsb (fun m => match m with MetaPath p => str_eqb p a | _ => false end) l | None => false end)%bool) (fd_attrs f).
Lemma mark_iff a f : mark a f = true <-> marked a f.
Proof.
  unfold mark, marked. rewrite existsb_exists. split.
  - intros ([n [l|]] & I & H); cbn [Codegen.at_path at_args] in H; apply andb_true_iff in H as [H1 H2]; [|discriminate].
    apply str_eqb_eq in H1 as ->. apply existsb_exists in H2 as (m & Im & E). destruct m as [p| |]; try discriminate. apply str_eqb_eq in E as ->.
    now exists l.
  - intros (l & I & Im). eexists. split; [exact I|]. cbn [Codegen.at_path at_args]. rewrite str_eqb_refl. cbn [andb].
    apply existsb_exists. exists (MetaPath a). split; [exact Im|apply str_eqb_refl].
Qed.

Definition struct_named (name : str) (i : item) : option (list field) :=
  match i with Codegen.Struct true n (Codegen.Named l) => if str_eqb n name then Some l else None | _ => None end.
Fixpoint first {A C} (f : A -> option C) (l : list A) : option C :=
  match l with [] => None | x :: r => match f x with Some c => Some c | None => first f r end end.
Definition fields_of (name : str) : option (list (field * ty)) :=
  match first (struct_named name) de_items, first (fun x => if str_eqb (fst x) (B "de::" ++ name) then Some (snd x) else None) crate_types with
  | Some l, Some parts => if Nat.eqb (length l) (length parts) then Some (combine l parts) else None
  | _, _ => None
  end.
Lemma first_in {A C} (f : A -> option C) l c : first f l = Some c -> exists x, In x l /\ f x = Some c.
Proof.
  induction l as [|x l IH]; cbn [first]; [discriminate|]. destruct (f x) as [d|] eqn:E.
  - intros H. injection H as <-. exists x. split; [now left|exact E].
  - intros H. destruct (IH H) as (y & I & Y). exists y. split; [now right|exact Y].
Qed.
Lemma in_first {A C} (f : A -> option C) (k : A -> str) l x c :
  NoDup (map k l) -> (forall x y c d, f x = Some c -> f y = Some d -> k x = k y) -> In x l -> f x = Some c -> first f l = Some c.
Proof.
  intros N Same I E. induction l as [|y l IH]; [destruct I|]. cbn [first]. inversion_clear N as [|? ? Ny Nl]. destruct I as [<- |I].
  - now rewrite E.
  - destruct (f y) as [d|] eqn:D; [|now apply IH]. exfalso. apply Ny. rewrite (Same y x d c D E). now apply in_map.
Qed.
Fixpoint distinct (l : list str) : bool := match l with [] => true | x :: r => (negb (str_mem x r) && distinct r)%bool end.
Lemma distinct_nodup l : distinct l = true -> NoDup l.
Proof.
  induction l as [|x l IH]; [constructor|]. cbn [distinct]. intros H. apply andb_true_iff in H as [H1 H2]. constructor; [|now apply IH].
  intros I. apply str_mem_in in I. now rewrite I in H1.
Qed.
Definition item_name (i : item) : str :=
  match i with Codegen.Struct true n _ => n | Codegen.Struct false n _ => "!"%char :: n | Codegen.Enum _ n _ => n | Codegen.Module n _ => n | Within _ => B "-" end.
(** All but the two error modules, whose names clash. *)
Definition de_types : list (str * list ty) := filter (fun x => str_eqb (firstn 4 (fst x)) (B "de::")) crate_types.
Lemma fields_declares name fs : fields_of name = Some fs <-> declares name fs.
Proof.
  unfold fields_of, declares. split.
  - destruct (first (struct_named name) de_items) as [l|] eqn:E1; [|discriminate].
    destruct (first _ crate_types) as [parts|] eqn:E2; [|discriminate]. destruct (Nat.eqb_spec (length l) (length parts)) as [L|]; [|discriminate].
    intros H. assert (H' : combine l parts = fs) by (exact (f_equal (fun o => match o with Some x => x | None => [] end) H)). subst fs. exists parts.
    assert (F : map fst (combine l parts) = l /\ map snd (combine l parts) = parts).
    { clear - L. revert parts L. induction l as [|x l IH]; intros [|y parts] L; try discriminate L; [now split|]. cbn [combine map fst snd].
      injection L as L. destruct (IH parts L) as [-> ->]. now split. }
    destruct F as [-> ->]. split; [|split; [|reflexivity]].
    + apply first_in in E1 as (i & I & E). destruct i as [[|] n [fl| |]| | |]; try discriminate. cbn [struct_named] in E.
      destruct (str_eqb n name) eqn:En; [|discriminate]. apply str_eqb_eq in En as ->. injection E as ->. exact I.
    + apply first_in in E2 as ([n ps] & I & E). cbn [fst snd] in E. destruct (str_eqb n _) eqn:En; [|discriminate]. apply str_eqb_eq in En as ->.
      injection E as ->. exact I.
  - intros (parts & I1 & I2 & ->).
    assert (E1 : first (struct_named name) de_items = Some (map fst fs)).
    { apply (in_first _ item_name _ _ _ (distinct_nodup (map item_name de_items) ltac:(vm_compute; reflexivity))) with (2 := I1).
      - intros [[|] n [l| |]| | |] [[|] n' [l'| |]| | |] c d; cbn [struct_named item_name]; try discriminate.
        destruct (str_eqb n name) eqn:A; [|discriminate]. destruct (str_eqb n' name) eqn:A'; [|discriminate].
        apply str_eqb_eq in A, A'. now subst.
      - cbn [struct_named]. now rewrite str_eqb_refl. }
    assert (E2 : first (fun x => if str_eqb (fst x) (B "de::" ++ name) then Some (snd x) else None) crate_types = Some (map snd fs)).
    { assert (Sub : first (fun x => if str_eqb (fst x) (B "de::" ++ name) then Some (snd x) else None) crate_types
                    = first (fun x => if str_eqb (fst x) (B "de::" ++ name) then Some (snd x) else None) de_types).
      { unfold de_types. generalize crate_types. intros l. induction l as [|[n p] l IH]; [reflexivity|]. cbn [first filter fst].
        destruct (str_eqb n (B "de::" ++ name)) eqn:A.
        - apply str_eqb_eq in A as ->. change (firstn 4 (B "de::" ++ name)) with (B "de::"). rewrite str_eqb_refl. cbn [first fst]. now rewrite str_eqb_refl.
        - destruct (str_eqb (firstn 4 n) (B "de::")); [|exact IH]. cbn [first fst]. now rewrite A. }
      rewrite Sub. apply (in_first _ fst _ (B "de::" ++ name, map snd fs) _ (distinct_nodup (map fst de_types) ltac:(vm_compute; reflexivity))).
      - intros [n p] [n' p'] c d. cbn [fst snd]. destruct (str_eqb n _) eqn:A; [|discriminate]. destruct (str_eqb n' _) eqn:A'; [|discriminate].
        apply str_eqb_eq in A, A'. now subst.
      - unfold de_types. apply filter_In. split; [exact I2|]. cbn [fst]. change (firstn 4 (B "de::" ++ name)) with (B "de::"). apply str_eqb_refl.
      - cbn [fst snd]. now rewrite str_eqb_refl. }
    rewrite E1, E2, !map_length, Nat.eqb_refl. f_equal. clear. induction fs as [|[f t] fs IH]; [reflexivity|]. cbn [map combine fst snd]. now rewrite IH.
Qed.

(** ** A function *)
Fixpoint lay (fuel : nat) (t : ty) : option layout :=
  match fuel with
  | O => None
  | S k =>
      let each := fix each (fs : list (field * ty)) : option (list (str * layout) * nat) :=
        match fs with
        | [] => Some ([], 0)
        | (f, t) :: r =>
            if mark (B "skip") f then each r
            else match lay k t, each r with
                 | Some s, Some (keys, n) =>
                     Some ((hyphens (fd_name f), s) :: keys, if mark (B "default") f then match n with 0 => 0 | _ => S n end else S n)
                 | _, _ => None
                 end
        end in
      match t with
      | TStd n [] => if str_mem n [B "bool"; B "u32"; B "i32"; B "String"] then Some Single else None
      | TStd n [u] => if str_eqb n (B "Option") then lay k u else None
      | TStd n [v; u] =>
          if (str_eqb n (B "BTreeMap") && match v with TStd m [] => str_eqb m (B "String") | _ => false end)%bool then option_map Named (lay k u) else None
      | TCrate n [u] => if str_eqb n (B "value::Value") then lay k u else None
      | TCrate n [] =>
          if str_eqb (firstn 4 n) (B "de::") then
            let name := skipn 4 n in
            if str_mem name (map B single_types) then Some Single
            else match fields_of name with
                 | Some fs => option_map (fun x => SerdeFormsSpec.Struct (snd x) (fst x)) (each fs)
                 | None => None
                 end
          else None
      | _ => None
      end
  end.
Definition lay_each (k : nat) : list (field * ty) -> option (list (str * layout) * nat) :=
  fix each (fs : list (field * ty)) :=
    match fs with
    | [] => Some ([], 0)
    | (f, t) :: r =>
        if mark (B "skip") f then each r
        else match lay k t, each r with
             | Some s, Some (keys, n) =>
                 Some ((hyphens (fd_name f), s) :: keys, if mark (B "default") f then match n with 0 => 0 | _ => S n end else S n)
             | _, _ => None
             end
    end.
Lemma lay_struct k name : lay (S k) (TCrate (B "de::" ++ name) []) =
  if str_mem name (map B single_types) then Some Single
  else match fields_of name with
       | Some fs => option_map (fun x => SerdeFormsSpec.Struct (snd x) (fst x)) (lay_each k fs)
       | None => None
       end.
Proof.
  cbn [lay]. change (firstn 4 (B "de::" ++ name)) with (B "de::"). change (skipn 4 (B "de::" ++ name)) with name. rewrite str_eqb_refl. reflexivity.
Qed.

(** What the function gives is the only layout there is. *)
Lemma lay_only : (forall t s, laid t s -> forall k r, lay k t = Some r -> r = s)
  /\ (forall fs keys n, laid_fields fs keys n -> forall k r, lay_each k fs = Some r -> r = (keys, n)).
Proof.
  apply laid_both with (P := fun t s _ => forall k r, lay k t = Some r -> r = s)
    (P0 := fun fs keys n _ => forall k r, lay_each k fs = Some r -> r = (keys, n)).
  - intros t s H IH [|k] r; [discriminate|]. cbn [lay]. rewrite str_eqb_refl. apply IH.
  - intros t s H IH [|k] r; [discriminate|]. cbn [lay]. rewrite str_eqb_refl. apply IH.
  - intros n I [|k] r; [discriminate|]. cbn [lay]. apply str_mem_in in I. rewrite I. now intros [= <-].
  - intros n I [|k] r; [discriminate|]. rewrite lay_struct. assert (M : str_mem (B n) (map B single_types) = true) by (apply str_mem_in; now apply in_map).
    rewrite M. now intros [= <-].
  - intros t s H IH [|k] r; [discriminate|]. cbn [lay]. rewrite !str_eqb_refl. cbn [andb]. destruct (lay k t) as [u|] eqn:E; [|discriminate].
    cbn [option_map]. intros [= <-]. now rewrite (IH k u E).
  - intros name fs keys n Ns D F IH [|k] r; [discriminate|]. rewrite lay_struct. destruct (str_mem name (map B single_types)) eqn:M; [now apply str_mem_in in M|].
    apply fields_declares in D. rewrite D. destruct (lay_each k fs) as [[keys' n']|] eqn:E; [|discriminate]. cbn [option_map fst snd]. intros [= <-].
    apply IH in E. now injection E as -> ->.
  - intros k r [= <-]. reflexivity.
  - intros f t fs keys n M F IH k r. cbn [lay_each]. apply mark_iff in M. rewrite M. apply IH.
  - intros f t s fs keys n Ns M H IHt F IH k r. cbn [lay_each]. rewrite <- mark_iff in Ns, M. destruct (mark (B "skip") f); [now destruct Ns|]. rewrite M.
    destruct (lay k t) as [s'|] eqn:E; [|discriminate]. fold (lay_each k). destruct (lay_each k fs) as [[keys' n']|] eqn:E'; [|discriminate]. intros [= <-].
    apply IHt in E as ->. apply IH in E'. now injection E' as -> ->.
  - intros f t s fs keys n Ns M H IHt F IH k r. cbn [lay_each]. rewrite <- mark_iff in Ns, M. destruct (mark (B "skip") f); [now destruct Ns|].
    destruct (mark (B "default") f); [now destruct M|].
    destruct (lay k t) as [s'|] eqn:E; [|discriminate]. fold (lay_each k). destruct (lay_each k fs) as [[keys' n']|] eqn:E'; [|discriminate]. intros [= <-].
    apply IHt in E as ->. apply IH in E'. now injection E' as -> ->.
Qed.
Lemma lay_each_laid k : (forall t s, lay k t = Some s -> laid t s) ->
  forall fs r, lay_each k fs = Some r -> laid_fields fs (fst r) (snd r).
Proof.
  intros IH. induction fs as [|[f t] fs IHf]; intros r; cbn [lay_each].
  - intros [= <-]. constructor.
  - destruct (mark (B "skip") f) eqn:M.
    + intros H. apply laid_skip; [now apply mark_iff|now apply IHf].
    + destruct (lay k t) as [s|] eqn:E; [|discriminate]. fold (lay_each k). destruct (lay_each k fs) as [[keys n]|] eqn:E'; [|discriminate]. intros [= <-]. cbn [fst snd].
      specialize (IHf _ eq_refl). cbn [fst snd] in IHf. assert (Ns : ~ marked (B "skip") f) by (rewrite <- mark_iff, M; discriminate).
      change (laid_fields ((f, t) :: fs) ((hyphens (fd_name f), s) :: keys) (if mark (B "default") f then match n with 0 => 0 | _ => S n end else S n)).
      destruct (mark (B "default") f) eqn:D.
      * apply laid_default; [exact Ns|now apply mark_iff|now apply IH|exact IHf].
      * apply laid_required; [exact Ns|rewrite <- mark_iff, D; discriminate|now apply IH|exact IHf].
Qed.
Lemma lay_laid k : forall t s, lay k t = Some s -> laid t s.
Proof.
  induction k as [|k IH]; [discriminate|]. intros t s.
  destruct t as [| | | |n args|n args]; try discriminate.
  - destruct args as [|u [|v [|? ?]]]; cbn [lay].
    + destruct (str_mem n _) eqn:M; [|discriminate]. intros [= <-]. apply laid_std. now apply str_mem_in.
    + destruct (str_eqb n (B "Option")) eqn:E; [|discriminate]. apply str_eqb_eq in E as ->. intros H. apply laid_option. now apply IH.
    + destruct (str_eqb n (B "BTreeMap")) eqn:E; [|discriminate]. destruct u as [| | | |m [|? ?]|]; try discriminate.
      destruct (str_eqb m (B "String")) eqn:E'; [|discriminate]. cbn [andb]. apply str_eqb_eq in E as ->. apply str_eqb_eq in E' as ->.
      destruct (lay k v) as [r|] eqn:L; [|discriminate]. intros [= <-]. apply laid_map. now apply IH.
    + discriminate.
  - destruct args as [|u [|? ?]]; try discriminate.
    + destruct (str_eqb (firstn 4 n) (B "de::")) eqn:E.
      * apply str_eqb_eq in E. assert (N : n = B "de::" ++ skipn 4 n) by (rewrite <- E; symmetry; apply firstn_skipn).
        set (name := skipn 4 n) in *. clearbody name. subst n. rewrite lay_struct. destruct (str_mem name (map B single_types)) eqn:M.
        -- intros [= <-]. apply str_mem_in, in_map_iff in M as (x & <- & I). now apply laid_single.
        -- destruct (fields_of name) as [fs|] eqn:F; [|discriminate]. destruct (lay_each k fs) as [[keys n]|] eqn:L; [|discriminate]. intros [= <-].
           apply laid_struct with fs; [intros I; apply str_mem_in in I; congruence|now apply fields_declares|].
           exact (lay_each_laid k IH fs _ L).
      * cbn [lay]. rewrite E. discriminate.
    + cbn [lay]. destruct (str_eqb n _) eqn:E; [|discriminate]. apply str_eqb_eq in E as ->. intros H. apply laid_value. now apply IH.
Qed.
Lemma laid_lay k t s : lay k t = Some s -> forall r, laid t r <-> r = s.
Proof.
  intros L r. split.
  - intros H. symmetry. exact (proj1 lay_only t r H k s L).
  - intros ->. now apply lay_laid with k.
Qed.
