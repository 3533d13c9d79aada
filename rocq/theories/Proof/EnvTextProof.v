(** Lemmas about the texts of variables and about the filter on their names. *)
From Verif.Model Require Import Base Str Path BMap Error Value De Context ApplyEnv.
From Verif.Spec Require Import StrSpec ConfigSpec LoadSpec EnvSpec.
From Verif.Proof Require Import StrFacts BMapFacts MergeProof LoadProof EnvProof EnvVarsProof.

(** ** Numbers *)
Lemma digit_val_iff c d : digit_val c = Some d <-> (d < 10)%N /\ c = digit d.
Proof.
  unfold digit_val, digit. destruct (in_range 48 57 (nb c)) eqn:E.
  - apply in_range_iff in E. split.
    + intros [= <-]. split; [lia|]. replace (48 + (nb c - 48))%N with (nb c) by lia.
      symmetry. apply ascii_N_embedding.
    + intros [H ->]. f_equal. unfold nb. rewrite N_ascii_embedding by lia. lia.
  - split; [easy|]. intros [H ->]. assert (in_range 48 57 (nb (ascii_of_N (48 + d))) = true); [|congruence].
    apply in_range_iff. unfold nb. rewrite N_ascii_embedding by lia. lia.
Qed.
Lemma parse_digits_app a s t :
  parse_digits a (s ++ t) = match parse_digits a s with Some n => parse_digits n t | None => None end.
Proof.
  revert a; induction s as [|c s IH]; intros a; cbn [app parse_digits]; [easy|].
  destruct (digit_val c); auto.
Qed.
Lemma parse_nat_iff s n : parse_nat s = Some n <-> decimal s n.
Proof.
  split.
  - revert n. induction s as [|c s IH] using rev_ind; [easy|]. intros n H.
    assert (H' : parse_digits 0 (s ++ [c]) = Some n) by (destruct s; exact H). clear H.
    rewrite parse_digits_app in H'. destruct (parse_digits 0 s) as [m|] eqn:E; [|easy].
    cbn [parse_digits] in H'. destruct (digit_val c) as [d|] eqn:Ed; [|easy]. injection H' as <-.
    apply digit_val_iff in Ed. destruct Ed as [Hd ->]. destruct s as [|c' s].
    + cbn in E. injection E as <-. cbn. now constructor.
    + rewrite N.mul_comm. constructor; [|easy]. now apply IH.
  - induction 1 as [d Hd|s n d Hs IH Hd].
    + unfold parse_nat. cbn [parse_digits]. now rewrite (proj2 (digit_val_iff (digit d) d) (conj Hd eq_refl)).
    + assert (E : parse_digits 0 (s ++ [digit d]) = Some (10 * n + d)%N).
      { rewrite parse_digits_app. assert (P : parse_digits 0 s = Some n) by (destruct s; [discriminate IH|exact IH]).
        rewrite P. cbn [parse_digits]. rewrite (proj2 (digit_val_iff (digit d) d) (conj Hd eq_refl)).
        f_equal. lia. }
      destruct s; exact E.
Qed.
Lemma decimal_head s n : decimal s n -> exists d r, s = digit d :: r /\ (d < 10)%N.
Proof.
  induction 1 as [d Hd|s n d Hs (d' & r & -> & Hd') Hd]; [now exists d, []|]. now exists d', (r ++ [digit d]).
Qed.
Lemma digit_not c d : (d < 10)%N -> in_range 48 57 (nb c) = false -> Ascii.eqb (digit d) c = false.
Proof.
  intros Hd H. apply Ascii.eqb_neq. intros <-. unfold digit, nb in H. rewrite N_ascii_embedding in H by lia.
  assert (in_range 48 57 (48 + d) = true) by (apply in_range_iff; lia). congruence.
Qed.
Lemma parse_u32_iff s n : parse_u32 s = Some n <-> unsigned s n /\ (n < 2 ^ 32)%N.
Proof.
  unfold parse_u32, unsigned. split.
  - destruct s as [|c t]; [easy|]. destruct (Ascii.eqb_spec c "+") as [->|N].
    + destruct (parse_nat t) as [m|] eqn:E; [|easy]. destruct (N.leb_spec m u32_max); [|easy]. intros [= <-].
      apply parse_nat_iff in E. split; [exists t; auto|]. unfold u32_max in *. lia.
    + destruct (parse_nat (c :: t)) as [m|] eqn:E; [|easy]. destruct (N.leb_spec m u32_max); [|easy].
      intros [= <-]. apply parse_nat_iff in E. split; [exists (c :: t); auto|]. unfold u32_max in *. lia.
  - intros ((ds & Hd & [->| ->]) & Hn).
    + destruct (decimal_head ds n Hd) as (d & r & -> & Hd').
      rewrite (digit_not "+" d) by easy. apply parse_nat_iff in Hd. rewrite Hd.
      destruct (N.leb_spec n u32_max); [easy|]. unfold u32_max in *. lia.
    + cbn [B list_ascii_of_string app]. apply parse_nat_iff in Hd. cbn [Ascii.eqb Bool.eqb].
      rewrite Hd. destruct (N.leb_spec n u32_max); [easy|]. unfold u32_max in *. lia.
Qed.
Lemma parse_i32_iff s z : parse_i32 s = Some z <-> signed s z /\ (- 2 ^ 31 <= z < 2 ^ 31)%Z.
Proof.
  unfold parse_i32, signed. split.
  - destruct s as [|c t]; [easy|]. destruct (Ascii.eqb_spec c "+") as [->|N].
    { destruct (parse_nat t) as [m|] eqn:E; [|easy]. destruct (N.leb_spec m 2147483647); [|easy]. intros [= <-].
      apply parse_nat_iff in E. split; [exists t, m; auto|]. lia. }
    destruct (Ascii.eqb_spec c "-") as [->|N'].
    { destruct (parse_nat t) as [m|] eqn:E; [|easy]. destruct (N.leb_spec m 2147483648); [|easy]. intros [= <-].
      apply parse_nat_iff in E. split; [exists t, m; auto|]. lia. }
    destruct (parse_nat (c :: t)) as [m|] eqn:E; [|easy]. destruct (N.leb_spec m 2147483647); [|easy]. intros [= <-].
    apply parse_nat_iff in E. split; [exists (c :: t), m; auto|]. lia.
  - intros ((ds & n & Hd & [[[->| ->] ->]|[-> ->]]) & Hn).
    + destruct (decimal_head ds n Hd) as (d & r & -> & Hd').
      rewrite (digit_not "+" d), (digit_not "-" d) by easy. apply parse_nat_iff in Hd. rewrite Hd.
      destruct (N.leb_spec n 2147483647); [easy|]. lia.
    + cbn [B list_ascii_of_string app]. apply parse_nat_iff in Hd. cbn [Ascii.eqb Bool.eqb].
      rewrite Hd. destruct (N.leb_spec n 2147483647); [easy|]. lia.
    + cbn [B list_ascii_of_string app]. apply parse_nat_iff in Hd. cbn [Ascii.eqb Bool.eqb].
      rewrite Hd. destruct (N.leb_spec n 2147483648); [easy|]. lia.
Qed.

(** ** Words *)
Ltac words_iff :=
  intros; split;
  [ repeat match goal with |- (if str_eqb ?a ?b then _ else _) = _ -> _ =>
      let E := fresh "E" in destruct (str_eqb a b) eqn:E end;
    intros [=]; subst; match goal with E : str_eqb _ _ = true |- _ => apply str_eqb_eq in E; subst end;
    cbn [In]; tauto
  | cbn [In]; intros H; repeat (destruct H as [[= <- <-]|H]; [reflexivity|]); destruct H ].
Lemma bool_words s b : parse_bool s = Some b <-> In (s, b) bools.
Proof. unfold parse_bool, bools. words_iff. Qed.
Lemma color_words s b : color_from_str s = Some b <-> In (s, b) colors.
Proof. unfold color_from_str, colors. words_iff. Qed.
Lemma when_words s b : when_from_str s = Some b <-> In (s, b) whens.
Proof. unfold when_from_str, whens. words_iff. Qed.
Lemma frequency_words s b : frequency_from_str s = Some b <-> In (s, b) frequencies.
Proof. unfold frequency_from_str, frequencies. words_iff. Qed.
Lemma protocol_words s b : protocol_from_str s = Some b <-> In (s, b) protocols.
Proof. unfold protocol_from_str, protocols. words_iff. Qed.
Lemma vcs_words s b : vcs_from_str s = Some b <-> In (s, b) vcss.
Proof. unfold vcs_from_str, vcss. words_iff. Qed.

(** ** The filter *)
Lemma env_relevant_iff n :
  env_relevant n = true <-> begins (B "CARGO") n \/ begins (B "RUST") n \/ n = B "BROWSER".
Proof.
  unfold env_relevant, begins. rewrite !orb_true_iff, !starts_with_iff, str_eqb_eq. tauto.
Qed.
Definition keepb (n : str) : bool := (utf8_valid n && env_relevant n)%bool.
Lemma keepb_iff n : keepb n = true <-> kept n.
Proof. unfold keepb, kept. now rewrite andb_true_iff, env_relevant_iff. Qed.

Lemma env_get_insert k v e n :
  env_get n (env_insert k v e) = if str_eqb n k then Some v else env_get n e.
Proof.
  induction e as [|[k' v'] e IH]; cbn; [easy|]. destruct (str_eqb k k') eqn:E; cbn.
  - apply str_eqb_eq in E. subst. now destruct (str_eqb n k').
  - rewrite IH. destruct (str_eqb n k') eqn:E1; [|easy]. apply str_eqb_eq in E1. subst.
    now rewrite str_eqb_sym, E.
Qed.
Lemma env_insert_keys k v e n : In n (map fst (env_insert k v e)) <-> n = k \/ In n (map fst e).
Proof.
  induction e as [|[k' v'] e IH]; cbn.
  - intuition congruence.
  - destruct (str_eqb k k') eqn:E; cbn.
    + apply str_eqb_eq in E. subst. intuition congruence.
    + rewrite IH. intuition congruence.
Qed.
Lemma env_insert_unique k v e : one_value_each e -> one_value_each (env_insert k v e).
Proof.
  unfold one_value_each. induction e as [|[k' v'] e IH]; intros N; cbn in *.
  - constructor; [easy|constructor].
  - inversion N as [|? ? N1 N2]; subst. destruct (str_eqb k k') eqn:E; cbn.
    + now constructor.
    + constructor; [|now apply IH]. rewrite env_insert_keys. apply str_eqb_neq in E. intros [K|K]; auto.
Qed.
Lemma env_collect_unique vars e : one_value_each e -> one_value_each (env_collect vars e).
Proof.
  revert e; induction vars as [|[k v] vars IH]; intros e N; cbn; [easy|]. apply IH.
  unfold to_str. destruct (utf8_valid k); [|easy]. destruct (env_relevant k); [|easy].
  now apply env_insert_unique.
Qed.
Lemma env_filter_unique vars : one_value_each (env_filter vars).
Proof. apply env_collect_unique. constructor. Qed.

Lemma env_collect_get vars e n v :
  env_get n (env_collect vars e) = Some v <->
  keepb n = true /\ last_setting n vars v \/ (keepb n = false \/ ~ In n (map fst vars)) /\ env_get n e = Some v.
Proof.
  revert e; induction vars as [|[k w] vars IH]; intros e; cbn [env_collect map fst].
  - split.
    + intros H. right. split; [right; easy | easy].
    + intros [[_ (l & r & H & _)]|[_ H]]; [|easy]. destruct l; discriminate H.
  - assert (L : last_setting n ((k, w) :: vars) v <->
                last_setting n vars v \/ n = k /\ v = w /\ ~ In n (map fst vars)).
    { unfold last_setting. split.
      - intros (l & r & H & Hr). destruct l as [|x l]; cbn in H.
        + injection H as <- <- <-. auto.
        + injection H as _ ->. left. now exists l, r.
      - intros [(l & r & -> & Hr)|(-> & -> & Hr)]; [now exists ((k, w) :: l), r | now exists [], vars]. }
    rewrite IH, L. clear IH L.
    assert (Hin : last_setting n vars v -> In n (map fst vars)).
    { intros (l & r & -> & _). rewrite map_app, in_app_iff. right. now left. }
    destruct (In_dec str_eq_dec n (map fst vars)) as [I|I].
    + unfold to_str. fold (keepb n). cbn [In].
      assert (E : keepb n = false -> env_get n
        (match (if utf8_valid k then Some k else None) with
         | Some k0 => if env_relevant k0 then env_insert k0 w e else e | None => e end) = env_get n e).
      { intros Hk. destruct (utf8_valid k) eqn:E1; [|easy]. destruct (env_relevant k) eqn:E2; [|easy].
        rewrite env_get_insert. destruct (str_eqb n k) eqn:E3; [|easy]. apply str_eqb_eq in E3. subst.
        unfold keepb in Hk. now rewrite E1, E2 in Hk. }
      destruct (keepb n); [|rewrite E by easy]; intuition congruence.
    + assert (F : ~ last_setting n vars v) by auto. cbn [In].
      assert (E : env_get n
        (match to_str k with
         | Some k0 => if env_relevant k0 then env_insert k0 w e else e | None => e end)
        = if (keepb n && str_eqb n k)%bool then Some w else env_get n e).
      { unfold to_str, keepb. destruct (str_eqb n k) eqn:E3.
        - apply str_eqb_eq in E3. subst k. rewrite andb_true_r. destruct (utf8_valid n); [|easy]. cbn [andb].
          destruct (env_relevant n); [|easy]. rewrite env_get_insert. now rewrite str_eqb_refl.
        - rewrite andb_false_r. destruct (utf8_valid k); [|easy]. destruct (env_relevant k); [|easy].
          rewrite env_get_insert. now rewrite E3. }
      rewrite E. clear E. destruct (keepb n); cbn [andb]; [|intuition congruence].
      destruct (str_eqb n k) eqn:E3; [apply str_eqb_eq in E3|apply str_eqb_neq in E3].
      * split.
        -- intros [[_ K]|[_ [= <-]]]; [easy|]. left. split; [easy|]. right. auto.
        -- intros [[_ [K|(_ & -> & _)]]|[[K|K] _]]; try easy; [right; split; auto | exfalso; auto].
      * split.
        -- intros [[_ K]|[_ K]]; [easy|]. right. split; [|easy]. right. intros [->|H]; auto.
        -- intros [[_ [K|(-> & _ & _)]]|[_ K]]; try easy. right. auto.
Qed.
Lemma env_filter_get vars n v :
  env_get n (env_filter vars) = Some v <-> kept n /\ last_setting n vars v.
Proof.
  unfold env_filter. rewrite env_collect_get, keepb_iff. split; [|auto].
  intros [H|[_ H]]; [easy|discriminate H].
Qed.
Lemma last_setting_get vars n v : one_value_each vars ->
  (last_setting n vars v <-> env_get n vars = Some v).
Proof.
  intros N. split.
  - intros (l & r & -> & _). apply in_env_get; [easy|]. apply in_app_iff. right. now left.
  - intros H. apply env_get_in in H. apply in_split in H. destruct H as (l & r & ->). exists l, r.
    split; [easy|]. unfold one_value_each in N. rewrite map_app in N. cbn [map fst] in N.
    apply NoDup_remove_2 in N. intros K. apply N. apply in_app_iff. now right.
Qed.

(** Only kept variables matter. *)
Lemma same_env_relevant env env' c :
  one_value_each env -> one_value_each env' ->
  (forall n, env_relevant n = true -> env_get n env = env_get n env') ->
  cfg_sorted c -> same_outcome (apply_env env c) (apply_env env' c).
Proof.
  intros N N' H S.
  assert (CS : forall A (k : scalar_key A), consulted (variables k) env = consulted (variables k) env').
  { intros A k. unfold consulted. f_equal. apply map_ext_in. intros r Hr.
    assert (env_relevant (fst r) = true); [|now rewrite H].
    destruct k; cbn [variables In] in Hr;
      try (destruct (str_eqb name (B "crates-io"))); cbn [In] in Hr;
      repeat (destruct Hr as [<-|Hr]; [reflexivity|]); destruct Hr. }
  assert (CL : forall k, consulted (list_variables k) env = consulted (list_variables k) env').
  { intros k. unfold consulted. f_equal. apply map_ext_in. intros r Hr.
    assert (env_relevant (fst r) = true); [|now rewrite H].
    destruct k; cbn [list_variables In] in Hr;
      repeat (destruct Hr as [<-|Hr]; [reflexivity|]); destruct Hr. }
  assert (CB : consulted [browser] env = consulted [browser] env').
  { unfold consulted. cbn [map]. now rewrite (H (fst browser) eq_refl). }
  apply same_outcome_intro; try apply apply_env_panic.
  - rewrite !apply_env_ok by easy. unfold all_readable, readable.
    split; intros (H1 & H2 & H3); (split; [|split]).
    + intros A k n. rewrite <- CS. apply H1.
    + intros k n. rewrite <- CL. apply H2.
    + intros K n. rewrite <- CB. now apply H3.
    + intros A k n. rewrite CS. apply H1.
    + intros k n. rewrite CL. apply H2.
    + intros K n. rewrite CB. now apply H3.
  - intros a b Ha Hb. apply same_keys_eq.
    + eapply apply_env_sorted; eassumption.
    + eapply apply_env_sorted; eassumption.
    + rewrite (apply_env_overrides _ _ _ Ha), (apply_env_overrides _ _ _ Hb). unfold set.
      now rewrite !H by reflexivity.
    + assert (L : forall k, look_list k a = look_list k b).
      { intros k. rewrite (apply_env_list env c a N Ha), (apply_env_list env' c b N' Hb). unfold words_after.
        now rewrite CL. }
      assert (P : forall k, look_program k a = look_program k b).
      { intros k. rewrite (apply_env_program env c a Ha), (apply_env_program env' c b Hb).
        unfold program_after, words_after. now rewrite CB. }
      split; [|split; [exact L|split; [exact P|split]]].
      * intros A k. rewrite (apply_env_scalar env c a N Ha), (apply_env_scalar env' c b N' Hb).
        unfold scalar_after. now rewrite CS.
      * intros k. rewrite (apply_env_entry env c a N Ha), (apply_env_entry env' c b N' Hb).
        unfold entry_after, set. destruct k; rewrite ?H by reflexivity; reflexivity.
      * intros k. destruct k as [k|k|n]; cbn [shape_at].
        -- now rewrite L.
        -- now rewrite P.
        -- now rewrite (proj1 (apply_env_env _ _ _ Ha)), (proj1 (apply_env_env _ _ _ Hb)).
Qed.
Lemma env_filter_relevant vars n :
  one_value_each vars -> Forall (fun kv => utf8_valid (fst kv) = true) vars ->
  env_relevant n = true -> env_get n (env_filter vars) = env_get n vars.
Proof.
  intros N U R. destruct (env_get n vars) as [v|] eqn:E.
  - apply env_filter_get. split; [|now apply last_setting_get]. apply keepb_iff. unfold keepb. rewrite R.
    apply env_get_in in E. rewrite Forall_forall in U. now rewrite (U _ E : utf8_valid n = true).
  - destruct (env_get n (env_filter vars)) as [v|] eqn:F; [|easy]. apply env_filter_get in F.
    destruct F as [_ F]. apply last_setting_get in F; [|easy]. congruence.
Qed.
Lemma env_filter_transparent vars c :
  one_value_each vars -> Forall (fun kv => utf8_valid (fst kv) = true) vars -> cfg_sorted c ->
  same_outcome (apply_env (env_filter vars) c) (apply_env vars c).
Proof.
  intros N U S. apply same_env_relevant; auto using env_filter_unique, env_filter_relevant.
Qed.

(** ** Single keys *)
Lemma text_pair (k : scalar_key str) hi lo env c c' :
  variables k = [text hi; text lo] -> one_value_each env -> apply_env env c = Ok c' ->
  look k c' = match env_get hi env, env_get lo env with
              | Some v, _ => if switches_off k v then None else Some (of_variable hi v)
              | None, Some v => if switches_off k v then None else Some (of_variable lo v)
              | None, None => look k c
              end.
Proof.
  intros E N H. rewrite (apply_env_scalar env c c' N H). unfold scalar_after.
  assert (R : readable (variables k) env).
  { assert (A : is_ok (apply_env env c) = true) by now rewrite H.
    apply apply_env_ok in A; [|easy]. apply A. }
  unfold readable, consulted in *. rewrite E in *. cbn [map first_defined fst snd text] in *.
  destruct (env_get hi env) as [v|].
  - destruct (utf8_valid v); [reflexivity|]. exfalso. now eapply R.
  - destruct (env_get lo env) as [v|]; [|reflexivity].
    destruct (utf8_valid v); [reflexivity|]. exfalso. now eapply R.
Qed.
Lemma incremental_key env c c' :
  one_value_each env -> apply_env env c = Ok c' ->
  forall v, env_get (B "CARGO_INCREMENTAL") env = Some v ->
  look BuildIncremental c' = Some (of_variable (B "CARGO_INCREMENTAL") (str_eqb v (B "1"))).
Proof.
  intros N H v E. rewrite (apply_env_scalar env c c' N H). unfold scalar_after.
  assert (R : readable (variables BuildIncremental) env).
  { assert (A : is_ok (apply_env env c) = true) by now rewrite H.
    apply apply_env_ok in A; [|easy]. apply A. }
  unfold readable, consulted in *. cbn [map first_defined fst snd variables switches_off] in *. rewrite E in *.
  destruct (utf8_valid v); [reflexivity|]. exfalso. now eapply R.
Qed.
Lemma flags_key k e p b env c c' :
  (k = BuildRustflags /\ e = B "CARGO_ENCODED_RUSTFLAGS" /\ p = B "RUSTFLAGS" /\ b = B "CARGO_BUILD_RUSTFLAGS"
   \/ k = BuildRustdocflags /\ e = B "CARGO_ENCODED_RUSTDOCFLAGS" /\ p = B "RUSTDOCFLAGS"
      /\ b = B "CARGO_BUILD_RUSTDOCFLAGS") ->
  one_value_each env -> apply_env env c = Ok c' ->
  look_list k c' = match env_get e env, env_get p env, env_get b env with
                   | Some v, _, _ => Some (AsArray, map (of_variable e) (split_encoded v))
                   | None, Some v, _ => Some (AsString, map (of_variable p) (split_space_separated v))
                   | None, None, Some v => Some (AsString, map (of_variable b) (split_space_separated v))
                   | None, None, None => look_list k c
                   end.
Proof.
  intros K N H. rewrite (apply_env_list env c c' N H). unfold words_after.
  assert (R : readable (list_variables k) env).
  { assert (A : is_ok (apply_env env c) = true) by now rewrite H.
    apply apply_env_ok in A; [|easy]. apply A. }
  unfold readable, consulted in *.
  destruct K as [(-> & -> & -> & ->)|(-> & -> & -> & ->)]; cbn [map first_defined fst snd list_variables] in *.
  - destruct (env_get (B "CARGO_ENCODED_RUSTFLAGS") env) as [v|];
      [destruct (utf8_valid v); [reflexivity|]; exfalso; now eapply R|].
    destruct (env_get (B "RUSTFLAGS") env) as [v|];
      [destruct (utf8_valid v); [reflexivity|]; exfalso; now eapply R|].
    destruct (env_get (B "CARGO_BUILD_RUSTFLAGS") env) as [v|];
      [destruct (utf8_valid v); [reflexivity|]; exfalso; now eapply R|reflexivity].
  - destruct (env_get (B "CARGO_ENCODED_RUSTDOCFLAGS") env) as [v|];
      [destruct (utf8_valid v); [reflexivity|]; exfalso; now eapply R|].
    destruct (env_get (B "RUSTDOCFLAGS") env) as [v|];
      [destruct (utf8_valid v); [reflexivity|]; exfalso; now eapply R|].
    destruct (env_get (B "CARGO_BUILD_RUSTDOCFLAGS") env) as [v|];
      [destruct (utf8_valid v); [reflexivity|]; exfalso; now eapply R|reflexivity].
Qed.
Lemma browser_kept env c c' w :
  apply_env env c = Ok c' -> look_program DocBrowser c = Some w -> look_program DocBrowser c' = Some w.
Proof. intros H E. rewrite (apply_env_program env c c' H). now rewrite E. Qed.
Lemma browser_fallback env c c' v :
  apply_env env c = Ok c' -> look_program DocBrowser c = None -> env_get (B "BROWSER") env = Some v ->
  look_program DocBrowser c' = Some (AsString, map (of_variable (B "BROWSER")) (split_space_separated v))
  /\ split_space_separated v <> [].
Proof.
  intros H E Ev. pose proof (apply_env_program env c c' H DocBrowser) as P. rewrite E in P.
  cbn [program_after] in P. unfold words_after, consulted in P. cbn [map first_defined browser fst snd] in P.
  rewrite Ev in P.
  assert (R : readable [browser] env).
  { pose proof (ap_doc _ _ _ (apply_env_applied _ _ _ H)) as D.
    assert (A : is_ok (apply_doc env (c_doc c)) = true) by now rewrite D.
    apply apply_doc_ok in A; [easy|exact E]. }
  unfold readable, consulted in R. cbn [map first_defined browser fst snd] in R. rewrite Ev in R.
  destruct (utf8_valid v); [|exfalso; now eapply R].
  destruct (split_space_separated v); [exfalso; now eapply R|]. now rewrite P.
Qed.
Lemma browser_ignored env v c w :
  one_value_each env -> one_value_each ((B "BROWSER", v) :: env) -> cfg_sorted c ->
  look_program DocBrowser c = Some w ->
  same_outcome (apply_env ((B "BROWSER", v) :: env) c) (apply_env env c).
Proof.
  intros N N' S Hw. set (env' := (B "BROWSER", v) :: env) in *.
  assert (G : forall n, str_eqb n (B "BROWSER") = false -> env_get n env' = env_get n env).
  { intros n Hn. unfold env'. cbn [env_get]. now rewrite Hn. }
  assert (CS : forall A (k : scalar_key A), consulted (variables k) env' = consulted (variables k) env).
  { intros A k. unfold consulted. f_equal. apply map_ext_in. intros r Hr.
    rewrite G; [reflexivity|].
    destruct k; cbn [variables In] in Hr;
      try (destruct (str_eqb name (B "crates-io"))); cbn [In] in Hr;
      repeat (destruct Hr as [<-|Hr]; [reflexivity|]); destruct Hr. }
  assert (CL : forall k, consulted (list_variables k) env' = consulted (list_variables k) env).
  { intros k. unfold consulted. f_equal. apply map_ext_in. intros r Hr.
    rewrite G; [reflexivity|].
    destruct k; cbn [list_variables In] in Hr;
      repeat (destruct Hr as [<-|Hr]; [reflexivity|]); destruct Hr. }
  apply same_outcome_intro; try apply apply_env_panic.
  - rewrite !apply_env_ok by easy. unfold all_readable, readable.
    split; intros (H1 & H2 & H3); (split; [|split]).
    + intros A k n. rewrite <- CS. apply H1.
    + intros k n. rewrite <- CL. apply H2.
    + intros K. congruence.
    + intros A k n. rewrite CS. apply H1.
    + intros k n. rewrite CL. apply H2.
    + intros K. congruence.
  - intros a b Ha Hb. apply same_keys_eq.
    + eapply apply_env_sorted; eassumption.
    + eapply apply_env_sorted; eassumption.
    + rewrite (apply_env_overrides _ _ _ Ha), (apply_env_overrides _ _ _ Hb). unfold EnvSpec.set.
      now rewrite !G by reflexivity.
    + assert (L : forall k, look_list k a = look_list k b).
      { intros k. rewrite (apply_env_list env' c a N' Ha), (apply_env_list env c b N Hb). unfold words_after.
        now rewrite CL. }
      assert (P : forall k, look_program k a = look_program k b).
      { intros k. rewrite (apply_env_program env' c a Ha), (apply_env_program env c b Hb).
        destruct k; [now rewrite Hw | reflexivity]. }
      split; [|split; [exact L|split; [exact P|split]]].
      * intros A k. rewrite (apply_env_scalar env' c a N' Ha), (apply_env_scalar env c b N Hb).
        unfold scalar_after. now rewrite CS.
      * intros k. rewrite (apply_env_entry env' c a N' Ha), (apply_env_entry env c b N Hb).
        unfold entry_after, EnvSpec.set. destruct k; rewrite ?G by reflexivity; reflexivity.
      * intros k. destruct k as [k|k|n]; cbn [shape_at].
        -- now rewrite L.
        -- now rewrite P.
        -- now rewrite (proj1 (apply_env_env _ _ _ Ha)), (proj1 (apply_env_env _ _ _ Hb)).
Qed.
Lemma two_variables_key k hi lo env c c' :
  In (k, hi, lo) two_variables -> one_value_each env -> apply_env env c = Ok c' ->
  look k c' = match env_get hi env, env_get lo env with
              | Some v, _ => from_variable k hi v
              | None, Some v => from_variable k lo v
              | None, None => look k c
              end.
Proof.
  intros Hin N H.
  assert (P : forall k hi lo, variables k = [text hi; text lo] ->
              (forall v, switches_off k v = match v with [] => is_wrapper k | _ => false end) ->
              look k c' = match env_get hi env, env_get lo env with
                          | Some v, _ => from_variable k hi v
                          | None, Some v => from_variable k lo v
                          | None, None => look k c
                          end).
  { intros k0 hi0 lo0 E W. rewrite (text_pair k0 hi0 lo0 env c c' E N H). unfold from_variable.
    destruct (env_get hi0 env) as [[|? ?]|]; [rewrite W; reflexivity..|].
    destruct (env_get lo0 env) as [[|? ?]|]; [rewrite W; reflexivity..|reflexivity]. }
  assert (T : Forall (fun x => look (fst (fst x)) c'
              = match env_get (snd (fst x)) env, env_get (snd x) env with
                | Some v, _ => from_variable (fst (fst x)) (snd (fst x)) v
                | None, Some v => from_variable (fst (fst x)) (snd x) v
                | None, None => look (fst (fst x)) c
                end) two_variables).
  { repeat constructor; apply P; try reflexivity; now intros [|? ?]. }
  rewrite Forall_forall in T. exact (T _ Hin).
Qed.
