(** What the library does with paths on Windows. *)
From Verif.Model Require Import Base Str Path StdPath OsPaths Error Value Triple.
From Verif.Spec Require Import StrSpec WinSpec.
From Verif.Proof Require Import StrFacts StdPathProof StdUnixProof StdParentProof WinPrefixProof WinDirProof.

Lemma nm s : (exists a n, s = a :: n) -> s <> B "." -> s <> B ".." ->
  forallb (fun c => negb (Ascii.eqb c "\" || Ascii.eqb c "/" || Ascii.eqb c ":")) s = true -> win_name s.
Proof.
  intros (a & n & ->) H1 H2 F. rewrite forallb_forall in F. repeat split; try easy; intros I; apply F in I; discriminate I.
Qed.
Lemma cargo_name : win_name (B ".cargo"). Proof. apply nm; try discriminate; [repeat eexists|reflexivity]. Qed.
Lemma config_name : win_name (B "config"). Proof. apply nm; try discriminate; [repeat eexists|reflexivity]. Qed.
Lemma toml_name : win_name (B "config.toml"). Proof. apply nm; try discriminate; [repeat eexists|reflexivity]. Qed.
Lemma text_of_names s l : names_text s l -> of_names s l.
Proof.
  induction 1 as [n W|n k s l W K T (r & E & Er & Hn & N & Sr)]; [now apply one_name|].
  destruct l as [|x l]; [easy|]. exists ((k, x) :: r). cbn [tl] in Er. repeat split.
  - rewrite E. unfold first_of, body. reflexivity.
  - cbn. now rewrite Er.
  - discriminate.
  - now constructor.
  - constructor; [|exact Sr]. split; [now apply sep_separates|]. apply name_nosep. now inversion N.
Qed.

Section Ex.
Context (ex : str -> bool).
Lemma files_found v l : volume_ok v -> Forall win_name l -> files windows ex (dir v l) = found ex v l.
Proof.
  intros V N. unfold files, os_config_path, found. rewrite !join_name by auto using config_name, toml_name.
  destruct (ex (dir v (l ++ [B "config"]))); [reflexivity|]. now destruct (ex (dir v (l ++ [B "config.toml"]))).
Qed.
Lemma above_names l k : In k (above l) -> Forall win_name l -> Forall win_name k.
Proof.
  revert k. induction l as [|x l IH]; cbn; intros k; [intros [<-|[]]; auto|]. rewrite in_app_iff, in_map_iff.
  intros [(j & <- & I)|[<-|[]]] N; [|constructor]. inversion_clear N. constructor; auto.
Qed.
Lemma cargo_dirs v l : volume_ok v -> Forall win_name l ->
  map (cargo_in windows) (std_ancestors windows (dir v l)) = map (fun k => dir v (k ++ [B ".cargo"])) (above l).
Proof.
  intros V N. rewrite dir_ancestors, map_map by auto. apply map_ext_in. intros k I. unfold cargo_in. apply join_name; auto using cargo_name.
  now apply (above_names l).
Qed.
Lemma win_walk_none v l : volume_ok v -> Forall win_name l ->
  os_walk windows ex (dir v l) None = flat_map (fun k => found ex v (k ++ [B ".cargo"])) (above l).
Proof.
  intros V N. rewrite walk_closed, cargo_dirs by auto. cbn [left_over]. rewrite app_nil_r.
  assert (H : forall ks, (forall k, In k ks -> Forall win_name k) -> flat_map (files windows ex) (map (fun k => dir v (k ++ [B ".cargo"])) ks)
    = flat_map (fun k => found ex v (k ++ [B ".cargo"])) ks).
  { induction ks as [|k ks IH]; intros Hk; [reflexivity|]. cbn [map flat_map]. rewrite files_found; auto.
    - f_equal. apply IH. intros; apply Hk; now right.
    - apply Forall_app. split; [apply Hk; now left|]. repeat constructor; apply cargo_name. }
  apply H. intros k I. now apply (above_names l).
Qed.
Lemma walk_home v l h : volume_ok v -> Forall win_name l ->
  os_walk windows ex (dir v l) (Some h) = os_walk windows ex (dir v l) None
    ++ (if existsb (fun k => std_eqb windows h (dir v (k ++ [B ".cargo"]))) (above l) then [] else files windows ex h).
Proof.
  intros V N. rewrite !walk_closed, cargo_dirs by auto. cbn [left_over]. rewrite app_nil_r. f_equal.
  assert (E : forall ks, existsb (std_eqb windows h) (map (fun k => dir v (k ++ [B ".cargo"])) ks) = existsb (fun k => std_eqb windows h (dir v (k ++ [B ".cargo"]))) ks).
  { induction ks as [|k ks IH]; [reflexivity|]. cbn [map existsb]. now rewrite IH. }
  rewrite E. now destruct (existsb _ _).
Qed.
End Ex.

(** Directories and spellings *)
Lemma cut_names l : Forall win_name l -> pieces (intercalate back l) = l.
Proof.
  intros N. unfold pieces. rewrite intercalate_body. 
  assert (NS : nosep win_sep (first_of l) /\ seps win_sep (rest_of l)).
  { assert (H := names_ok (Drive "C") l N). exact H. }
  destruct NS as [Nw Sr]. rewrite cut_body, names_rest by auto. destruct N as [|w l W N]; [reflexivity|].
  change (first_of (w :: l) :: tl (w :: l)) with (w :: l). assert (G : Forall win_name (w :: l)) by now constructor.
  clear - G. induction G as [|x l' X G IH]; [reflexivity|]. cbn [filter]. rewrite counts_idle. unfold idle. rewrite (name_sing _ x X). cbn. now rewrite IH.
Qed.
Lemma dir_on_drive c l : is_letter c -> Forall win_name l -> on_drive (dir (Drive c) l) (capital c) true l.
Proof. intros L N. assert (H := from_root c back (intercalate back l) L (or_introl eq_refl)). now rewrite (cut_names l N) in H. Qed.
Lemma vprefix_same v w : vprefix v = vprefix w <-> same_volume v w.
Proof.
  destruct v, w; cbn [vprefix same_volume]; rewrite ?capital_upper; split; intros E; try discriminate E; try contradiction;
  try (injection E; auto; fail); try (now rewrite E); try (destruct E as [-> ->]; reflexivity).
Qed.
Lemma map_name_inj a b : map Name a = map Name b -> a = b.
Proof. revert b. induction a as [|x a IH]; intros [|y b]; try discriminate; [reflexivity|]. cbn. intros H. injection H as -> H. f_equal. auto. Qed.
Lemma dir_same v w l l' : volume_ok v -> volume_ok w -> Forall win_name l -> Forall win_name l' ->
  (std_eqb windows (dir v l) (dir w l') = true <-> same_volume v w /\ l = l').
Proof.
  intros V W N N'. rewrite (std_eqb_parts windows windows_steady), !dir_parts by auto. rewrite <- vprefix_same. split.
  - intros E. injection E as E1 E2. split; [exact E1|now apply map_name_inj].
  - now intros [-> ->].
Qed.
Lemma home_seen ex c l h k : is_letter c -> Forall win_name l -> In k (above l) -> on_drive h (capital c) true (k ++ [B ".cargo"]) ->
  os_walk windows ex (dir (Drive c) l) (Some h) = os_walk windows ex (dir (Drive c) l) None.
Proof.
  intros L N I O. rewrite (walk_home ex (Drive c) l h L N).
  assert (E : existsb (fun k0 => std_eqb windows h (dir (Drive c) (k0 ++ [B ".cargo"]))) (above l) = true).
  { apply existsb_exists. exists k. split; [exact I|]. apply (drive_same _ _ _ _ _ _ _ _ O (dir_on_drive c (k ++ [B ".cargo"]) L ltac:(apply Forall_app; split; [now apply (above_names l)|repeat constructor; apply cargo_name]))). auto. }
  rewrite E. apply app_nil_r.
Qed.
Lemma home_last ex v l w l' : volume_ok v -> volume_ok w -> Forall win_name l -> Forall win_name l' ->
  ~ (same_volume w v /\ exists k, In k (above l) /\ l' = k ++ [B ".cargo"]) ->
  os_walk windows ex (dir v l) (Some (dir w l')) = os_walk windows ex (dir v l) None ++ found ex w l'.
Proof.
  intros V W N N' H. rewrite walk_home by auto. rewrite files_found by auto.
  assert (E : existsb (fun k => std_eqb windows (dir w l') (dir v (k ++ [B ".cargo"]))) (above l) = false).
  { destruct (existsb _ _) eqn:E; [|reflexivity]. exfalso. apply existsb_exists in E as (k & I & E). apply dir_same in E as [E1 E2]; auto.
    - apply H. split; [exact E1|]. eauto.
    - apply Forall_app. split; [now apply (above_names l)|]. repeat constructor; apply cargo_name. }
  now rewrite E.
Qed.

(** ** Values *)
Definition in_file (v : volume) (l : list str) (f : str) : definition := DefPath (dir v (l ++ [B ".cargo"; f])).
Lemma file_root {E} v l f cwd : volume_ok v -> Forall win_name l -> win_name f -> @os_root windows E (in_file v l f) cwd = Ok (dir v l).
Proof.
  intros V N F. unfold in_file, os_root, os_parent_parent.
  assert (C := cargo_name). change (l ++ [B ".cargo"; f]) with (l ++ [B ".cargo"] ++ [f]). rewrite app_assoc.
  assert (N1 : Forall win_name (l ++ [B ".cargo"])) by (apply Forall_app; split; [exact N|now constructor]).
  rewrite (dir_parent v V (l ++ [B ".cargo"]) f) by (apply Forall_app; split; [exact N1|now constructor]).
  now rewrite (dir_parent v V l (B ".cargo") N1).
Qed.
Lemma contains_in c s : contains c s = true <-> In c s.
Proof. unfold contains. rewrite existsb_exists. split; [intros (x & I & E); apply Ascii.eqb_eq in E; congruence|intros I; exists c; split; [exact I|apply Ascii.eqb_refl]]. Qed.
Lemma has_sep s : (contains slash s || contains backslash s)%bool = true <-> has_separator s.
Proof.
  rewrite orb_true_iff, !contains_in. unfold has_separator, separates. split.
  - intros [I|I]; [exists "/"%char|exists "\"%char]; auto.
  - intros (k & I & [-> | ->]); auto.
Qed.
Lemma join_prefixed base s : os_prefix windows s <> None -> std_join windows base s = s.
Proof. intros P. unfold std_join. destruct (os_prefix windows s); [|easy]. now rewrite orb_true_r. Qed.
Lemma rooted_facts s : rooted s -> os_prefix windows s = None /\ std_has_root windows s = true /\ s <> [].
Proof.
  intros (k & t & -> & K & K2).
  assert (P : parse_prefix (k :: t) = None).
  { rewrite parse_prefix_split. change (B "\\") with [backslash; backslash]. cbn [strip_alike].
    assert (Hk : alike_sep k = backslash) by (destruct K as [-> | ->]; reflexivity). rewrite Hk. change (Ascii.eqb backslash backslash) with true. cbv iota.
    assert (A : alphabetic k = false) by (destruct K as [-> | ->]; reflexivity).
    destruct t as [|a t]; [reflexivity|]. assert (N : win_sep a = false) by (apply not_sep; eauto).
    assert (E : Ascii.eqb backslash (alike_sep a) = false).
    { unfold alike_sep. unfold win_sep in N. apply orb_false_iff in N as [A1 A2]. rewrite A1. apply Ascii.eqb_neq. intros <-. discriminate A2. }
    rewrite E. cbn [parse_drive option_map]. now rewrite A. }
  split; [exact P|]. split; [|discriminate]. unfold std_has_root, cs_has_root, comps_of. cbn [cs_root cs_prefix]. unfold physical_root.
  change (os_prefix windows (k :: t)) with (parse_prefix (k :: t)). rewrite P. cbn. rewrite orb_false_r. now apply sep_separates.
Qed.
Lemma join_rooted v l s : volume_ok v -> px_verbatim (vprefix v) = false -> rooted s -> std_join windows (dir v l) s = volume_text v ++ s.
Proof.
  intros V Vb R. destruct (rooted_facts s R) as (P & H & _). unfold std_join, std_is_absolute. rewrite H, P. cbn [andb orb negb is_some os_needs_prefix windows].
  assert (Vv : prefix_verbatim (comps_of windows (dir v l)) = false) by (unfold dir; now rewrite (vverb _ V)).
  rewrite Vv. cbn [andb]. f_equal. apply (under_pre_text v V (intercalate back l)).
Qed.
Lemma not_absolute s : os_prefix windows s = None -> std_is_absolute windows s = false.
Proof. intros P. unfold std_is_absolute. rewrite P. cbn. apply andb_false_r. Qed.
Lemma program_cases {E} v l f cwd s : volume_ok v -> Forall win_name l -> win_name f ->
  (~ has_separator s -> @os_program_path windows E (mkValue s (Some (in_file v l f))) cwd = Ok s)
  /\ (os_prefix windows s <> None -> @os_program_path windows E (mkValue s (Some (in_file v l f))) cwd = Ok s)
  /\ (has_separator s -> os_prefix windows s = None ->
      @os_program_path windows E (mkValue s (Some (in_file v l f))) cwd = Ok (std_join windows (dir v l) s)).
Proof.
  intros V N F. unfold os_program_path. cbn [def val]. rewrite (file_root v l f cwd V N F). cbn [bind].
  split; [|split].
  - intros H. rewrite <- has_sep in H. destruct (_ || _)%bool; [exfalso; now apply H|]. now rewrite andb_false_r.
  - intros P. rewrite (join_prefixed _ s P). now destruct (_ && _)%bool.
  - intros H P. apply has_sep in H. rewrite H, (not_absolute s P). reflexivity.
Qed.

(** ** File names *)
Lemma last_part os (Std : steady os) p : option_map bare (fst (next_back os (comps_of os p))) = hd_error (rev (map bare (parts os p))).
Proof.
  assert (Sane := steady_sane os Std). destruct (dissect os Sane p) as (st & w & r & P & So & Bo & Nw & Sr & St).
  rewrite <- (parts_both os Sane p st w r) by auto. unfold parts_back. replace (length p + 4) with (S (length p + 3)) by lia. cbn [collect].
  destruct (next_back os (comps_of os p)) as [[q|] c]; reflexivity.
Qed.
Lemma named_last p l n : map bare (parts windows p) = l ++ [Name n] -> std_file_name windows p = Some n.
Proof.
  intros E. assert (H := last_part windows windows_steady p). rewrite E, rev_app_distr in H. cbn [rev app hd_error] in H. unfold std_file_name.
  destruct (next_back windows (comps_of windows p)) as [[q|] c]; [|discriminate H]. cbn in H. destruct q; try discriminate H. cbn in H. now injection H as ->.
Qed.
Lemma rposition_no f s : Forall (fun c => f c = false) s -> rposition f s = None.
Proof. induction 1 as [|c s C N IH]; [reflexivity|]. cbn. now rewrite IH, C. Qed.
Lemma rposition_dot s t : Forall (fun c => is_dot c = false) t -> rposition is_dot (s ++ "."%char :: t) = Some (length s).
Proof. intros N. induction s as [|c s IH]; cbn; [now rewrite rposition_no|]. now rewrite IH. Qed.
Lemma json_split stem : stem <> [] -> rsplit_at_dot (stem ++ B ".json") = (Some stem, Some (B "json")).
Proof.
  intros N. unfold rsplit_at_dot. assert (D : str_eqb (stem ++ B ".json") (B "..") = false).
  { destruct (str_eqb _ _) eqn:E; [|reflexivity]. apply str_eqb_eq in E. apply (f_equal (@length _)) in E. rewrite app_length in E.
    change (length (B ".json")) with 5 in E. change (length (B "..")) with 2 in E. lia. }
  rewrite D. change (B ".json") with ("."%char :: B "json"). rewrite rposition_dot by (repeat constructor).
  destruct stem as [|a stem]; [easy|]. cbn [length Nat.eqb]. change (S (length stem)) with (length (a :: stem)). f_equal; f_equal.
  - now rewrite firstn_app, Nat.sub_diag, firstn_all, app_nil_r.
  - replace ((a :: stem) ++ "."%char :: B "json") with (((a :: stem) ++ ["."%char]) ++ B "json") by now rewrite <- app_assoc.
    apply skipn_app_len. rewrite app_length. cbn. lia.
Qed.
Lemma spec_file p stem l : stem <> [] -> map bare (parts windows p) = l ++ [Name (stem ++ B ".json")] ->
  os_is_spec_path windows p = true /\ std_file_stem windows p = Some stem.
Proof.
  intros N E. assert (F := named_last p l _ E). unfold os_is_spec_path, std_extension, std_file_stem. rewrite F, (json_split stem N). split; [reflexivity|reflexivity].
Qed.
Lemma names_last_part s l n : names_text s (l ++ [n]) -> map bare (parts windows s) = map Name l ++ [Name n].
Proof.
  intros T. rewrite (of_names_parts s (l ++ [n])) by now apply text_of_names.
  rewrite map_map, map_app. reflexivity.
Qed.
Lemma spec_relative {E} v l f s ns stem t cwd : volume_ok v -> Forall win_name l -> win_name f -> px_verbatim (vprefix v) = false ->
  stem <> [] -> names_text s (ns ++ [stem ++ B ".json"]) -> to_str stem = Some t ->
  @os_triple windows E s (Some (in_file v l f)) (Some cwd)
  = Ok (mkTriple t (Some (dir v l ++ (match l with [] => [] | _ => [back] end) ++ s))).
Proof.
  intros V N F Vb Ns T Ut. destruct (spec_file s stem _ Ns (names_last_part s ns _ T)) as [S1 S2].
  unfold os_triple. rewrite S1, S2, Ut. unfold os_spec_path.
  assert (R := @file_root E v l f cwd V N F). unfold os_root, in_file in R. unfold os_root_opt, in_file.
  rewrite R. cbn [bind]. rewrite join_dir; auto. apply (of_names_relative s (ns ++ [stem ++ B ".json"])). now apply text_of_names.
Qed.
(** ** rustc beside cargo *)
Lemma pop_dir v l n : volume_ok v -> Forall win_name (l ++ [n]) -> std_pop windows (dir v (l ++ [n])) = dir v l.
Proof.
  intros V N. unfold std_pop. assert (H := parent_parts windows windows_steady (dir v (l ++ [n]))).
  rewrite (dir_parent v V l n N) in *. destruct H as [(rest & _ & ->) _]. now apply firstn_app_len.
Qed.
Lemma rustc_name : win_name (B "rustc" ++ B ".exe"). Proof. apply nm; try discriminate; [repeat eexists|reflexivity]. Qed.
Lemma rustc_beside v l cargo ex : volume_ok v -> Forall win_name (l ++ [cargo]) ->
  os_rustc_path windows (B ".exe") (dir v (l ++ [cargo])) ex
  = (if ex (dir v (l ++ [B "rustc.exe"])) then dir v (l ++ [B "rustc.exe"]) else B "rustc").
Proof.
  intros V N. unfold os_rustc_path. rewrite pop_dir by auto. rewrite join_name; [reflexivity|exact V|now apply Forall_app in N|apply rustc_name].
Qed.
(** ** CARGO_HOME *)
Lemma dir_absolute v s : volume_ok v -> std_is_absolute windows (volume_text v ++ back :: s) = true.
Proof.
  intros V. unfold std_is_absolute, std_has_root, cs_has_root. rewrite (under_root v V). cbn [orb andb negb os_needs_prefix windows].
  change (parse_prefix (volume_text v ++ back :: s)) with (os_prefix windows (volume_text v ++ back :: s)). now rewrite (under_prefix v V).
Qed.
Lemma cargo_home_cases v l : volume_ok v -> Forall win_name l -> px_verbatim (vprefix v) = false ->
  (forall w l' d, volume_ok w -> os_cargo_home windows (Some (dir w l')) d (dir v l) = Some (dir w l'))
  /\ (forall h d, relative h -> os_cargo_home windows (Some h) d (dir v l) = Some (dir v l ++ (match l with [] => [] | _ => [back] end) ++ h))
  /\ (forall h d, rooted h -> os_cargo_home windows (Some h) d (dir v l) = Some (volume_text v ++ h))
  /\ (forall c h d, is_letter c -> os_cargo_home windows (Some (c :: ":"%char :: h)) d (dir v l) = Some (c :: ":"%char :: h)).
Proof.
  intros V N Vb. split; [|split; [|split]].
  - intros w l' d W. unfold os_cargo_home, dir. rewrite (dir_absolute w _ W). destruct (volume_text w ++ back :: intercalate back l') eqn:E; [|reflexivity].
    destruct (volume_text w); discriminate E.
  - intros h d R. unfold os_cargo_home. destruct (relative_root h R) as [H P]. rewrite (not_absolute h P), (join_dir v l h V N Vb R).
    destruct R as [R _]. now destruct h.
  - intros h d R. unfold os_cargo_home. destruct (rooted_facts h R) as (P & H & Ne). rewrite (not_absolute h P), (join_rooted v l h V Vb R). now destruct h.
  - intros c h d L. unfold os_cargo_home. cbn [is_empty]. rewrite join_prefixed; [now destruct (std_is_absolute _ _)|].
    change (parse_prefix (c :: ":"%char :: h) <> None). now rewrite drive_prefix.
Qed.
Lemma home_default v l var d cwd : volume_ok v -> Forall win_name l -> (var = None \/ var = Some []) -> d = Some (dir v l) ->
  os_cargo_home windows var d cwd = Some (dir v (l ++ [B ".cargo"])).
Proof. intros V N [-> | ->] ->; unfold os_cargo_home; cbn [is_empty]; now rewrite join_name by auto using cargo_name. Qed.
