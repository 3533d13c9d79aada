(** Lemmas for C68. *)
From Verif.Model Require Import Base Str Path BMap Error Value De Serde EasyTypes Triple Load Context Resolve Easy Construct Process.
From Verif.Spec Require Import StrSpec PathSpec ConfigSpec LoadSpec EnvSpec RootSpec TargetSpec SerdeSpec FinalSpec ConstructSpec.
From Verif.Proof Require Import StrFacts Utf8Proof EnvProof EnvVarsProof SerdeProof FinalProof HandProof.
From Verif.Spec Require Import FinalSpec.
From Verif.Props Require Import Serde Final.

(** The configurations are those of the documents. *)
Definition config_of (x : str * config) (d : str * toml) : Prop :=
  fst x = fst d /\ de_config (snd d) = Some (snd x) /\ laid_out (snd d).
Lemma reads_documents f ps l docs : reads f ps l -> documents f ps docs -> Forall2 config_of l docs.
Proof.
  intros [Hl Rl] [Hd Rd]. subst ps. revert docs Hd Rd.
  induction l as [|x l IH]; intros [|d docs] Hd Rd; try discriminate Hd; constructor.
  - cbn in Hd. injection Hd as E _. apply Forall_inv in Rl as (t & R & D). apply Forall_inv in Rd as [R' L].
    rewrite E, R in R'. injection R' as ->. split; [now symmetry|now split].
  - apply IH; [now inversion Rl|now injection Hd|now inversion Rd].
Qed.

(** Words as written. *)
Definition reads_as_words (means : toml -> form * list str -> Prop) (w : form * list word) (u : toml) : Prop :=
  exists w0, means u w0 /\ fst w = fst w0 /\ map val (snd w) = snd w0.
Lemma says_reads p means t (r : option (form * list word)) q :
  says p (fun u v => exists w, means u w /\ v = unlabelled_words w) t r ->
  both (reads_as_words means) (option_map (words_from q) r) (at_path p t).
Proof.
  unfold says. destruct (at_path p t) as [u|].
  - intros (a & (w & M & ->) & ->). cbn. exists w. split; [exact M|]. split; [reflexivity|].
    unfold words_from, unlabelled_words. cbn [fst snd]. rewrite !map_map. apply map_id.
  - now intros ->.
Qed.
Lemma both_defined {A A'} (R : A -> A' -> Prop) l l' :
  Forall2 (fun x y => both R x y) l l' -> Forall2 R (defined l) (defined l').
Proof.
  induction 1 as [|x y l l' H _ IH]; cbn; [constructor|].
  destruct x, y; cbn in H; try contradiction; [now constructor|assumption].
Qed.
Lemma forall2_maps {A A' C C'} (R : A -> A' -> Prop) (S : C -> C' -> Prop) (g : A -> C) (g' : A' -> C') l l' :
  (forall x y, R x y -> S (g x) (g' y)) -> Forall2 R l l' -> Forall2 S (map g l) (map g' l').
Proof. intros H. induction 1; constructor; auto. Qed.
Lemma forall2_impl {A A'} (R S : A -> A' -> Prop) l l' : (forall x y, R x y -> S x y) -> Forall2 R l l' -> Forall2 S l l'.
Proof. intros H. induction 1; constructor; auto. Qed.
Lemma lists_written l docs k : Forall2 config_of l docs ->
  Forall2 (reads_as_words (list_stands_for k)) (defined (map (list_in k) l)) (values_at (list_place k) docs).
Proof.
  intros H. apply both_defined. revert H. apply forall2_maps. intros x d (E & D & L).
  unfold list_in. apply says_reads. exact (C43_lists _ _ L D k).
Qed.
Lemma programs_written l docs k : Forall2 config_of l docs ->
  Forall2 (reads_as_words program_value) (defined (map (program_in k) l)) (values_at (program_place k) docs).
Proof.
  intros H. apply both_defined. revert H. apply forall2_maps. intros x d (E & D & L).
  unfold program_in. apply says_reads. exact (C43_programs _ _ L D k).
Qed.

Lemma strings_inj (l l' : list str) : map TomlStr l = map TomlStr l' -> l = l'.
Proof. revert l'. induction l as [|a l IH]; intros [|b l'] E; try discriminate E; [reflexivity|]. injection E as -> E. now rewrite (IH _ E). Qed.
Lemma text_words w s : reads_as_words list_value w (TomlStr s) -> fst w = AsString /\ map val (snd w) = split_space_separated s.
Proof. intros (w0 & M & E & V). inversion M; subst; cbn in *. split; [exact E|]. rewrite V. now apply space_words_iff. Qed.
Lemma array_words w l : reads_as_words list_value w (array l) -> fst w = AsArray /\ map val (snd w) = l.
Proof.
  intros (w0 & M & E & V). unfold array in M. inversion M; subst; cbn in *. split; [exact E|]. rewrite V. now apply strings_inj.
Qed.
Lemma arrays_words ws ls : Forall2 (reads_as_words list_value) ws (map array ls) ->
  map (fun w => map val (snd w)) ws = ls /\ Forall (fun w => fst w = AsArray) ws.
Proof.
  revert ls. induction ws as [|w ws IH]; intros [|x ls] H; inversion H; subst; [now split|].
  destruct (IH ls) as [E F]; [assumption|]. destruct (array_words w x) as [Fw Vw]; [assumption|].
  split; [cbn; f_equal; assumption|now constructor].
Qed.
Lemma vals_concat (l : list (form * list word)) :
  map val (concat (map snd l)) = concat (map (fun w => map val (snd w)) l).
Proof. rewrite concat_map, map_map. reflexivity. Qed.
Lemma vals_concat_rev (l : list (form * list word)) :
  map val (concat (rev (map snd l))) = concat (rev (map (fun w => map val (snd w)) l)).
Proof. rewrite concat_map, map_rev, map_map. reflexivity. Qed.

Definition code_words (x : code_list) : list str :=
  match x with FromText s => split_space_separated s | FromArray l => l end.
Lemma joined_lists ws us x : Forall2 (reads_as_words list_value) ws us -> written us x ->
  option_map (fun w => map val (snd w)) (join_lists ws) = Some (code_words x).
Proof.
  intros H W. destruct W as [s more|ls N].
  - inversion H as [|[fm w] ? ws' ? R _]; subst. apply text_words in R as [F V]. cbn in F, V. subst fm. cbn. now rewrite V.
  - destruct (arrays_words _ _ H) as [E F]. rewrite <- E. destruct ws as [|[fm w] ws]; [now destruct ls|].
    inversion F as [|? ? F1 _]. cbn in F1. subst fm. cbn [join_lists option_map snd code_words].
    f_equal. exact (vals_concat_rev ((AsArray, w) :: ws)).
Qed.
Lemma joined_programs ws us x : Forall2 (reads_as_words list_value) ws us -> written_program us x ->
  option_map (fun w => map val (snd w)) (join_programs ws) = Some (code_words x).
Proof.
  intros H W. destruct W as [s more|ls N].
  - inversion H as [|[fm w] ? ws' ? R _]; subst. apply text_words in R as [F V]. cbn in F, V. subst fm. cbn. now rewrite V.
  - destruct (arrays_words _ _ H) as [E F]. rewrite <- E. destruct ws as [|[fm w] ws]; [now destruct ls|].
    inversion F as [|? ? F1 _]. cbn in F1. subst fm. cbn [join_programs option_map snd code_words].
    f_equal. exact (vals_concat ((AsArray, w) :: ws)).
Qed.

Lemma unset_consulted {A} (vars : list (reader A)) env :
  Forall (fun v => env_get (fst v) env = None) vars -> consulted vars env = None.
Proof.
  unfold consulted. induction 1 as [|v vars H _ IH]; [reflexivity|]. cbn. now rewrite H.
Qed.

Section Sources.
Context (f : fs) (p : process_env) (cwd : str) (o : options) (env : env_map) (l : files) (ec : econfig).
Context (S : sources f p cwd o env l) (H : easy_load_with_options f p cwd o = Ok ec).

(** The first variable that is set decides. *)
Lemma consulted_first {A} before name (rd : str -> option A) after s :
  Forall (fun v => env_get (fst v) env = None) before -> env_get name env = Some s ->
  consulted (before ++ (name, rd) :: after) env = Some (name, if utf8_valid s then rd s else None).
Proof.
  unfold consulted. induction 1 as [|v before N _ IH]; intros G; cbn; [now rewrite G|]. rewrite N. auto.
Qed.
Lemma variable_code k before name rd after s fm ws : list_field k = true -> k <> BuildTarget ->
  list_variables k = before ++ (name, rd) :: after -> Forall (fun v => env_get (fst v) env = None) before ->
  env_get name env = Some s -> rd s = Some (fm, ws) -> easy_words k ec = Some ws.
Proof.
  intros F N V U G R. assert (B := C53_lists _ _ _ _ _ _ _ S H k F).
  assert (C := consulted_first before name rd after s U G). rewrite <- V in C.
  destruct (utf8_valid s) eqn:T.
  - rewrite R in C. unfold words_of, words_after in B. rewrite C in B.
    destruct (easy_words k ec) as [y|]; [|contradiction].
    destruct k; try discriminate F; cbn [both final_words snd] in B; try (now destruct N); now rewrite B, vals_of_variable.
  - exfalso. destruct (merged_of_sources _ _ _ _ _ _ _ S H) as (u & de & _ & Ha & _).
    destruct (sources_cx _ _ _ _ _ _ S) as (N' & G' & _).
    rewrite (consulted_ext _ _ _ G') in C. revert C. apply (apply_env_ok _ u N'). now rewrite Ha.
Qed.

Context (docs : list (str * toml)) (D : documents f (map fst l) docs).

Lemma docs_configs : Forall2 config_of l docs.
Proof. destruct S as (_ & home & ps & _ & _ & R). apply (reads_documents f (map fst l)); [split; [reflexivity|apply R]|exact D]. Qed.

Lemma list_code k x : list_field k = true -> (forall u w, list_stands_for k u w -> list_value u w) -> k <> BuildTarget ->
  Forall (fun v => env_get (fst v) env = None) (list_variables k) ->
  written (values_at (list_place k) docs) x -> easy_words k ec = Some (code_words x).
Proof.
  intros F K N U W. assert (B := C53_lists _ _ _ _ _ _ _ S H k F).
  unfold words_of, words_after in B. rewrite (unset_consulted _ _ U) in B.
  assert (J := joined_lists (defined (map (list_in k) l)) _ x
                 ltac:(eapply forall2_impl; [|exact (lists_written _ _ k docs_configs)];
                       intros w u (w0 & M & E); exists w0; split; [now apply K|exact E]) W).
  destruct (join_lists _) as [w|]; [|discriminate J]. injection J as J.
  destruct (easy_words k ec) as [y|]; [|contradiction]. cbn [both] in B. rewrite <- J.
  destruct k; try discriminate F; cbn [final_words] in B; now rewrite ?B.
Qed.

Lemma first_written k y rest : defined (map (program_in k) l) = y :: rest ->
  exists q u before after, docs = before ++ (q, u) :: after /\ at_path (program_place k) u <> None
    /\ Forall (fun d => at_path (program_place k) (snd d) = None) before
    /\ snd y <> [] /\ Forall (fun v => def v = Some (DefPath q)) (snd y).
Proof.
  assert (DC := docs_configs). clear - DC. induction DC as [|x d l docs (E & De & L) _ IH]; [discriminate|].
  cbn. assert (Sy := C43_programs _ _ L De k). unfold says in Sy. unfold program_in at 1.
  destruct (at_path (program_place k) (snd d)) as [u|] eqn:A.
  - destruct Sy as (a & (w & (M & N) & ->) & ->). cbn. intros G. injection G as <- _.
    exists (fst d), (snd d), [], docs. split; [now destruct d|]. split; [now rewrite A|]. split; [constructor|]. cbn. split.
    + now destruct (snd w).
    + rewrite !Forall_map. apply Forall_forall. intros v _. cbn. now rewrite E.
  - rewrite Sy. cbn. intros G. destruct (IH G) as (q & u & before & after & Ed & Au & Fb & Y).
    exists q, u, (d :: before), after. cbn. rewrite Ed. split; [reflexivity|]. split; [exact Au|].
    split; [now constructor|exact Y].
Qed.

Lemma browser_code x path args : written_program (values_at (program_place DocBrowser) docs) x ->
  code_words x = path :: args ->
  exists q u before after pth,
    docs = before ++ (q, u) :: after /\ at_path (program_place DocBrowser) u <> None
    /\ Forall (fun d => at_path (program_place DocBrowser) (snd d) = None) before
    /\ program_at cwd (mkValue path (Some (DefPath q))) pth /\ ed_browser (ec_doc ec) = Some (mkEpa pth args).
Proof.
  intros W C. assert (B := C53_browser _ _ _ _ _ _ _ S H).
  assert (J := joined_programs (defined (map (program_in DocBrowser) l)) _ x
                 ltac:(eapply forall2_impl; [|exact (programs_written _ _ DocBrowser docs_configs)];
                       intros w u (w0 & M & E); exists w0; split; [now apply M|exact E]) W).
  unfold program_in_all in B. destruct (join_programs (defined (map (program_in DocBrowser) l))) as [w|] eqn:G; [|discriminate J].
  injection J as J. cbn [program_after] in B.
  destruct (ed_browser (ec_doc ec)) as [[e ea]|]; [|contradiction]. cbn in B.
  destruct B as (v & more & Ew & P & V). cbn in P, V. subst ea.
  destruct w as [fw w]. cbn in Ew, J. subst w. rewrite C in J. cbn in J. injection J as Jv Ja.
  destruct (defined (map (program_in DocBrowser) l)) as [|y rest] eqn:Y; [discriminate G|].
  destruct (first_written DocBrowser y rest Y) as (q & u & before & after & Ed & Au & Fb & Ny & Fy).
  exists q, u, before, after, e. split; [exact Ed|]. split; [exact Au|]. split; [exact Fb|]. split; [|now rewrite Ja].
  assert (I : In v (snd y)).
  { destruct y as [fm [|v' ws]]; [now destruct Ny|]. cbn in G. left. destruct fm; now injection G. }
  rewrite Forall_forall in Fy. apply Fy in I. destruct v as [vv vd]. cbn in *. now subst.
Qed.
End Sources.

Lemma build_from calls e : fold_left epa_call calls e = mkEpa (epa_path e) (epa_args e ++ concat (map added calls)).
Proof.
  revert e. induction calls as [|c calls IH]; intros e; cbn; [rewrite app_nil_r; now destruct e|].
  rewrite IH. destruct c; cbn; now rewrite <- app_assoc.
Qed.

(** A check for [laid_out]. *)
Definition tab_ok (t : toml) : bool := match t with TomlTab l => once (map fst l) | _ => false end.
Definition opt_ok (f : toml -> bool) (o : option toml) : bool := match o with Some u => f u | None => true end.
Definition below_ok (t : toml) : bool := match t with TomlTab l => forallb (fun e => tab_ok (snd e)) l | _ => true end.
Definition laid_out_b (t : toml) : bool :=
  tab_ok t
  && forallb (fun s => opt_ok tab_ok (at_path [s] t))
       [B "alias"; B "build"; B "doc"; B "env"; B "future-incompat-report"; B "cargo-new";
        B "http"; B "net"; B "registries"; B "registry"; B "target"; B "term"]
  && opt_ok tab_ok (at_path [B "term"; B "progress"] t)
  && opt_ok below_ok (at_path [B "registries"] t) && opt_ok below_ok (at_path [B "target"] t).
Lemma once_nodup ks : once ks = true -> NoDup ks.
Proof.
  induction ks as [|k ks IH]; [constructor|]. cbn. intros N. apply andb_prop in N as [N Ns].
  constructor; [|now apply IH]. intros Hin. rewrite Bool.negb_true_iff in N.
  apply Bool.not_true_iff_false in N. apply N. apply existsb_exists. exists k. split; [exact Hin|apply str_eqb_refl].
Qed.
Lemma tab_ok_tab u : tab_ok u = true -> exists l, u = TomlTab l /\ NoDup (map fst l).
Proof. destruct u; try discriminate. intros N. exists l. split; [reflexivity|now apply once_nodup]. Qed.
Lemma below_entry s n t u : opt_ok below_ok (at_path [s] t) = true -> at_path [s; n] t = Some u -> tab_ok u = true.
Proof.
  destruct t as [| | | | | |root]; try discriminate. cbn. destruct (entry s root) as [v|]; [|discriminate]. cbn.
  destruct v as [| | | | | |l]; try discriminate. cbn. unfold entry. intros F E.
  destruct (find _ l) as [e|] eqn:G; [|discriminate E]. cbn in E. injection E as <-.
  apply find_some in G as [I _]. rewrite forallb_forall in F. exact (F e I).
Qed.
Lemma laid_out_check t : laid_out_b t = true -> laid_out t.
Proof.
  unfold laid_out_b. rewrite !Bool.andb_true_iff. intros ((((R & N) & P) & G) & T) p u Sp E.
  apply tab_ok_tab. destruct Sp as [|s I| |n|n].
  - now injection E as <-.
  - rewrite forallb_forall in N. specialize (N s I). now rewrite E in N.
  - now rewrite E in P.
  - exact (below_entry _ n t u G E).
  - exact (below_entry _ n t u T E).
Qed.
