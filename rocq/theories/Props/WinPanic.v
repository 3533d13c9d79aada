(** C83: when the library panics on Windows. *)
From Verif.Model Require Import Base Str Path StdPath OsPaths BMap Error Value De CfgExpr Triple EasyTypes Serde Load
  Context ApplyEnv Process Resolve Easy OsLoad.
From Verif.Spec Require Import StrSpec ConfigSpec LoadSpec EnvSpec CfgSpec TripleSpec TargetSpec FinalSpec QuerySpec WinSpec
  WinLoadSpec OsTargetSpec WinTargetSpec OsQuerySpec WinPanicSpec.
From Verif.Proof Require Import Utf8Proof LoadProof StateProof TargetProof WinDirProof StdPathProof WinPrefixProof FinalProof WinUseProof WinLoadProof OsTargetProof WinTargetProof
  OsQueryProof WinQueryProof WinPanicProof WinQueryPanicProof.
From Verif.Props Require Panic.
From Verif.Props Require Import WinLoad WinTarget WinTools.
From Verif.Spec Require Import WinSpec.

(** ** Loading *)

(** Loading panics if, and only if, nothing else is wrong and a path or a target has no meaning. *)
Theorem C83_load f p cwd o env l x : win_sources f p cwd o env l ->
  os_easy_load windows f p (at_place cwd) o = Panic x <->
  x = PUnwrapNone /\ same_shapes (map snd l) /\ variables_readable env l /\ win_unnamed env l.
Proof. exact (win_load_panic f p cwd o env l x). Qed.
Print Assumptions C83_load.
(** So with a home that is not a root, all paths and programs will do. *)
Theorem C83_load_fine f p cwd o env l : win_sources f p cwd o env l ->
  (forall h, win_home p o (Some h) -> snd h <> []) ->
  same_shapes (map snd l) -> variables_readable env l ->
  (forall fm ws v, words_of env l BuildTarget = Some (fm, ws) -> In v ws -> ~ win_nameless (val v)) ->
  exists ec, os_easy_load windows f p (at_place cwd) o = Ok ec.
Proof.
  intros S B Sh Vr T. destruct (home_below f p cwd o env l S B) as (T1 & T2 & T3).
  apply (win_load_fine f p cwd o env l S); [assumption..|].
  - intros [k v _ H [A _] _|k v _ H [A _]|fm v args H [A _] _|fm ws v H I [N|[_ A]]|n v r H _ _ A].
    + exact (T1 _ k v H A).
    + exact (T1 _ k v H A).
    + exact (T3 _ _ _ v H (or_introl eq_refl) A).
    + exact (T fm ws v H I N).
    + exact (T2 _ _ _ v H I A).
    + exact (T1 _ _ v H A).
Qed.
Print Assumptions C83_load_fine.

(** ** Targets *)
Lemma plain_cases s :
  (exists t, os_triple (E := error) windows s None None = Ok t) /\ ~ win_nameless s
  \/ os_triple (E := error) windows s None None = Panic PUnwrapNone /\ win_nameless s.
Proof.
  rewrite (path_nameless s). unfold os_triple. destruct (os_is_spec_path windows s).
  2:{ left. split; [eauto|]. intros [H _]. discriminate H. }
  destruct (std_file_stem windows s) as [st|]; [|right; auto]. destruct (to_str st) as [x|]; [|right; auto].
  left. split; [|intros [_ H]; discriminate H]. unfold os_spec_path. cbn. eauto.
Qed.
Lemma arg_cases a :
  (exists t, os_to_triple windows a = Ok t) /\ ~ (exists s, a = ArgText s /\ win_nameless s)
  \/ os_to_triple windows a = Panic PUnwrapNone /\ exists s, a = ArgText s /\ win_nameless s.
Proof.
  destruct a as [s|t]; cbn [os_to_triple].
  - destruct (plain_cases s) as [[O N]|[P N]]; [left|right]; split; eauto. intros (s' & [= <-] & K). contradiction.
  - left. split; [eauto|]. intros (s' & [=] & _).
Qed.
(** A text that is no target panics before anything else happens ... *)
Theorem C83_argument pr w ec q s t : win_nameless t -> target_query q (ArgText t) ->
  os_run_query windows (B ".exe") pr w ec q s = (Panic PUnwrapNone, s).
Proof.
  intros N Q. destruct (plain_cases t) as [[_ K]|[P _]]; [contradiction|].
  rewrite (target_query_run windows (B ".exe") _ _ _ _ _ _ Q). unfold os_q_target. rewrite bindM_assoc, bindM_eq.
  unfold lift. cbn [os_to_triple]. now rewrite P.
Qed.
Print Assumptions C83_argument.
(** ... and all others are. *)
Theorem C83_argument_fine t : ~ win_nameless t -> exists x, os_to_triple windows (ArgText t) = Ok x.
Proof. intros N. destruct (plain_cases t) as [[O _]|[_ K]]; [exact O|contradiction]. Qed.
Print Assumptions C83_argument_fine.
(** What else panics there: with checks of overflows a key, and with a home that is a root a
    linker or a runner given relative to what is above it. *)
Theorem C83_target_panic f p cwd o env l ec pr w q a t s x :
  win_sources f p cwd o env l -> os_easy_load windows f p (at_place cwd) o = Ok ec ->
  Forall (fun y => text_keys (c_target (snd y))) l -> target_query q a -> os_to_triple windows a = Ok t ->
  fst (os_run_query windows (B ".exe") pr w ec q s) = Panic x ->
  (x = POverflow /\ overflow_checks pr = true /\ crowded_key l)
  \/ x = PUnwrapNone /\ exists v, win_tool env l v /\ astray v /\ has_separator (val v).
Proof. intros S L. exact (win_target_panic f p cwd o env l ec S L pr w q a t s x). Qed.
Print Assumptions C83_target_panic.
(** So with a home that is not a root, and no checks, nothing. *)
Theorem C83_target f p cwd o env l ec pr w q a t s x :
  win_sources f p cwd o env l -> os_easy_load windows f p (at_place cwd) o = Ok ec ->
  (forall h, win_home p o (Some h) -> snd h <> []) ->
  Forall (fun y => text_keys (c_target (snd y))) l -> overflow_checks pr = false ->
  target_query q a -> os_to_triple windows a = Ok t ->
  fst (os_run_query windows (B ".exe") pr w ec q s) <> Panic x.
Proof. intros S L B. exact (win_target_no_panic f p cwd o env l ec S L pr w q a t s x B). Qed.
Print Assumptions C83_target.

(** ** Targets to build for *)
Lemma traverse_cases args :
  (exists ts, traverse (os_to_triple windows) args = Ok ts) /\ ~ (exists s, In (ArgText s) args /\ win_nameless s)
  \/ traverse (os_to_triple windows) args = Panic PUnwrapNone /\ exists s, In (ArgText s) args /\ win_nameless s.
Proof.
  induction args as [|a args IH].
  { left. split; [now exists []|]. intros (s & [] & _). }
  cbn [traverse]. destruct (arg_cases a) as [[(t & Ht) N]|[P (s & -> & N)]].
  - rewrite Ht. cbn [bind]. destruct IH as [[(ts & ->) N']|[-> (s & I & K)]].
    + left. cbn. split; [eauto|]. intros (s & [->|I] & K); [apply N|apply N']; eauto.
    + right. split; [reflexivity|]. exists s. cbn. auto.
  - right. rewrite P. split; [reflexivity|]. exists s. cbn. auto.
Qed.
Theorem C83_build_target f p cwd o env l ec pr w args s x :
  win_sources f p cwd o env l -> os_easy_load windows f p (at_place cwd) o = Ok ec ->
  fst (os_run_query windows (B ".exe") pr w ec (QBuildTargetForConfig args) s) = Panic x <->
  (x = PUnwrapNone /\ exists t, In (ArgText t) args /\ win_nameless t)
  \/ (args = [] /\ match words_of env l BuildTarget with Some ws => snd ws = [] | None => True end
      /\ (fst (os_run_query windows (B ".exe") pr w ec QHostTriple s) = Panic x
          \/ x = PUnwrapNone /\ exists h,
               fst (os_run_query windows (B ".exe") pr w ec QHostTriple s) = Ok (AStr h) /\ win_nameless h)).
Proof.
  intros S L. assert (R := win_build_targets f p cwd o env l ec S L).
  cbn [os_run_query] in *. rewrite !mapM_fst, !Panic.map_ok_panic. unfold os_q_build_target_for_config.
  rewrite bindM_eq. unfold lift at 1.
  destruct (traverse_cases args) as [[(ts & E) N]|[P K]].
  2:{ rewrite P. cbn [fst]. split; [intros [= <-]; auto|]. intros [[-> _]|[-> _]]; [reflexivity|]. destruct K as (t & [] & _). }
  rewrite E. destruct ts as [|t ts].
  2:{ cbn [fst ret]. split; [discriminate|]. intros [[_ K]|[-> _]]; [contradiction|discriminate E]. }
  assert (args = []) as ->.
  { destruct args as [|a args]; [reflexivity|]. cbn in E. destruct (os_to_triple windows a); [|discriminate..]. cbn in E.
    destruct (traverse (os_to_triple windows) args); discriminate. }
  assert (Host : forall P : Prop, P ->
    fst ((h <~ os_cx_host_triple windows (B ".exe") pr w (ec_cx ec) (ec_build ec) ;; t <~ lift (os_triple windows h None None) ;; ret [t]) s) = Panic x <->
    (x = PUnwrapNone /\ (exists t : str, In (ArgText t) [] /\ win_nameless t))
    \/ @nil target_arg = [] /\ P /\ (fst (os_cx_host_triple windows (B ".exe") pr w (ec_cx ec) (ec_build ec) s) = Panic x
        \/ x = PUnwrapNone /\ exists h, map_ok AStr (fst (os_cx_host_triple windows (B ".exe") pr w (ec_cx ec) (ec_build ec) s)) = Ok (AStr h) /\ win_nameless h)).
  { intros P HP. rewrite bindM_eq. destruct (os_cx_host_triple windows (B ".exe") pr w (ec_cx ec) (ec_build ec) s) as [[h|e|y] s1]; cbn [fst map_ok] in *.
    - rewrite bindM_eq. unfold lift. destruct (plain_cases h) as [[(t & T) Nh]|[T Nh]]; rewrite T; cbn.
      + split; [discriminate|]. intros [[_ (? & [] & _)]|(_ & _ & [?|(_ & h' & [= <-] & K)])]; [discriminate|contradiction].
      + split; [intros [= <-]; right; eauto 8|]. intros [[_ (? & [] & _)]|(_ & _ & [?|(-> & _)])]; [discriminate|reflexivity].
    - split; [discriminate|]. intros [[_ (? & [] & _)]|(_ & _ & [?|(_ & h' & ? & _)])]; discriminate.
    - split; [intros [= <-]; right; auto|]. intros [[_ (? & [] & _)]|(_ & _ & [H|(_ & h' & ? & _)])]; [now injection H as ->|discriminate]. }
  destruct (words_of env l BuildTarget) as [ws|].
  - destruct R as (ts & R & F). rewrite R. destruct ts as [|t ts].
    + apply Host. now inversion F.
    + cbn [fst ret]. split; [discriminate|]. intros [[_ (? & [] & _)]|(_ & Em & _)]. rewrite Em in F. inversion F.
  - rewrite R. now apply Host.
Qed.
Print Assumptions C83_build_target.
(** Never otherwise. *)
Theorem C83_never pr w ec q s x :
  q = QRustc \/ q = QCargo \/ (exists l, q = QBuildTargetForCli l) -> fst (os_run_query windows (B ".exe") pr w ec q s) <> Panic x.
Proof.
  intros [->|[->|[l ->]]]; cbn [os_run_query]; [|discriminate..].
  destruct (rustc_ok windows (B ".exe") w ec s) as (r & s1 & H). unfold mapM. rewrite bindM_eq, H. discriminate.
Qed.
Print Assumptions C83_never.
(** ** A build without checks, a home that is not a root, and targets that are such *)
Theorem C83_safe f p cwd o env l cargo ec pr w s q x :
  win_loaded f p cwd o env l cargo ec -> os_reached windows (B ".exe") pr w ec s ->
  (forall h, win_home p o (Some h) -> snd h <> []) ->
  Forall (fun y => text_keys (c_target (snd y))) l -> overflow_checks pr = false -> debug_assertions pr = false ->
  (forall t, target_query q (ArgText t) \/ (exists args, q = QBuildTargetForConfig args /\ In (ArgText t) args) ->
     ~ win_nameless t) ->
  (forall h, fst (os_run_query windows (B ".exe") pr w ec QHostTriple s) = Ok (AStr h) -> ~ win_nameless h) ->
  fst (os_run_query windows (B ".exe") pr w ec q s) <> Panic x.
Proof.
  intros Ld Rs B U Ov Da T Hh H.
  assert (V : version_query q -> False).
  { intros Q. destruct (C81_panic _ _ _ _ _ _ _ _ _ _ _ _ _ Ld Rs Q H) as (_ & D & _). congruence. }
  assert (Nh : fst (os_run_query windows (Base.B ".exe") pr w ec QHostTriple s) <> Panic x).
  { intros K. destruct (C81_panic _ _ _ _ _ _ _ _ _ _ _ _ _ Ld Rs (or_introl eq_refl) K) as (_ & D & _). congruence. }
  destruct Ld as (S & L & _).
  assert (Tq : forall a, target_query q a -> False).
  { intros a Q. destruct (arg_cases a) as [[(t & Ht) _]|[_ (t & -> & N)]].
    - exact (C83_target f p cwd o env l ec pr w q a t s x S L B U Ov Q Ht H).
    - exact (T t (or_introl Q) N). }
  unfold target_query, version_query in *. destruct q as [a|a|a|a|a|args|args| | | | |]; try (apply (Tq a); tauto); try (apply V; tauto).
  - apply (C83_build_target f p cwd o env l ec pr w args s x S L) in H.
    destruct H as [[_ (t & I & N)]|(_ & _ & [K|(_ & h & K & N)])]; [|contradiction|exact (Hh h K N)].
    apply (T t); eauto.
  - revert H. apply C83_never. eauto.
  - revert H. apply C83_never. auto.
  - revert H. apply C83_never. auto.
Qed.
Print Assumptions C83_safe.

(** ** Examples *)

Ltac named := match goal with |- ~ win_nameless ?s => destruct (plain_cases s) as [[_ N]|[P _]]; [exact N|exfalso; vm_compute in P; discriminate P] end.
Ltac unnamed := match goal with |- win_nameless ?s => destruct (plain_cases s) as [[(t & O) _]|[_ N]]; [exfalso; vm_compute in O; discriminate O|exact N] end.
(** Dots, a share alone, devices; but not what is on a share or in the long form. *)
Example C83_ex_nameless :
  win_nameless (B "a\..") /\ win_nameless (B "\\server\share") /\ win_nameless (B "//./my.json") /\ win_nameless (B "\\?\C:\a\.")
  /\ ~ win_nameless (B "x/my.json") /\ ~ win_nameless (B "\\server\share\my.json") /\ ~ win_nameless (B "\\?\C:\a/my.json")
  /\ ~ win_nameless (B "\\my.json").
Proof. repeat (split; [first [unnamed|named]|]). named. Qed.
(** A home in the root of a drive: what a file there says is relative to nothing. *)
Definition c83_fs : fs :=
  mkFsys (fun x => str_eqb x (B "C:\config"))
         (fun _ => ReadTree (TomlTab [(B "build", TomlTab [(B "target-dir", TomlStr (B "out"))])])).
Definition c83_process : process_env := mkProcess [(B "CARGO_HOME", B "C:\")] None.
Definition c83_cwd : place := (Drive "C", [B "p"]).
Definition c83_config : config := Eval vm_compute in
  match os_load_with_options windows c83_fs (at_place c83_cwd) (Some (B "C:\")) with Ok c => c | _ => config_default end.
Example C83_ex_root : exists env l, win_sources c83_fs c83_process c83_cwd options_default env l
  /\ same_shapes (map snd l) /\ variables_readable env l /\ win_unnamed env l
  /\ os_easy_load windows c83_fs c83_process (at_place c83_cwd) options_default = Panic PUnwrapNone.
Proof.
  assert (K : place_ok c83_cwd) by place. set (home := (Drive "C", @nil str)). assert (Kh : place_ok home) by place.
  assert (Hh : win_home c83_process options_default (Some home)).
  { apply win_home_variable; [reflexivity| |exact Kh].
    apply variable_set with (before := []) (n := B "CARGO_HOME") (after := []); [reflexivity|reflexivity|constructor]. }
  assert (V : win_visited (fs_exists c83_fs) c83_cwd (Some home) [B "C:\config"]).
  { replace [B "C:\config"] with (WinLoadSpec.near (fs_exists c83_fs) c83_cwd ++ found (fs_exists c83_fs) (fst home) (snd home))
      by (vm_compute; reflexivity).
    constructor. intros [_ (k & I & E)]. destruct k; discriminate E. }
  destruct (win_sources_ex c83_fs c83_process c83_cwd options_default _ _ K ltac:(discriminate) Hh V) as (env & l & S); [vm_compute; reflexivity|].
  destruct (win_applied _ _ _ _ _ _ c83_config c83_config S) as (D1 & D2 & D3 & D4); [vm_compute; reflexivity|vm_compute; reflexivity|].
  assert (P : os_easy_load windows c83_fs c83_process (at_place c83_cwd) options_default = Panic PUnwrapNone) by (vm_compute; reflexivity).
  exists env, l. split; [exact S|].
  destruct (proj1 (C83_load _ _ _ _ _ _ _ S) P) as (_ & Sh & Vr & U). auto.
Qed.
(** A linker there is only found to be without a meaning when it is asked for. *)
Definition c83_linker : fs :=
  mkFsys (fun x => str_eqb x (B "C:\config"))
         (fun _ => ReadTree (TomlTab [(B "target", TomlTab [(B "t", TomlTab [(B "linker", TomlStr (B "bin/ld"))])])])).
Definition c83_near : toml := TomlTab [(B "target", TomlTab [(B "t", TomlTab [(B "linker", TomlStr (B "bin/ld"))])])].
Definition c83_files : LoadSpec.files := Eval vm_compute in
  match de_config c83_near with Some c => [(B "C:\config", c)] | None => [] end.
Definition c83_loaded : result econfig := os_easy_load windows c83_linker c83_process (at_place c83_cwd) options_default.
Definition c83_asked (a : str) : option (result answer) :=
  match c83_loaded with
  | Ok ec => Some (fst (os_run_query windows (B ".exe") release c81_world ec (QLinker (ArgText a)) (state_init (ec_cx ec))))
  | _ => None
  end.
Example C83_ex_linker : exists env ec, win_sources c83_linker c83_process c83_cwd options_default env c83_files
  /\ c83_loaded = Ok ec /\ Forall (fun y => text_keys (c_target (snd y))) c83_files
  /\ c83_asked (B "t") = Some (Panic PUnwrapNone) /\ c83_asked (B "u") = Some (Ok (APath None))
  /\ exists v, win_tool env c83_files v /\ astray v /\ has_separator (val v).
Proof.
  exists (cx_env (into_context c83_process options_default (at_place c83_cwd))).
  assert (K : place_ok c83_cwd) by place. set (home := (Drive "C", @nil str)). assert (Kh : place_ok home) by place.
  assert (S : win_sources c83_linker c83_process c83_cwd options_default
    (cx_env (into_context c83_process options_default (at_place c83_cwd))) c83_files).
  { split; [exact K|]. split; [apply environment_ex; discriminate|]. exists (Some home), [B "C:\config"]. split; [|split].
    - apply win_home_variable; [reflexivity| |exact Kh].
      apply variable_set with (before := []) (n := B "CARGO_HOME") (after := []); [reflexivity|reflexivity|constructor].
    - replace [B "C:\config"] with (WinLoadSpec.near (fs_exists c83_linker) c83_cwd ++ found (fs_exists c83_linker) (fst home) (snd home))
        by (vm_compute; reflexivity).
      constructor. intros [_ (k & I & E)]. destruct k; discriminate E.
    - split; [reflexivity|]. constructor; [exists c83_near; split; vm_compute; reflexivity|constructor]. }
  assert (U : Forall (fun y => text_keys (c_target (snd y))) c83_files).
  { constructor; [|constructor]. intros k v I. apply utf8_valid_iff. repeat (destruct I as [[= <- _]|I]; [reflexivity|]). destruct I. }
  assert (P : c83_asked (B "t") = Some (Panic PUnwrapNone)) by (vm_compute; reflexivity).
  assert (P' : c83_asked (B "u") = Some (Ok (APath None))) by (vm_compute; reflexivity).
  unfold c83_asked in P. destruct c83_loaded as [ec| |] eqn:E; [|discriminate P..]. exists ec. split; [exact S|]. split; [reflexivity|].
  split; [exact U|]. split; [vm_compute; reflexivity|]. split; [exact P'|]. injection P as P.
  assert (Q : target_query (QLinker (ArgText (B "t"))) (ArgText (B "t"))) by (unfold target_query; tauto).
  destruct (C83_target_panic _ _ _ _ _ _ _ _ _ _ _ (mkTriple (B "t") None) _ _ S E U Q ltac:(vm_compute; reflexivity) P) as [[X _]|[_ X]]; [discriminate X|exact X].
Qed.
(** Programs and paths of any form, and a home below a root: no panic. *)
Lemma c78_below h : win_home c78_process options_default (Some h) -> snd h <> [].
Proof.
  intros H E. assert (X := home_spec c78_process options_default c78_cwd (Some h) (proj1 C78_ex_home) H).
  cbn [option_map] in X. destruct h as [v ns]. cbn [snd] in E. subst ns.
  match type of X with ?l = _ => assert (Y : l = Some (B "D:\h\c")) by (vm_compute; reflexivity) end.
  rewrite Y in X. apply (f_equal (option_map (fun s => last s "x"%char))) in X. cbn [option_map] in X.
  unfold at_place, dir in X. cbn [fst snd] in X.
  rewrite last_last in X. discriminate X.
Qed.
Example C83_ex_fine : exists env l, win_sources c78_fs c78_process c78_cwd options_default env l
  /\ same_shapes (map snd l) /\ variables_readable env l
  /\ (forall h, win_home c78_process options_default (Some h) -> snd h <> [])
  /\ (forall fm ws v, words_of env l BuildTarget = Some (fm, ws) -> In v ws -> ~ win_nameless (val v))
  /\ exists v, scalar_of env l BuildTargetDir = Some v.
Proof.
  destruct C78_ex_sources as (env & l & S & Sh & Vr). exists env, l. split; [exact S|]. split; [exact Sh|]. split; [exact Vr|].
  split; [exact c78_below|].
  destruct (win_applied _ _ _ _ _ _ c78_config c78_applied S) as (D1 & D2 & D3 & D4); [vm_compute; reflexivity|vm_compute; reflexivity|].
  split; [|eexists; rewrite <- D1; vm_compute; reflexivity].
  intros fm ws v H I. rewrite <- D2 in H. vm_compute in H. injection H as <- <-.
  destruct (plain_cases (val v)) as [[_ N]|[P _]]; [exact N|]. exfalso.
  cbn [In] in I. repeat (destruct I as [<-|I]; [vm_compute in P; discriminate P|]). destruct I.
Qed.
(** The configuration of C79 and C81: no query panics but for names like the above. *)
Example C83_ex_safe :
  (forall h, ~ win_home c79_process options_default (Some h)) /\ Forall (fun y => text_keys (c_target (snd y))) c79_files
  /\ overflow_checks release = false /\ debug_assertions release = false
  /\ option_map fst (c81_after release c81_world [] (QRunner (ArgText (B "a\..")))) = Some (Panic PUnwrapNone)
  /\ option_map fst (c81_after release c81_world [] (QBuildTargetForConfig [ArgText (B "a\..")])) = Some (Panic PUnwrapNone)
  /\ ~ win_nameless (B "x86_64-pc-windows-msvc").
Proof.
  split.
  { intros h H. assert (X := home_spec c79_process options_default c79_cwd (Some h) ltac:(apply C79_ex_sources) H). vm_compute in X. discriminate X. }
  split.
  { destruct C79_ex_meets as (ec & t & _ & _ & U & _). exact U. }
  split; [reflexivity|]. split; [reflexivity|]. split; [vm_compute; reflexivity|]. split; [vm_compute; reflexivity|].
  destruct (plain_cases (B "x86_64-pc-windows-msvc")) as [[_ N]|[P _]]; [exact N|vm_compute in P; discriminate P].
Qed.
