(** C68, for the settings of a target: the runner and the flags in a table [target.<triple>]. *)
From Verif.Model Require Import Base Str Path BMap Error Value De Serde EasyTypes EasySerde Triple Load Context Process Resolve Easy Construct.
From Verif.Spec Require Import StrSpec PathSpec ConfigSpec LoadSpec EnvSpec RootSpec TargetSpec QuerySpec TripleSpec SerdeSpec FinalSpec HandSpec ConstructSpec.
From Verif.Proof Require Import StrFacts BMapFacts Utf8Proof LoadProof SerdeProof FinalProof ConstructProof EnvTextProof EnvVarsProof.
From Verif.Spec Require Import FinalSpec.
From Verif.Props Require Import Serde Final Local Hand Construct.

Section Loaded.
Context (f : fs) (p : process_env) (cwd : str) (o : options) (env : env_map) (l : files) (c : econfig).
Context (pr : profile) (w : world) (a : target_arg) (t : triple) (s s' : state).

(** What a query needs: a reached state and an argument that names a target. *)
Definition asks : Prop :=
  received f p cwd o env l c /\ Forall (fun x => text_keys (c_target (snd x))) l
  /\ reached pr w c s /\ real_arg a /\ to_triple a = Ok t.

Lemma asked q x : asks -> target_query q a -> run_query pr w c q s = (Ok x, s') ->
  exists tables matches e, tables_of l tables
    /\ settings_of env l tables cwd matches (tt_triple t) e /\ x = part_of q e.
Proof.
  intros ([S H] & U & R & Ra & T) Q E. destruct (C53_tables _ _ _ _ _ _ _ S H) as [tables Tb].
  destruct (C53_target _ _ _ _ _ _ _ _ _ _ _ _ _ _ _ S H U R Q Ra T E tables Tb) as (m & e & _ & Se & X).
  now exists tables, m, e.
Qed.

Lemma filter_none {A} (g : A -> bool) m : (forall x, In x m -> g x = false) -> filter g m = [].
Proof.
  induction m as [|x m IH]; intros N; [reflexivity|]. cbn. rewrite (N x (or_introl eq_refl)). apply IH. intros y I. apply N. now right.
Qed.

Lemma own_runner docs tables x : received f p cwd o env l c -> documents f (map fst l) docs -> tables_of l tables ->
  written_program (values_at [B "target"; tt_triple t; B "runner"] docs) x ->
  exists ws, own tables (tt_triple t) runner_words = Some ws /\ map val (snd ws) = code_words x
    /\ join_programs (defined (map (program_in (TargetRunner (tt_triple t))) l)) = Some ws.
Proof.
  intros [S H] D (_ & _ & _ & R & _) W. unfold own. rewrite R.
  assert (J := joined_programs (defined (map (program_in (TargetRunner (tt_triple t))) l)) _ x
                 ltac:(eapply forall2_impl; [|exact (programs_written _ _ (TargetRunner (tt_triple t)) (docs_configs _ _ _ _ _ _ S _ D))];
                       intros y u (w0 & M & E); exists w0; split; [now apply M|exact E]) W).
  destruct (join_programs _) as [ws|]; [|discriminate J]. injection J as J. now exists ws.
Qed.

(** The runner in the documents, the variable of the target not being set. *)
Theorem C68_runner docs x path args r : asks -> documents f (map fst l) docs ->
  env_get (target_variable (tt_triple t) (B "RUNNER")) env = None ->
  written_program (values_at [B "target"; tt_triple t; B "runner"] docs) x -> esl_list (esl_from x) = path :: args ->
  run_query pr w c (QRunner a) s = (Ok (APa r), s') ->
  exists q u before after pth,
    docs = before ++ (q, u) :: after /\ at_path [B "target"; tt_triple t; B "runner"] u <> None
    /\ Forall (fun d => at_path [B "target"; tt_triple t; B "runner"] (snd d) = None) before
    /\ program_at cwd (mkValue path (Some (DefPath q))) pth
    /\ r = Some (epa_build pth [Args args]).
Proof.
  intros A D V W C Q.
  destruct (asked (QRunner a) _ A (or_intror (or_intror (or_introl eq_refl))) Q) as (tables & m & e & Tb & (_ & Se & _) & X).
  cbn in X. injection X as ->.
  destruct (own_runner docs tables x (proj1 A) D Tb W) as (ws & O & J & G).
  assert (Tr : target_runner env tables m (tt_triple t) = Some ws).
  { unfold target_runner, var_words. rewrite V. cbn. rewrite O. reflexivity. }
  rewrite Tr in Se. destruct (et_runner e) as [[e1 ea]|]; [|contradiction]. cbn in Se.
  destruct Se as (v & more & Ew & P & E). cbn in P, E. subst ea.
  assert (C' : code_words x = path :: args) by (destruct x; exact C). rewrite C' in J. rewrite Ew in J. cbn in J. injection J as Jv Ja.
  destruct (defined (map (program_in (TargetRunner (tt_triple t))) l)) as [|y rest] eqn:Y; [discriminate G|].
  destruct A as ([S H] & _).
  destruct (first_written _ _ _ _ _ _ S docs D _ y rest Y) as (q & u & before & after & Ed & Au & Fb & Ny & Fy).
  exists q, u, before, after, e1. split; [exact Ed|]. split; [exact Au|]. split; [exact Fb|]. split; [|now rewrite <- Ja].
  assert (I : In v (snd y)).
  { destruct y as [fm [|v' vs]]; [now destruct Ny|]. cbn in G. left. destruct ws as [fw wl]; cbn in Ew; subst wl. destruct fm; now injection G. }
  rewrite Forall_forall in Fy. apply Fy in I. destruct v as [vv vd]. cbn in *. now subst.
Qed.
(** In the variable: relative to the current directory. *)
Theorem C68_runner_variable v r : asks ->
  env_get (target_variable (tt_triple t) (B "RUNNER")) env = Some v ->
  run_query pr w c (QRunner a) s = (Ok (APa r), s') ->
  exists path args pth, esl_list (esl_from (FromText v)) = path :: args
    /\ program_at cwd (mkValue path (Some (DefEnv (target_variable (tt_triple t) (B "RUNNER"))))) pth
    /\ r = Some (epa_build pth [Args args]).
Proof.
  intros A V Q.
  destruct (asked (QRunner a) _ A (or_intror (or_intror (or_introl eq_refl))) Q) as (tables & m & e & Tb & (_ & Se & _) & X).
  cbn in X. injection X as ->.
  unfold target_runner, var_words in Se. rewrite V in Se.
  destruct (et_runner e) as [[e1 ea]|]; [|contradiction]. cbn in Se.
  destruct Se as (v0 & more & Ew & P & E). cbn in Ew, P, E. subst ea.
  cbn. destruct (split_space_separated v) as [|path args]; [discriminate Ew|]. cbn in Ew. injection Ew as <- <-.
  exists path, args, e1. split; [reflexivity|]. split; [exact P|].
  rewrite map_map. cbn. now rewrite map_id.
Qed.

Lemma own_flags docs x k : received f p cwd o env l c -> documents f (map fst l) docs ->
  (forall u w, list_stands_for k u w -> list_value u w) ->
  written (values_at (list_place k) docs) x ->
  exists ws, join_lists (defined (map (list_in k) l)) = Some ws /\ map val (snd ws) = code_words x.
Proof.
  intros [S H] D K W.
  assert (J := joined_lists (defined (map (list_in k) l)) _ x
                 ltac:(eapply forall2_impl; [|exact (lists_written _ _ k (docs_configs _ _ _ _ _ _ S _ D))];
                       intros y u (w0 & M & E); exists w0; split; [now apply K|exact E]) W).
  destruct (join_lists _) as [ws|]; [|discriminate J]. injection J as J. now exists ws.
Qed.
Lemma flags_code x : eflags_from x = mkEflags (code_words x).
Proof. now destruct x. Qed.

(** Flags of the table, none of the variables being set: for rustdoc they are all there is, for
    rustc those of [cfg(..)] tables follow. *)
Theorem C68_target_rustdocflags docs x r : asks -> documents f (map fst l) docs ->
  env_get (B "CARGO_ENCODED_RUSTDOCFLAGS") env = None -> env_get (B "RUSTDOCFLAGS") env = None ->
  env_get (target_variable (tt_triple t) (B "RUSTDOCFLAGS")) env = None ->
  written (values_at [B "target"; tt_triple t; B "rustdocflags"] docs) x ->
  run_query pr w c (QRustdocflags a) s = (Ok (AFlags r), s') -> r = Some (eflags_from x).
Proof.
  intros A D V1 V2 V3 W Q.
  change (B "CARGO_ENCODED_RUSTDOCFLAGS") with (B "CARGO_ENCODED_" ++ B "RUSTDOCFLAGS") in V1.
  destruct (asked (QRustdocflags a) _ A (or_intror (or_intror (or_intror (or_intror eq_refl)))) Q) as (tables & m & e & Tb & (_ & _ & _ & Se) & X).
  cbn in X. injection X as ->.
  destruct (own_flags docs x (TargetRustdocflags (tt_triple t)) (proj1 A) D (fun u w K => K) W) as (ws & G & J).
  destruct Tb as (_ & _ & _ & _ & _ & Tb). rewrite Se, flags_code, <- J.
  unfold target_rustdocflags, overrides_target, set, own, var_words. rewrite Tb, G.
  rewrite V1, V2, V3. cbn. destruct ws as [fm ws]. cbn. now rewrite app_nil_r.
Qed.
Theorem C68_target_rustflags docs x r : asks -> documents f (map fst l) docs ->
  env_get (B "CARGO_ENCODED_RUSTFLAGS") env = None -> env_get (B "RUSTFLAGS") env = None ->
  env_get (target_variable (tt_triple t) (B "RUSTFLAGS")) env = None ->
  written (values_at [B "target"; tt_triple t; B "rustflags"] docs) x ->
  run_query pr w c (QRustflags a) s = (Ok (AFlags r), s') ->
  exists more, r = Some (mkEflags (ef_flags (eflags_from x) ++ more))
    /\ (Forall (fun y => forall k, is_cfg k = true -> has_entry (TargetEntry k) (snd y) = false) l -> more = []).
Proof.
  intros A D V1 V2 V3 W Q.
  change (B "CARGO_ENCODED_RUSTFLAGS") with (B "CARGO_ENCODED_" ++ B "RUSTFLAGS") in V1.
  destruct (asked (QRustflags a) _ A (or_intror (or_intror (or_intror (or_introl eq_refl)))) Q) as (tables & m & e & Tb & (_ & _ & Se & _) & X).
  cbn in X. injection X as ->.
  destruct (own_flags docs x (TargetRustflags (tt_triple t)) (proj1 A) D (fun u w K => K) W) as (ws & G & J).
  destruct Tb as (Or & En & _ & _ & Tb & _). rewrite Se, flags_code, <- J.
  unfold target_rustflags, overrides_target, set, own, var_words. rewrite Tb, G.
  rewrite V1, V2, V3. cbn [is_some orb option_map app map otherwise]. destruct ws as [fm ws].
  unfold gathered. cbn [defined otherwise option_map].
  unfold eflags_words. cbn [snd map]. eexists. split; [rewrite map_app; reflexivity|].
  intros N. replace (matching tables m) with (@nil target_config); [reflexivity|].
  symmetry. unfold matching. rewrite filter_none; [reflexivity|].
  intros [k v] I. cbn [fst]. destruct (is_cfg k) eqn:C; [|reflexivity].
  exfalso. assert (K := En k). rewrite (sorted_in_bget k v tables (proj1 (in_order_sorted _) Or) I) in K. symmetry in K.
  apply existsb_exists in K as (y & Iy & Hy). rewrite Forall_forall in N. now rewrite (N y Iy k C) in Hy.
Qed.
End Loaded.
Print Assumptions C68_runner.
Print Assumptions C68_runner_variable.
Print Assumptions C68_target_rustdocflags.
Print Assumptions C68_target_rustflags.

(** ** Examples: two files, the nearer one in the current directory, and two targets *)
Definition c68_t_near : toml := c53_tab [
  ("target", c53_tab [("t-1", c53_tab [("runner", c53_arr ["./run"; "-x"]%string); ("rustflags", c53_arr ["-C a"; "-n"]%string);
                                       ("rustdocflags", TomlStr (B " --cfg  docsrs"))])])]%string.
Definition c68_t_far : toml := c53_tab [
  ("build", c53_tab [("rustflags", c53_arr ["-b"]%string)]);
  ("target", c53_tab [("t-1", c53_tab [("runner", c53_arr ["-y z"]%string); ("rustflags", c53_arr ["-f"]%string)]);
                      ("cfg(unix)", c53_tab [("runner", TomlStr (B "qemu")); ("rustflags", c53_arr ["-u"]%string)])])]%string.
Definition c68_t_docs : list (str * toml) := [(B "/p/a/.cargo/config.toml", c68_t_near); (B "/h/c/config", c68_t_far)].
Definition c68_t_fs : fs :=
  mkFsys (fun p => existsb (str_eqb p) c68_paths)
       (fun p => if str_eqb p (B "/p/a/.cargo/config.toml") then ReadTree c68_t_near
                 else if str_eqb p (B "/h/c/config") then ReadTree c68_t_far else ReadErr KNotFound).
Definition c68_t_process : process_env :=
  mkProcess [(B "CARGO_HOME", B "/h/c"); (B "CARGO_TARGET_T_2_RUNNER", B " ../emu -q ")] None.
Definition c68_t_env : env_map := env_filter (p_vars c68_t_process).
Definition c68_t_l : files := map (c61_read c68_t_fs) c68_paths.
Definition c68_t_load := easy_load_with_options c68_t_fs c68_t_process (B "/p/a") options_default.
Definition c68_t_triple (n : str) : triple := mkTriple n None.
Example C68_ex_asks : exists c, c68_t_load = Ok c /\ forall n, In n [B "t-1"; B "t-2"] ->
  asks c68_t_fs c68_t_process (B "/p/a") options_default c68_t_env c68_t_l c release c53_world
    (ArgText n) (c68_t_triple n) (state_init (ec_cx c)).
Proof.
  destruct c68_t_load as [c| |] eqn:E; [|vm_compute in E; discriminate..].
  exists c. split; [reflexivity|]. intros n N. split; [split|].
  - split; [intros m v; apply env_filter_get|]. exists (Some (B "/h/c")), c68_paths.
    split; [apply home_absolute; [reflexivity|reflexivity|]; now exists (B "h/c")|].
    split; [apply visited_walk; vm_compute; reflexivity|]. split; [reflexivity|].
    repeat (constructor; [eexists; split; [reflexivity|vm_compute; reflexivity]|]). constructor.
  - exact E.
  - split; [|split; [|split]].
    + unfold c68_t_l, c68_paths. cbn [map]. constructor; [|constructor; [|constructor]]; intros k v K; apply utf8_valid_iff;
        vm_compute in K; repeat (destruct K as [K|K]; [injection K as <- _; reflexivity|]); destruct K.
    + exists []. now split.
    + exact I.
    + destruct N as [<-|[<-|[]]]; vm_compute; reflexivity.
Qed.
Example C68_ex_target_documents : documents c68_t_fs (map fst c68_t_l) c68_t_docs.
Proof.
  split; [reflexivity|].
  repeat (constructor; [split; [reflexivity|apply laid_out_check; vm_compute; reflexivity]|]). constructor.
Qed.
Example C68_ex_target_written :
  written_program (values_at [B "target"; B "t-1"; B "runner"] c68_t_docs) (FromArray [B "./run"; B "-x"; B "-y z"])
  /\ written (values_at [B "target"; B "t-1"; B "rustflags"] c68_t_docs) (FromArray [B "-f"; B "-C a"; B "-n"])
  /\ written (values_at [B "target"; B "t-1"; B "rustdocflags"] c68_t_docs) (FromText (B " --cfg  docsrs"))
  /\ target_variable (B "t-1") (B "RUNNER") = B "CARGO_TARGET_T_1_RUNNER"
  /\ env_get (target_variable (B "t-1") (B "RUNNER")) c68_t_env = None
  /\ env_get (target_variable (B "t-2") (B "RUNNER")) c68_t_env = Some (B " ../emu -q ").
Proof.
  split; [apply (program_arrays [[B "./run"; B "-x"]; [B "-y z"]]); discriminate|].
  split; [apply (written_arrays [[B "-C a"; B "-n"]; [B "-f"]]); discriminate|].
  split; [apply (written_text (B " --cfg  docsrs") [])|].
  repeat split.
Qed.
(** [cfg(unix)] holds: its flags follow; its runner is not used. *)
Example C68_ex_target : match c68_t_load with
  | Ok c =>
      let ask q := fst (run_query release c53_world c q (state_init (ec_cx c))) in
      ask (QRunner (ArgText (B "t-1"))) = Ok (APa (Some (epa_build (B "/p/a/./run") [Arg (B "-x"); Args [B "-y z"]])))
      /\ ask (QRustflags (ArgText (B "t-1"))) = Ok (AFlags (Some (mkEflags ([B "-f"; B "-C a"; B "-n"] ++ [B "-u"]))))
      /\ ask (QRustdocflags (ArgText (B "t-1"))) = Ok (AFlags (Some (eflags_from (FromText (B " --cfg  docsrs")))))
      /\ ask (QRunner (ArgText (B "t-2"))) = Ok (APa (Some (epa_build (B "/p/a/../emu") [Args [B "-q"]])))
  | _ => False
  end.
Proof. vm_compute. repeat split. Qed.
