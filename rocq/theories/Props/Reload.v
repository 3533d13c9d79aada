(** C55: loading what was written of a resolved configuration gives the same configuration. *)
From Coq Require Import String.
From Verif.Model Require Import Base Str Path BMap Error Value De Serde Triple EasyTypes Context Load Walk Resolve Process Easy EasySerde.
From Verif.Spec Require Import StrSpec Utf8Spec PathSpec WalkSpec ConfigSpec EnvSpec LoadSpec TripleSpec RootSpec SerdeSpec TargetSpec
  FinalSpec EasySerdeSpec ReloadSpec.
From Verif.Proof Require Import BMapFacts Utf8Proof LossyProof CfgEvalProof PathFacts WalkProof LoadProof RootProof TargetEnvProof FinalProof ReloadProof.
From Verif.Spec Require Import PathSpec TargetSpec FinalSpec.
From Verif.Props Require Import EasySerde.

(** No path in a loaded configuration depends on where it is read, if it was loaded from an
    absolute directory, with an absolute CARGO_HOME. *)
Theorem C55_settled f p cwd o c :
  (forall e, o_env o = Some e -> one_value_each e) ->
  absolute cwd -> (forall h, home_of p o cwd (Some h) -> absolute h) ->
  easy_load_with_options f p cwd o = Ok c -> all_settled c.
Proof. exact (load_settled f p cwd o c). Qed.
Print Assumptions C55_settled.
Theorem C55_target_settled f p cwd o c pr w s t e :
  (forall e, o_env o = Some e -> one_value_each e) ->
  absolute cwd -> (forall h, home_of p o cwd (Some h) -> absolute h) ->
  (forall q c0, contents f q c0 -> text_keys (c_target c0)) ->
  easy_load_with_options f p cwd o = Ok c -> reached pr w c s -> In (t, e) (s_target s) -> target_settled c e.
Proof. exact (load_target_settled f p cwd o c pr w s t e). Qed.
Print Assumptions C55_target_settled.

(** What was written can be loaded, from wherever it is, and gives the same settings. *)
Theorem C55_reload f p cwd o q t c targets :
  well_formed c -> fits c -> all_settled c -> all_text c -> told_apart targets ->
  eser_config c targets = Some t -> only_file f p cwd o q t ->
  exists c', easy_load_with_options f p cwd o = Ok c' /\ same_shown c c'.
Proof.
  intros W F S T N E O. destruct (reload f p cwd o q t c targets W F S T N E O) as (_ & c' & _ & _ & _ & _ & H).
  now exists c'.
Qed.
Print Assumptions C55_reload.
(** Written again, it is the same. *)
Theorem C55_rewritten f p cwd o q t c targets c' :
  well_formed c -> fits c -> all_settled c -> all_text c -> told_apart targets ->
  eser_config c targets = Some t -> only_file f p cwd o q t -> easy_load_with_options f p cwd o = Ok c' ->
  eser_config c' targets = Some t.
Proof.
  intros W F S T N E O H. destruct (C55_reload f p cwd o q t c targets W F S T N E O) as (x & Hx & Y).
  assert (x = c') as -> by congruence. rewrite <- E. symmetry. apply C54_only_settings; [exact W| |exact Y].
  exact (load_well_formed f p cwd o c' H).
Qed.
Print Assumptions C55_rewritten.

(** The targets that were asked about have the same settings, ... *)
Theorem C55_targets f p cwd o q t c targets c' pr w s k a u x s' e :
  well_formed c -> fits c -> all_settled c -> all_text c -> told_apart targets -> names_plain targets ->
  eser_config c targets = Some t -> only_file f p cwd o q t -> easy_load_with_options f p cwd o = Ok c' ->
  reached pr w c' s -> target_query k a -> real_arg a -> to_triple a = Ok u -> run_query pr w c' k s = (Ok x, s') ->
  In (tt_triple u, e) targets -> target_settled c e -> runner_text e ->
  x = part_of k e.
Proof.
  intros W F S T N P E O H Rs Q Ra Hu Hq I Se Rt.
  destruct (reload f p cwd o q t c targets W F S T N E O) as (c0 & _ & _ & Y & Ym & Sr & _).
  assert (Tb := tables_loaded f p cwd o [] _ c' Sr H).
  assert (U : Forall (fun x => text_keys (c_target (snd x))) [(q, c0)]).
  { constructor; [|constructor]. exact (again_text c0 targets Ym P). }
  destruct (target_final f p cwd o [] _ c' pr w k a u s x s' Sr H U Rs Q Ra Hu Hq _ Tb) as (m & e' & _ & X & ->).
  now rewrite (again_settings c c0 targets q cwd _ m _ T Y Ym Tb P e e' I Se Rt X).
Qed.
Print Assumptions C55_targets.
(** ... and of the others only the general flags are known. *)
Theorem C55_other_targets f p cwd o q t c targets c' pr w s k a u x s' :
  well_formed c -> fits c -> all_settled c -> all_text c -> told_apart targets -> names_plain targets ->
  eser_config c targets = Some t -> only_file f p cwd o q t -> easy_load_with_options f p cwd o = Ok c' ->
  reached pr w c' s -> target_query k a -> real_arg a -> to_triple a = Ok u -> run_query pr w c' k s = (Ok x, s') ->
  (forall e, ~ In (tt_triple u, e) targets) ->
  x = part_of k (general_settings c).
Proof.
  intros W F S T N P E O H Rs Q Ra Hu Hq I.
  destruct (reload f p cwd o q t c targets W F S T N E O) as (c0 & _ & _ & Y & Ym & Sr & _).
  assert (Tb := tables_loaded f p cwd o [] _ c' Sr H).
  assert (U : Forall (fun x => text_keys (c_target (snd x))) [(q, c0)]).
  { constructor; [|constructor]. exact (again_text c0 targets Ym P). }
  destruct (target_final f p cwd o [] _ c' pr w k a u s x s' Sr H U Rs Q Ra Hu Hq _ Tb) as (m & e' & _ & X & ->).
  now rewrite (again_unknown c c0 targets q cwd _ m _ T Y Ym Tb P e' I X).
Qed.
Print Assumptions C55_other_targets.

(** ** An example: the configuration of C54, written after asking about [t2], and loaded elsewhere *)
Definition c55_options : options := mkOptions (Some []) None None (Some None) None.
Definition c55_fs (t : toml) : fs :=
  mkFsys (fun p => str_eqb p (B "/r/s/.cargo/config.toml"))
         (fun p => if str_eqb p (B "/r/s/.cargo/config.toml") then ReadTree t else ReadErr KNotFound).
Definition c55_again (t : toml) : result econfig :=
  easy_load_with_options (c55_fs t) (mkProcess [] None) (B "/r/s/a") c55_options.
Lemma c55_only t : only_file (c55_fs t) (mkProcess [] None) (B "/r/s/a") c55_options (B "/r/s/.cargo/config.toml") t.
Proof.
  split; [|split; [|split]].
  - split; [|reflexivity]. constructor.
  - exists None. split; [now apply home_option|]. apply visited_walk. vm_compute. reflexivity.
  - reflexivity.
  - exists (B "/r/s"). apply (root_file _ _ (B "/r/s/.cargo")); apply parent_some_iff; vm_compute; reflexivity.
Qed.
Example C55_ex : exists c s t c',
  c54_load (B "/p") = Ok c /\ reached release c54_world c s /\ well_formed c /\ fits c /\ all_settled c /\ all_text c
  /\ told_apart (s_target s) /\ names_plain (s_target s) /\ eser_config c (s_target s) = Some t /\ c55_again t = Ok c'
  /\ s_target s = [(B "t2", mkEtarget None (Some (mkEpa (B "/p/./run") [B "-x"])) (Some (mkEflags [B "-a"; B "-b"])) None)]
  /\ easy_look BuildRustc c' = Some (B "/p/bin/rc") /\ easy_words BuildTarget c' = Some [B "/p/x/my.json"]
  /\ bget (B "W") (ec_env c') = Some (mkEenv (B "w") true false)
  /\ (exists s', run_query release c54_world c' (QRunner (ArgText (B "t2"))) (state_init (ec_cx c'))
        = (Ok (APa (Some (mkEpa (B "/p/./run") [B "-x"]))), s'))
  /\ (exists s', run_query release c54_world c' (QLinker (ArgText (B "t1"))) (state_init (ec_cx c'))
        = (Ok (APath None), s')).
Proof.
  destruct (c54_load (B "/p")) as [c| |] eqn:E; [|vm_compute in E; discriminate..].
  set (qs := [QRunner (ArgText (B "t2"))]).
  set (s := run_queries release c54_world c qs (state_init (ec_cx c))).
  assert (R : reached release c54_world c s) by (exists qs; split; [repeat constructor|reflexivity]).
  assert (Ov : forall e, o_env options_default = Some e -> one_value_each e) by discriminate.
  destruct (C54_loaded _ _ _ options_default c Ov E) as (W & F).
  assert (S : all_settled c).
  { apply (C55_settled _ _ _ _ _ Ov) in E; [exact E|now exists (B "p")|].
    intros h H. inversion H; discriminate. }
  pose proof C54_ex as X. unfold c54_text in X. rewrite E in X. 
  destruct (eser_config c (s_target s)) as [t|] eqn:Et; [|unfold s, qs in Et; congruence].
  destruct (c55_again t) as [c'| |] eqn:Ec.
  2,3: exfalso; unfold s, qs in Et; rewrite X in Et; injection Et as <-; vm_compute in Ec; discriminate.
  exists c, s, t, c'. 
  assert (Es : s_target s = [(B "t2", mkEtarget None (Some (mkEpa (B "/p/./run") [B "-x"])) (Some (mkEflags [B "-a"; B "-b"])) None)]).
  { vm_compute in E. injection E as <-. vm_compute. reflexivity. }
  assert (Np : names_plain (s_target s)).
  { rewrite Es. intros n e [[= <- _]|[]]. split; [apply utf8_valid_iff; reflexivity|reflexivity]. }
  split; [reflexivity|]. split; [exact R|]. split; [exact W|]. split; [exact F|]. split; [exact S|].
  split.
  { clear -E. vm_compute in E. injection E as <-. split; [|split]; cbn.
    - intros ts u [= <-] [<-|[]]. apply utf8_valid_iff. reflexivity.
    - discriminate.
    - intros n e. repeat (destruct (str_eqb n _); [intros [= <-]; apply utf8_valid_iff; reflexivity|]). discriminate. }
  split; [apply (C54_names release c54_world c s R); intros n e I; apply (Np n e I)|].
  split; [exact Np|]. split; [exact Et|]. split; [exact Ec|]. split; [exact Es|].
  unfold s, qs in Et. rewrite X in Et. injection Et as <-. clear -Ec. vm_compute in Ec. injection Ec as <-.
  repeat split; try (eexists; vm_compute; reflexivity).
Qed.

(** ** Limits *)
Definition c55_load (home : option str) (file : str) (t : toml) : result econfig :=
  easy_load_with_options
    (mkFsys (str_eqb file) (fun p => if str_eqb p file then ReadTree t else ReadErr KNotFound))
    (mkProcess [] None) (B "/p") (mkOptions (Some []) None None (Some home) None).
(** The settings of a target with a specification file are written under the path but looked
    for under the triple. *)
Definition c55_spec : toml :=
  c54_tab [("target", c54_tab [("my", c54_tab [("linker", TomlStr (B "ld"))])])]%string.
Theorem C55_spec_targets_refuted : exists c a e s t c' e' s',
  c55_load None (B "/p/.cargo/config") c55_spec = Ok c
  /\ run_query release c54_world c (QTarget a) (state_init (ec_cx c)) = (Ok (ATarget e), s)
  /\ eser_config c (s_target s) = Some t /\ c55_again t = Ok c'
  /\ run_query release c54_world c' (QTarget a) (state_init (ec_cx c')) = (Ok (ATarget e'), s') /\ e <> e'.
Proof.
  destruct (c55_load None (B "/p/.cargo/config") c55_spec) as [c| |] eqn:E; [|vm_compute in E; discriminate..].
  exists c, (ArgText (B "/x/my.json")). vm_compute in E. injection E as <-.
  do 6 eexists. split; [reflexivity|]. split; [vm_compute; reflexivity|]. split; [vm_compute; reflexivity|].
  split; [vm_compute; reflexivity|]. split; [vm_compute; reflexivity|]. discriminate.
Qed.
Print Assumptions C55_spec_targets_refuted.
(** Such a path may look like a [cfg(..)] key: after that no target can be asked about. *)
Theorem C55_cfg_names_refuted : exists c a x s t c',
  c55_load None (B "/p/.cargo/config") c55_spec = Ok c
  /\ run_query release c54_world c (QTarget a) (state_init (ec_cx c)) = (Ok x, s)
  /\ eser_config c (s_target s) = Some t /\ c55_again t = Ok c'
  /\ forall pr w st q b u y, reached pr w c' st -> target_query q b -> real_arg b -> to_triple b = Ok u ->
     fst (run_query pr w c' q st) <> Ok y.
Proof.
  destruct (c55_load None (B "/p/.cargo/config") c55_spec) as [c| |] eqn:E; [|vm_compute in E; discriminate..].
  exists c, (ArgText (B "cfg(a/b)")). vm_compute in E. injection E as <-.
  set (t := c54_tab [("target", c54_tab [("cfg(a/b)", c54_tab [])])]%string).
  destruct (c55_again t) as [c'| |] eqn:E; [|vm_compute in E; discriminate..].
  do 2 eexists. exists t, c'. split; [reflexivity|]. split; [vm_compute; reflexivity|]. split; [vm_compute; reflexivity|].
  split; [exact E|]. intros pr w st q b u y R Q Rb Hu.
  unfold c55_again, easy_load_with_options in E.
  destruct (load_with_options _ _ _) as [conf| |] eqn:L; try discriminate E.
  cbn [bind] in E. vm_compute in L. injection L as <-.
  refine (proj1 (bad_key_fails _ _ c' pr w q b u st (B "cfg(a/b)") target_default E _ _ eq_refl _ R Q Rb Hu) y).
  - intros k v [[= <- _]|[]]. reflexivity.
  - now left.
  - intros x roots X A. assert (V : utf8_valid (B "cfg(a/b)") = true) by reflexivity.
    assert (K := accepted_parse_ok release _ V eq_refl (ex_intro _ x (ex_intro _ roots (conj X A)))). discriminate K.
Qed.
Print Assumptions C55_cfg_names_refuted.
(** From a relative CARGO_HOME paths are relative. *)
Definition c55_rustc : toml := c54_tab [("build", c54_tab [("rustc", TomlStr (B "bin/rc"))])]%string.
Theorem C55_relative_home_refuted : exists c t c',
  c55_load (Some (B "h/c")) (B "h/c/config") c55_rustc = Ok c
  /\ eser_config c [] = Some t /\ c55_again t = Ok c'
  /\ easy_look BuildRustc c = Some (B "h/bin/rc") /\ easy_look BuildRustc c' = Some (B "/r/s/h/bin/rc").
Proof.
  destruct (c55_load (Some (B "h/c")) (B "h/c/config") c55_rustc) as [c| |] eqn:E; [|vm_compute in E; discriminate..].
  exists c. vm_compute in E. injection E as <-. do 2 eexists. split; [reflexivity|].
  split; [vm_compute; reflexivity|]. split; [vm_compute; reflexivity|]. split; reflexivity.
Qed.
Print Assumptions C55_relative_home_refuted.
