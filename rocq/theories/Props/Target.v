(** Settings of targets: C18 (part 2), C20 (part 2), C21, C22, C23, C46, C50. *)
From Verif.Model Require Import Base Str Path BMap Error Value De CfgExpr Triple EasyTypes Context
  ApplyEnv Walk Load Process Resolve Easy.
From Verif.Spec Require Import StrSpec ConfigSpec LoadSpec EnvSpec Utf8Spec CfgSpec TripleSpec RootSpec TargetSpec.
From Verif.Proof Require Import Utf8Proof CfgGrammarProof CfgProof CfgEvalProof RootProof TargetProof TargetEnvProof.

Lemma text_keys_valid {V} (m : bmap V) : text_keys m -> keys_utf8 m.
Proof. intros H k v I. apply utf8_valid_iff. eapply H; eauto. Qed.

(** ** C21 *)
Theorem C21_linker conf cx c pr w a t s o s' :
  one_value_each (cx_env cx) -> from_unresolved conf cx = Ok c -> text_keys (c_target conf) ->
  reached pr w c s -> real_arg a -> to_triple a = Ok t ->
  run_query pr w c (QLinker a) s = (Ok (APath o), s') ->
  exists matches, decided_by w s' (cli_target t) (c_target conf) matches
  /\ both (program_at (cx_current_dir cx))
       (target_linker (cx_env cx) (c_target conf) matches (tt_triple t)) o.
Proof.
  intros N Hc U Rs Ra Ht H.
  destruct (target_settings conf cx c pr w (QLinker a) a t s _ s' N Hc (text_keys_valid _ U) Rs
              (or_intror (or_introl eq_refl)) Ra Ht H) as (m & e & [= ->] & D & _ & _ & K & _). eauto.
Qed.
Print Assumptions C21_linker.
Theorem C21_runner conf cx c pr w a t s o s' :
  one_value_each (cx_env cx) -> from_unresolved conf cx = Ok c -> text_keys (c_target conf) ->
  reached pr w c s -> real_arg a -> to_triple a = Ok t ->
  run_query pr w c (QRunner a) s = (Ok (APa o), s') ->
  exists matches, decided_by w s' (cli_target t) (c_target conf) matches
  /\ both (command_at (cx_current_dir cx))
       (target_runner (cx_env cx) (c_target conf) matches (tt_triple t)) (option_map program_of o).
Proof.
  intros N Hc U Rs Ra Ht H.
  destruct (target_settings conf cx c pr w (QRunner a) a t s _ s' N Hc (text_keys_valid _ U) Rs
              (or_intror (or_intror (or_introl eq_refl))) Ra Ht H) as (m & e & [= ->] & D & _ & _ & _ & K & _). eauto.
Qed.
Print Assumptions C21_runner.

(** Which tables match is determined by what rustc printed. *)
Theorem C21_truth_unique out k b b' x roots :
  utf8 k -> unwrapped k x -> written roots x -> Forall narrow roots ->
  true_of out k b -> true_of out k b' -> b = b'.
Proof. exact (truth_unique out k b b' x roots). Qed.
Print Assumptions C21_truth_unique.

(** When a query about a target cannot fail ... *)
Theorem C21_success conf cx c pr w q a t s e :
  from_unresolved conf cx = Ok c -> text_keys (c_target conf) ->
  reached pr w c s -> target_query q a -> real_arg a -> to_triple a = Ok t ->
  overflow_checks pr = false ->
  is_cfg (tt_triple t) = false -> target_vars_readable (cx_env cx) (tt_triple t) ->
  (forall k v, In (k, v) (c_target conf) -> is_cfg k = true -> valid_cfg k) ->
  (has_cfg (c_target conf) -> cfg_available pr w c s (cli_target t)) ->
  fst (run_query pr w c q s) <> Err e.
Proof.
  intros Hc U Rs Q Ra Ht O C V K Av.
  apply (query_succeeds conf cx c pr w q a t s Hc (text_keys_valid _ U) Rs Q Ra Ht C V).
  - intros k v I Ck. apply accepted_parse_ok; [exact (text_keys_valid _ U k v I)|assumption|exact (K k v I Ck)].
  - intros H. destruct (from_unresolved_ok _ _ _ Hc) as (de & _ & _ & _ & _ & _ & <-).
    now apply (target_cfg_available pr), Av.
Qed.
Print Assumptions C21_success.
(** ... and what is true when it has succeeded. *)
Theorem C21_failure conf cx c pr w q a t s x s' :
  one_value_each (cx_env cx) -> from_unresolved conf cx = Ok c -> text_keys (c_target conf) ->
  reached pr w c s -> target_query q a -> real_arg a -> to_triple a = Ok t ->
  run_query pr w c q s = (Ok x, s') ->
  is_cfg (tt_triple t) = false /\ target_vars_readable (cx_env cx) (tt_triple t)
  /\ (forall k v, In (k, v) (c_target conf) -> is_cfg k = true -> valid_cfg k)
  /\ (has_cfg (c_target conf) -> exists out, printed w s' (cli_target t) out).
Proof.
  intros N Hc U Rs Q Ra Ht H.
  destruct (target_settings conf cx c pr w q a t s _ s' N Hc (text_keys_valid _ U) Rs Q Ra Ht H)
    as (m & e & _ & (out & P & T) & C & V & _).
  split; [assumption|]. split; [assumption|]. split; [|eauto].
  intros k v I K. destruct (T k v I K) as (y & roots & Y1 & Y2 & _). now exists y, roots.
Qed.
Print Assumptions C21_failure.

(** ** C22 *)
Theorem C22_rustflags conf cx c pr w a t s o s' :
  one_value_each (cx_env cx) -> from_unresolved conf cx = Ok c -> text_keys (c_target conf) ->
  reached pr w c s -> real_arg a -> to_triple a = Ok t ->
  run_query pr w c (QRustflags a) s = (Ok (AFlags o), s') ->
  exists matches, decided_by w s' (cli_target t) (c_target conf) matches
  /\ o = option_map eflags_words
           (target_rustflags (cx_env cx) (c_target conf) matches (tt_triple t)
              (overrides_target (cx_env cx) (B "RUSTFLAGS"))
              (build_flags (cx_env cx) (B "RUSTFLAGS") (look_list BuildRustflags conf))).
Proof.
  intros N Hc U Rs Ra Ht H.
  destruct (target_settings conf cx c pr w (QRustflags a) a t s _ s' N Hc (text_keys_valid _ U) Rs
              (or_intror (or_intror (or_intror (or_introl eq_refl)))) Ra Ht H)
    as (m & e & [= ->] & D & _ & _ & _ & _ & K & _). eauto.
Qed.
Print Assumptions C22_rustflags.
Theorem C22_rustdocflags conf cx c pr w a t s o s' :
  one_value_each (cx_env cx) -> from_unresolved conf cx = Ok c -> text_keys (c_target conf) ->
  reached pr w c s -> real_arg a -> to_triple a = Ok t ->
  run_query pr w c (QRustdocflags a) s = (Ok (AFlags o), s') ->
  o = option_map eflags_words
        (target_rustdocflags (cx_env cx) (c_target conf) (tt_triple t)
           (overrides_target (cx_env cx) (B "RUSTDOCFLAGS"))
           (build_flags (cx_env cx) (B "RUSTDOCFLAGS") (look_list BuildRustdocflags conf))).
Proof.
  intros N Hc U Rs Ra Ht H.
  destruct (target_settings conf cx c pr w (QRustdocflags a) a t s _ s' N Hc (text_keys_valid _ U) Rs
              (or_intror (or_intror (or_intror (or_intror eq_refl)))) Ra Ht H)
    as (m & e & [= ->] & D & _ & _ & _ & _ & _ & K). exact K.
Qed.
Print Assumptions C22_rustdocflags.

(** [target()] answers with all four settings at once. *)
Theorem C22_target conf cx c pr w a t s e s' :
  one_value_each (cx_env cx) -> from_unresolved conf cx = Ok c -> text_keys (c_target conf) ->
  reached pr w c s -> real_arg a -> to_triple a = Ok t ->
  run_query pr w c (QTarget a) s = (Ok (ATarget e), s') ->
  exists matches, decided_by w s' (cli_target t) (c_target conf) matches
  /\ both (program_at (cx_current_dir cx))
       (target_linker (cx_env cx) (c_target conf) matches (tt_triple t)) (et_linker e)
  /\ both (command_at (cx_current_dir cx))
       (target_runner (cx_env cx) (c_target conf) matches (tt_triple t)) (option_map program_of (et_runner e))
  /\ et_rustflags e = option_map eflags_words
       (target_rustflags (cx_env cx) (c_target conf) matches (tt_triple t)
          (overrides_target (cx_env cx) (B "RUSTFLAGS"))
          (build_flags (cx_env cx) (B "RUSTFLAGS") (look_list BuildRustflags conf)))
  /\ et_rustdocflags e = option_map eflags_words
       (target_rustdocflags (cx_env cx) (c_target conf) (tt_triple t)
          (overrides_target (cx_env cx) (B "RUSTDOCFLAGS"))
          (build_flags (cx_env cx) (B "RUSTDOCFLAGS") (look_list BuildRustdocflags conf))).
Proof.
  intros N Hc U Rs Ra Ht H.
  destruct (target_settings conf cx c pr w (QTarget a) a t s _ s' N Hc (text_keys_valid _ U) Rs
              (or_introl eq_refl) Ra Ht H) as (m & e' & [= ->] & D & _ & _ & K). eauto 10.
Qed.
Print Assumptions C22_target.

(** An example: all the sources of rustflags at once. *)
Definition ex_triple : str := B "x86_64-unknown-linux-gnu".
Definition ex_words (l : list str) : flags := mkFlags (map (fun s => mkValue s None) l) ReprArray.
Definition ex_targets : bmap target_config :=
  [(B "cfg(any(unix, windows))",
    mkTarget (Some (mkValue (B "ld1") None)) (Some (mkPathAndArgs (mkValue (B "run1") None) [] ReprArray))
      (Some (ex_words [B "-Cc"])) (Some (ex_words [B "--never"])));
   (B "cfg(target_os = ""linux"")",
    mkTarget (Some (mkValue (B "ld2") None)) (Some (mkPathAndArgs (mkValue (B "run2") None) [] ReprArray))
      (Some (ex_words [B "-Cd"])) None);
   (B "cfg(windows)", mkTarget (Some (mkValue (B "link.exe") None)) None (Some (ex_words [B "-Cw"])) None);
   (ex_triple, mkTarget None None (Some (ex_words [B "-Ca"])) None)].
Definition ex_conf : config :=
  mkConfig [] (mkBuild None None None None None None None (Some (ex_words [B "-Cbuild"]))
                 (Some (ex_words [B "--all"])) None None false false)
    (c_doc config_default) [] (c_future_incompat_report config_default) (c_cargo_new config_default)
    (c_http config_default) (c_net config_default) [] (c_registry config_default) ex_targets
    (c_term config_default).
Definition ex_cx (env : env_map) : context := mkContext env (B "cargo") (B "/cwd") None None None.
Definition ex_vars : env_map :=
  [(B "CARGO_TARGET_X86_64_UNKNOWN_LINUX_GNU_RUSTFLAGS", B "-Cb");
   (B "CARGO_TARGET_X86_64_UNKNOWN_LINUX_GNU_RUNNER", B "qemu  -L /")].
Definition ex_world : world :=
  mkWorld (fun _ _ => false)
    (fun _ _ => Exited true (B "exit status: 0") (B "unix" ++ [nl] ++ B "target_os=""linux""" ++ [nl]) []).
Definition ex_answer env q := 
  match from_unresolved ex_conf (ex_cx env) with
  | Ok c => Some (fst (run_query release ex_world c q (state_init (ex_cx env))))
  | _ => None
  end.

Example C22_ex :
  one_value_each ex_vars /\ is_ok (from_unresolved ex_conf (ex_cx ex_vars)) = true /\ text_keys ex_targets
  /\ ex_answer ex_vars (QTarget (ArgText ex_triple))
     = Some (Ok (ATarget (mkEtarget (Some (B "ld1")) (Some (mkEpa (B "qemu") [B "-L"; B "/"]))
                            (Some (mkEflags [B "-Ca"; B "-Cb"; B "-Cc"; B "-Cd"])) (Some (mkEflags [B "--all"])))))
  /\ ex_answer [] (QRunner (ArgText ex_triple)) = Some (Ok (APa (Some (mkEpa (B "run1") []))))
  /\ ex_answer [] (QRustflags (ArgText (B "other")))
     = Some (Ok (AFlags (Some (mkEflags [B "-Cc"; B "-Cd"])))).
Proof.
  split. { unfold one_value_each, ex_vars. cbn [map fst]. repeat constructor; cbn; intuition discriminate. }
  split; [reflexivity|]. split.
  { intros k v H. apply utf8_valid_iff. repeat (destruct H as [[= <- <-]|H]; [reflexivity|]). destruct H. }
  repeat split; vm_compute; reflexivity.
Qed.
Example C22_ex_reached c : from_unresolved ex_conf (ex_cx ex_vars) = Ok c ->
  reached release ex_world c (state_init (ec_cx c)).
Proof. intros _. exists []. split; [constructor|reflexivity]. Qed.

(** ** C18, part 2 *)
(** With [CARGO_ENCODED_RUSTFLAGS] or [RUSTFLAGS] nothing else counts, for any target. *)
Theorem C18_variables_win conf cx c pr w a t s o s' :
  one_value_each (cx_env cx) -> from_unresolved conf cx = Ok c -> text_keys (c_target conf) ->
  reached pr w c s -> real_arg a -> to_triple a = Ok t ->
  run_query pr w c (QRustflags a) s = (Ok (AFlags o), s') ->
  (forall v, env_get (B "CARGO_ENCODED_RUSTFLAGS") (cx_env cx) = Some v ->
     o = Some (mkEflags (split_encoded v)))
  /\ (forall v, env_get (B "CARGO_ENCODED_RUSTFLAGS") (cx_env cx) = None ->
        env_get (B "RUSTFLAGS") (cx_env cx) = Some v ->
        o = Some (mkEflags (split_space_separated v))).
Proof.
  intros N Hc U Rs Ra Ht H.
  destruct (C22_rustflags conf cx c pr w a t s o s' N Hc U Rs Ra Ht H) as (m & _ & ->).
  exact (variables_win _ _ (B "RUSTFLAGS") _ m (tt_triple t)).
Qed.
Print Assumptions C18_variables_win.
Theorem C18_doc_variables_win conf cx c pr w a t s o s' :
  one_value_each (cx_env cx) -> from_unresolved conf cx = Ok c -> text_keys (c_target conf) ->
  reached pr w c s -> real_arg a -> to_triple a = Ok t ->
  run_query pr w c (QRustdocflags a) s = (Ok (AFlags o), s') ->
  (forall v, env_get (B "CARGO_ENCODED_RUSTDOCFLAGS") (cx_env cx) = Some v ->
     o = Some (mkEflags (split_encoded v)))
  /\ (forall v, env_get (B "CARGO_ENCODED_RUSTDOCFLAGS") (cx_env cx) = None ->
        env_get (B "RUSTDOCFLAGS") (cx_env cx) = Some v ->
        o = Some (mkEflags (split_space_separated v))).
Proof.
  intros N Hc U Rs Ra Ht H. rewrite (C22_rustdocflags conf cx c pr w a t s o s' N Hc U Rs Ra Ht H).
  exact (doc_variables_win _ _ (B "RUSTDOCFLAGS") _ (tt_triple t)).
Qed.
Print Assumptions C18_doc_variables_win.
(** Without these two, any source of the target itself keeps the flags for all targets out, even
    if it is an empty list. *)
Theorem C18_target_beats_build conf cx c pr w a t s o s' :
  one_value_each (cx_env cx) -> from_unresolved conf cx = Ok c -> text_keys (c_target conf) ->
  reached pr w c s -> real_arg a -> to_triple a = Ok t ->
  run_query pr w c (QRustflags a) s = (Ok (AFlags o), s') ->
  env_get (B "CARGO_ENCODED_RUSTFLAGS") (cx_env cx) = None -> env_get (B "RUSTFLAGS") (cx_env cx) = None ->
  (exists v, env_get (target_variable (tt_triple t) (B "RUSTFLAGS")) (cx_env cx) = Some v)
  \/ look_list (TargetRustflags (tt_triple t)) conf <> None ->
  exists matches, decided_by w s' (cli_target t) (c_target conf) matches
  /\ o = option_map eflags_words
       (gathered ([look_list (TargetRustflags (tt_triple t)) conf;
                   var_words (cx_env cx) (tt_triple t) (B "RUSTFLAGS")]
                  ++ map rustflags_words (matching (c_target conf) matches))) /\ o <> None.
Proof.
  intros N Hc U Rs Ra Ht H E1 E2 K.
  destruct (C22_rustflags conf cx c pr w a t s o s' N Hc U Rs Ra Ht H) as (m & D & ->). exists m. split; [assumption|].
  unfold overrides_target, set, target_rustflags.
  change (B "CARGO_ENCODED_" ++ B "RUSTFLAGS") with (B "CARGO_ENCODED_RUSTFLAGS"). rewrite E1, E2. cbn [orb is_some].
  exact (target_beats_build (cx_env cx) conf m (tt_triple t) _ K).
Qed.
Print Assumptions C18_target_beats_build.
(** Else the flags for all targets are used. *)
Theorem C18_build_last conf cx c pr w a t s o s' :
  one_value_each (cx_env cx) -> from_unresolved conf cx = Ok c -> text_keys (c_target conf) ->
  reached pr w c s -> real_arg a -> to_triple a = Ok t ->
  run_query pr w c (QRustflags a) s = (Ok (AFlags o), s') ->
  env_get (target_variable (tt_triple t) (B "RUSTFLAGS")) (cx_env cx) = None ->
  look_list (TargetRustflags (tt_triple t)) conf = None ->
  (forall k v, In (k, v) (c_target conf) -> is_cfg k = true -> t_rustflags v = None) ->
  o = option_map eflags_words (build_flags (cx_env cx) (B "RUSTFLAGS") (look_list BuildRustflags conf)).
Proof.
  intros N Hc U Rs Ra Ht H E1 E2 E3.
  destruct (C22_rustflags conf cx c pr w a t s o s' N Hc U Rs Ra Ht H) as (m & D & ->).
  exact (build_last (cx_env cx) conf m (tt_triple t) _ _ E1 E2 E3).
Qed.
Print Assumptions C18_build_last.
Example C18_ex :
  ex_answer ((B "RUSTFLAGS", B " -g  -O ") :: ex_vars) (QRustflags (ArgText ex_triple))
    = Some (Ok (AFlags (Some (mkEflags [B "-g"; B "-O"]))))
  /\ ex_answer ((B "CARGO_ENCODED_RUSTFLAGS", []) :: (B "RUSTFLAGS", B "-g") :: ex_vars) (QRustflags (ArgText ex_triple))
    = Some (Ok (AFlags (Some (mkEflags [[]]))))
  /\ ex_answer [(B "CARGO_TARGET_M_RUSTDOCFLAGS", [])] (QRustdocflags (ArgText (B "m")))
    = Some (Ok (AFlags (Some (mkEflags []))))
  /\ ex_answer [(B "CARGO_BUILD_RUSTDOCFLAGS", B "-x")] (QRustdocflags (ArgText (B "m")))
    = Some (Ok (AFlags (Some (mkEflags [B "-x"])))).
Proof. repeat split; vm_compute; reflexivity. Qed.

(** ** C20, part 2 *)
Theorem C20_load_transparent f p cwd o vars :
  one_value_each vars -> Forall (fun kv => utf8 (fst kv)) vars ->
  same_load (easy_load_with_options f p cwd (options_with_env o (env_filter vars)))
            (easy_load_with_options f p cwd (options_with_env o vars)).
Proof.
  intros N U. apply load_filter; [assumption|]. revert U. apply Forall_impl. intros kv. apply utf8_valid_iff.
Qed.
Print Assumptions C20_load_transparent.
Example C20_ex :
  one_value_each ((B "PATH", B "/bin") :: (B "TARGET_X_RUNNER", B "no") :: ex_vars)
  /\ Forall (fun kv => utf8 (fst kv)) ((B "PATH", B "/bin") :: (B "TARGET_X_RUNNER", B "no") :: ex_vars)
  /\ length (env_filter ((B "PATH", B "/bin") :: (B "TARGET_X_RUNNER", B "no") :: ex_vars)) = 2.
Proof.
  split. { unfold one_value_each, ex_vars. cbn [map fst]. repeat constructor; cbn; intuition discriminate. }
  split; [|vm_compute; reflexivity]. repeat constructor; apply utf8_valid_iff; reflexivity.
Qed.

(** ** C23 *)
Theorem C23_cfg_name pr w c q a t s :
  reached pr w c s -> target_query q a -> real_arg a -> to_triple a = Ok t ->
  is_cfg (tt_triple t) = true ->
  run_query pr w c q s
  = (Err (EOther (MText (B "'" ++ tt_triple t ++ B "' is not valid target triple"))), s).
Proof. exact (cfg_name_fails pr w c q a t s). Qed.
Print Assumptions C23_cfg_name.
Theorem C23_cfg_text s : is_cfg s = true -> ~ spec_like s ->
  to_triple (ArgText s) = Ok (mkTriple s None).
Proof. exact (cfg_text s). Qed.
Print Assumptions C23_cfg_text.
Theorem C23_bad_key conf cx c pr w q a t s k v :
  from_unresolved conf cx = Ok c -> text_keys (c_target conf) ->
  In (k, v) (c_target conf) -> is_cfg k = true -> ~ valid_cfg k ->
  reached pr w c s -> target_query q a -> real_arg a -> to_triple a = Ok t ->
  (forall x, fst (run_query pr w c q s) <> Ok x)
  /\ (overflow_checks pr = false -> exists e, fst (run_query pr w c q s) = Err e).
Proof.
  intros Hc U I K Bad. apply (bad_key_fails conf cx c pr w q a t s k v); auto using text_keys_valid.
  intros x roots X A. apply Bad. now exists x, roots.
Qed.
Print Assumptions C23_bad_key.
(** A name is taken for a path if it has a separator, and the name of the file is what counts:
    the text itself may begin with [cfg(]. *)
Theorem C23_any_text_refuted :
  exists text c w, is_cfg text = true
  /\ from_unresolved config_default (ex_cx []) = Ok c
  /\ exists e, fst (run_query release w c (QTarget (ArgText text)) (state_init (ec_cx c))) = Ok (ATarget e).
Proof.
  exists (B "cfg(a/b)").
  exists (match from_unresolved config_default (ex_cx []) with Ok c => c | _ => any_config (ex_cx []) (mkEbuild None None None None None None None None None None None false None false None) end).
  exists ex_world. split; [reflexivity|]. split; [vm_compute; reflexivity|]. eexists. vm_compute. reflexivity.
Qed.
Print Assumptions C23_any_text_refuted.
Definition ex_bad_conf : config :=
  mkConfig [] (c_build config_default) (c_doc config_default) [] (c_future_incompat_report config_default)
    (c_cargo_new config_default) (c_http config_default) (c_net config_default) [] (c_registry config_default)
    [(B "cfg(unix", target_default)] (c_term config_default).
Example C23_ex :
  is_cfg (B "cfg(unix") = true /\ ~ valid_cfg (B "cfg(unix") /\ is_ok (from_unresolved ex_bad_conf (ex_cx [])) = true
  /\ ~ spec_like (B "cfg(unix)") /\ to_triple (ArgText (B "cfg(unix)")) = Ok (mkTriple (B "cfg(unix)") None).
Proof.
  split; [reflexivity|]. split.
  { intros H. assert (V : utf8_valid (B "cfg(unix") = true) by reflexivity.
    assert (K := accepted_parse_ok release _ V eq_refl H). discriminate K. }
  split; [reflexivity|]. split; [|reflexivity].
  intros H. apply TripleProof.is_spec_path_iff in H. discriminate H.
Qed.

(** ** C46 *)
(** The name of the variable: as long as the triple, character by character. *)
Theorem C46_name triple key : exists u,
  target_variable triple key = B "CARGO_TARGET_" ++ u ++ B "_" ++ key /\
  Forall2 (fun c d =>
    ((c = "-"%char \/ c = "."%char) /\ d = "_"%char)
    \/ (exists i, i < 26 /\ c = ascii_of_nat (97 + i) /\ d = ascii_of_nat (65 + i))
    \/ (c <> "-"%char /\ c <> "."%char /\ (forall i, i < 26 -> c <> ascii_of_nat (97 + i)) /\ d = c))
    triple u.
Proof. exact (variable_name triple key). Qed.
Print Assumptions C46_name.
(** No other variable is read for a target: equal values of the four give equal answers. *)
Theorem C46_only_these pr w c env q a s :
  target_query q a -> arg_vars_same (cx_env (ec_cx c)) env a ->
  run_query pr w c q s = run_query pr w (config_with_env c env) q s.
Proof. exact (target_query_env pr w c env q a s). Qed.
Print Assumptions C46_only_these.
(** The variable is used: if set, it is the linker (a path with a separator is relative to the
    current directory, C30). *)
Theorem C46_linker conf cx c pr w a t s o s' v :
  one_value_each (cx_env cx) -> from_unresolved conf cx = Ok c -> text_keys (c_target conf) ->
  reached pr w c s -> real_arg a -> to_triple a = Ok t ->
  env_get (target_variable (tt_triple t) (B "LINKER")) (cx_env cx) = Some v ->
  run_query pr w c (QLinker a) s = (Ok (APath o), s') ->
  exists p, o = Some p /\
  program_at (cx_current_dir cx) (of_variable (target_variable (tt_triple t) (B "LINKER")) v) p.
Proof.
  intros N Hc U Rs Ra Ht E H.
  destruct (C21_linker conf cx c pr w a t s o s' N Hc U Rs Ra Ht H) as (m & _ & K).
  unfold target_linker, var in K. rewrite E in K. cbn in K. destruct o as [p|]; [eauto|contradiction].
Qed.
Print Assumptions C46_linker.
(** Different triples can share their variables. *)
Theorem C46_shared : target_variable (B "a-b") (B "LINKER") = target_variable (B "a.b") (B "LINKER")
  /\ target_variable (B "a-b") (B "LINKER") = target_variable (B "A_b") (B "LINKER").
Proof. split; reflexivity. Qed.
Print Assumptions C46_shared.
Example C46_ex : target_variable (B "thumbv7em-none.eabi") (B "RUNNER") = B "CARGO_TARGET_THUMBV7EM_NONE_EABI_RUNNER"
  /\ arg_vars_same ex_vars ((B "CARGO_TARGET_X_RUNNER", B "y") :: ex_vars) (ArgText ex_triple).
Proof.
  split; [reflexivity|]. intros t key [= <-] H. repeat (destruct H as [<-|H]; [reflexivity|]). destruct H.
Qed.

(** ** C50 *)
(** A query about a target runs at most one program, and that only to ask rustc for the cfg of
    the target, if there is a [cfg(..)] key and nothing is known about the target. *)
Theorem C50_programs conf cx c pr w q a t s r s' :
  from_unresolved conf cx = Ok c ->
  target_query q a -> to_triple a = Ok t -> run_query pr w c q s = (r, s') ->
  s_trace s' = s_trace s \/
  (has_cfg (c_target conf) /\ cfg_get (cli_target t) (s_cfg s) = None /\ bget (cli_target t) (s_target s) = None /\
   exists rustc, s_rustc s' = Some rustc /\ s_trace s' = cfg_question rustc (cli_target t) :: s_trace s).
Proof.
  intros Hc Q Ht H. destruct (from_unresolved_ok _ _ _ Hc) as (de & Ha & _ & _ & _ & Et & _).
  rewrite <- (proj2 (proj2 (EnvVarsProof.apply_env_env _ _ _ Ha))), <- Et. eapply target_query_trace; eauto.
Qed.
Print Assumptions C50_programs.
(** After one success there is nothing more to run for that target. *)
Theorem C50_once pr w c q q' a s x s' s'' r :
  target_query q a -> target_query q' a -> 
  run_query pr w c q s = (Ok x, s') -> run_query pr w c q' s' = (r, s'') -> s'' = s'.
Proof. exact (second_query_same pr w c q q' a s x s' s'' r). Qed.
Print Assumptions C50_once.
Example C50_ex :
  match from_unresolved ex_conf (ex_cx []) with
  | Ok c => s_trace (snd (run_query release ex_world c (QLinker (ArgText ex_triple)) (state_init (ec_cx c))))
            = [mkCommand (B "rustc") [B "--print"; B "cfg"; B "--target"; ex_triple]]
  | _ => False
  end.
Proof. vm_compute. reflexivity. Qed.
