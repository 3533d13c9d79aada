(** C67: changing the fields of a loaded configuration. *)
From Verif.Model Require Import Base Str Path BMap Error Value De Serde CfgExpr Triple EasyTypes Context
  ApplyEnv Process Walk Load Resolve Easy EasySerde Edit.
From Verif.Spec Require Import StrSpec TripleSpec TargetSpec QuerySpec SerdeSpec EditSpec.
From Verif.Proof Require Import StateProof QueryProof EditProof.
From Verif.Props Require Load.

(** Assignments that change nothing a later query looks at make no difference: the answers
    and the cells (with the programs run) are those of the calls alone.  In particular,
    assignments outside [build] never make a difference to any query, ... *)
Theorem C67_undisturbed pr w l c s :
  undisturbed l ->
  fst (run_steps pr w l c s) = fst (run_steps pr w (map Call (calls l)) c s)
  /\ snd (snd (run_steps pr w l c s)) = run_queries pr w c (calls l) s.
Proof. intros U. apply steps_ext; auto. intros q [] _ _; cbn; auto. Qed.
Print Assumptions C67_undisturbed.
(** ... and neither do those to [build.rustflags] and [build.rustdocflags]. *)
Theorem C67_flags_no_effect pr w c o o' q s :
  run_query pr w (apply_edit (SetRustflags o) c) q s = run_query pr w c q s
  /\ run_query pr w (apply_edit (SetRustdocflags o') c) q s = run_query pr w c q s.
Proof. split; apply query_edit; now intros x []. Qed.
Print Assumptions C67_flags_no_effect.

(** What was answered stays, whatever is assigned and asked in between, and however the
    world changes; nothing is run again. *)
Theorem C67_target_kept pr w c q a s x s1 l :
  target_query q a -> run_query pr w c q s = (Ok x, s1) ->
  let (c2, s2) := snd (run_steps pr w l c s1) in run_query pr w c2 q s2 = (Ok x, s2).
Proof.
  intros Q H. assert (G := steps_grow pr w l c s1). destruct (snd (run_steps pr w l c s1)) as [c2 s2].
  exact (target_kept pr w c c2 q a s x s1 s2 Q H G).
Qed.
Print Assumptions C67_target_kept.
Theorem C67_tool_kept pr w c q s x s1 l :
  tool_query q -> run_query pr w c q s = (Ok x, s1) ->
  let (c2, s2) := snd (run_steps pr w l c s1) in run_query pr w c2 q s2 = (Ok x, s2).
Proof.
  intros Q H. assert (G := steps_grow pr w l c s1). destruct (snd (run_steps pr w l c s1)) as [c2 s2].
  exact (tool_kept pr w c c2 q s x s1 s2 Q H G).
Qed.
Print Assumptions C67_tool_kept.

(** Default targets, on the other hand, are those assigned last, ... *)
Theorem C67_default_target pr w c ts l s :
  (forall e, In (Edit e) l -> ~ changes e DefaultTarget) ->
  let (c2, s2) := snd (run_steps pr w (Edit (SetTarget (Some ts)) :: l) c s) in
  run_query pr w c2 (QBuildTargetForCli []) s2 = (Ok (AStrs (map cli_target_string ts)), s2)
  /\ (ts <> [] -> run_query pr w c2 (QBuildTargetForConfig []) s2 = (Ok (ATriples ts), s2)).
Proof.
  intros H. cbn [run_steps].
  assert (K : forall l c s, (forall e, In (Edit e) l -> ~ changes e DefaultTarget) ->
                eb_target (ec_build (fst (snd (run_steps pr w l c s)))) = eb_target (ec_build c)).
  { clear. induction l as [|[q|e] l IH]; intros c s H; cbn [run_steps]; [reflexivity| |].
    - destruct (run_query pr w c q s) as [r s1]. specialize (IH c s1 (fun e I => H e (or_intror I))).
      now destruct (run_steps pr w l c s1).
    - rewrite IH by (intros e' I; apply H; now right). symmetry. apply (edit_part e c DefaultTarget). apply H. now left. }
  specialize (K l (apply_edit (SetTarget (Some ts)) c) s H).
  destruct (snd (run_steps pr w l (apply_edit (SetTarget (Some ts)) c) s)) as [c2 s2]. cbn [fst] in K.
  assert (E : eb_target (ec_build c2) = Some ts) by (rewrite K; cbn; now destruct (ec_build c)).
  cbn [run_query]. unfold q_build_target_for_cli, mapM, q_build_target_for_config. rewrite E. split; [reflexivity|].
  now destruct ts.
Qed.
Print Assumptions C67_default_target.
(** ... and a compiler or wrapper assigned before the first question is used. *)
Theorem C67_compiler pr w c r wr ws s :
  s_rustc s = None ->
  exists p, run_query pr w (apply_edit (SetRustc (Some r))
                              (apply_edit (SetRustcWrapper wr) (apply_edit (SetRustcWorkspaceWrapper ws) c))) QRustc s
            = (Ok (AProgram p), snd (set_rustc p s))
  /\ command_of (maybe wr ++ maybe ws ++ [r]) p.
Proof.
  intros N. exists (chain_program (maybe wr ++ maybe ws) r). split.
  - cbn [run_query]. unfold mapM, q_rustc, cx_rustc. rewrite !bindM_eq. cbn [get]. rewrite N.
    cbn [apply_edit ec_build ec_cx]. unfold base_rustc. now destruct (ec_build c).
  - rewrite app_assoc. apply chain_command.
Qed.
Print Assumptions C67_compiler.

(** ** Examples *)
Definition tools : world :=
  mkWorld (fun _ _ => false)
    (fun _ c => Exited true [] (if str_eqb (last (cmd_args c) []) (B "-vV")
                                then B "release: 1.80.0" ++ [nl] ++ B "host: h" else B "unix") []).
Definition loaded (t : toml) (vars : list (str * str)) : result econfig :=
  easy_load_with_options
    (mkFsys (fun p => str_eqb p (B "/p/.cargo/config.toml")) (fun _ => ReadTree t))
    (mkProcess vars None) (B "/p") options_default.
Definition in_file : toml :=
  Load.tab [("build"%string, Load.tab [("rustflags"%string, TomlStr (B "-a"))]);
            ("target"%string, Load.tab [("t"%string, Load.tab [("rustflags"%string, TomlStr (B "-b"))]);
                                        ("cfg(unix)"%string, Load.tab [("linker"%string, TomlStr (B "ld"))])])].
Definition in_variable : toml :=
  Load.tab [("target"%string, Load.tab [("t"%string, Load.tab [("rustflags"%string, TomlStr (B "-b"))])])].
Definition after (r : result econfig) (l : list step) : option (list (result answer) * list command) :=
  match r with
  | Ok c => let (rs, cs) := run_steps debug tools l c (state_init (ec_cx c)) in Some (rs, rev (s_trace (snd cs)))
  | _ => None
  end.
Definition flags_of_t : query := QRustflags (ArgText (B "t")).
Definition flags_of_u : query := QRustflags (ArgText (B "u")).
Definition cfg_of (rustc t : string) : command :=
  mkCommand (B rustc) [B "--print"; B "cfg"; B "--target"; B t].

(** Assignments in between; those to the wrapper do not disturb what follows. *)
Definition busy : list step :=
  [Call flags_of_t; Edit (SetRustflags None); Edit (SetTerm (mkEterm None None None (mkEprogress None None)));
   Edit (SetTarget (Some [mkTriple (B "v") None])); Call flags_of_u; Call QRustcVersion;
   Edit (SetRustcWorkspaceWrapper (Some (B "/w"))); Call QCargoVersion; Call (QBuildTargetForConfig [ArgText (B "x")])].
Example C67_ex_undisturbed :
  undisturbed busy /\ after (loaded in_file []) busy
  = Some ([Ok (AFlags (Some (mkEflags [B "-b"]))); Ok (AFlags (Some (mkEflags [B "-a"])));
           Ok (ARustcVersion (mkRustcVersion 1 80 (Some 0%N) false)); Ok (ACargoVersion (mkCargoVersion 1 80 0 false));
           Ok (ATriples [mkTriple (B "x") None])],
          [cfg_of "rustc" "t"; cfg_of "rustc" "u"; mkCommand (B "cargo") [B "-vV"];
           mkCommand (B "rustc") [B "-vV"]]).
Proof.
  split; [|vm_compute; reflexivity].
  intros before e post q x E I Hc Hq. unfold busy in E.
  repeat (destruct before as [|? before]; cbn [app] in E;
    [first [discriminate E | injection E as <- <-] | injection E as <- E]; try (now destruct before)).
  all: cbn in I, Hc; repeat (destruct I as [I|I]; [first [discriminate I | injection I as <-]; cbn in Hq; subst; try contradiction; intuition discriminate|]); destruct I.
Qed.
(** What was answered stays. *)
Example C67_ex_kept :
  after (loaded in_file []) [Call QRustc; Call (QLinker (ArgText (B "t"))); Edit (SetRustc (Some (B "/r")));
                             Call QRustc; Call (QLinker (ArgText (B "t"))); Call (QLinker (ArgText (B "u")))]
  = Some ([Ok (AProgram (mkEpa (B "rustc") [])); Ok (APath (Some (B "ld")));
           Ok (AProgram (mkEpa (B "rustc") [])); Ok (APath (Some (B "ld"))); Ok (APath (Some (B "ld")))],
          [cfg_of "rustc" "t"; cfg_of "rustc" "u"]).
Proof. vm_compute. reflexivity. Qed.
(** What was not asked before uses the new values. *)
Example C67_ex_new :
  after (loaded in_file [])
    [Edit (SetTarget (Some [mkTriple (B "v") None])); Call (QBuildTargetForConfig []); Call (QBuildTargetForCli []);
     Edit (SetRustc (Some (B "/r"))); Edit (SetRustcWrapper (Some (B "/w"))); Call QRustc;
     Call (QLinker (ArgText (B "t"))); Edit (SetTarget None); Call (QBuildTargetForConfig [])]
  = Some ([Ok (ATriples [mkTriple (B "v") None]); Ok (AStrs [B "v"]); Ok (AProgram (mkEpa (B "/w") [B "/r"]));
           Ok (APath (Some (B "ld"))); Ok (ATriples [mkTriple (B "h") None])],
          [mkCommand (B "/w") [B "/r"; B "--print"; B "cfg"; B "--target"; B "t"];
           mkCommand (B "cargo") [B "-vV"]]).
Proof. vm_compute. reflexivity. Qed.

(** ** What does not hold *)
(** Flags assigned to [build.rustflags] are written, but targets do not have them. *)
Theorem C67_assigned_flags_refuted :
  exists c c2, loaded in_file [] = Ok c /\ c2 = apply_edit (SetRustflags (Some (mkEflags [B "-z"]))) c
  /\ option_map (at_path [B "build"; B "rustflags"]) (eser_config c2 []) = Some (Some (TomlArr [TomlStr (B "-z")]))
  /\ fst (run_query debug tools c2 flags_of_u (state_init (ec_cx c2))) = Ok (AFlags (Some (mkEflags [B "-a"]))).
Proof.
  destruct (loaded in_file []) as [c| |] eqn:E; [|vm_compute in E; discriminate..].
  exists c. eexists. split; [reflexivity|]. split; [reflexivity|].
  vm_compute in E. injection E as <-. split; vm_compute; reflexivity.
Qed.
Print Assumptions C67_assigned_flags_refuted.
(** With assignments, an answer may depend on what was asked before, even if the world does
    not change (unlike C34). *)
Theorem C67_order_refuted :
  exists c e q, loaded in_file [] = Ok c /\ steady tools
  /\ fst (run_steps debug tools [Call q; Edit e; Call q] c (state_init (ec_cx c)))
     <> fst (run_steps debug tools [Call q] c (state_init (ec_cx c)))
        ++ fst (run_steps debug tools [Edit e; Call q] c (state_init (ec_cx c))).
Proof.
  destruct (loaded in_file []) as [c| |] eqn:E; [|vm_compute in E; discriminate..].
  exists c, (SetRustc (Some (B "/r"))), QRustc. vm_compute in E. injection E as <-.
  split; [reflexivity|]. split; [now split|]. vm_compute. discriminate.
Qed.
Print Assumptions C67_order_refuted.
(** The table [build] holds more than its public fields: exchanged for one that is equal in
    all of them, it makes a target have other flags. *)
Theorem C67_equal_build_refuted :
  exists c c', loaded in_variable [(B "RUSTFLAGS", B "-a")] = Ok c /\ loaded in_file [] = Ok c'
  /\ eser_build (ec_build c) = eser_build (ec_build c') /\ eb_rustflags (ec_build c) = eb_rustflags (ec_build c')
  /\ fst (run_query debug tools c flags_of_t (state_init (ec_cx c))) = Ok (AFlags (Some (mkEflags [B "-a"])))
  /\ fst (run_query debug tools (apply_edit (SetBuild (ec_build c')) c) flags_of_t (state_init (ec_cx c)))
     = Ok (AFlags (Some (mkEflags [B "-b"]))).
Proof.
  destruct (loaded in_variable [(B "RUSTFLAGS", B "-a")]) as [c| |] eqn:E; [|vm_compute in E; discriminate..].
  destruct (loaded in_file []) as [c'| |] eqn:E'; [|vm_compute in E'; discriminate..].
  exists c, c'. split; [reflexivity|]. split; [reflexivity|].
  vm_compute in E, E'. injection E as <-. injection E' as <-. repeat split; vm_compute; reflexivity.
Qed.
Print Assumptions C67_equal_build_refuted.
