(** C84: Debug output on several lines.

    For any choice of the printable characters beyond ASCII ([plain]) and for both ways of
    writing a single quote in a path ([quote]). *)
From Verif.Model Require Import Base Str BMap Error ErrorText Value De Debug EasyTypes Easy EasySerde Serde Merge JsonText DebugText PrettyText.
From Verif.Spec Require Import StrSpec Utf8Spec SecretSpec DebugTextSpec DebugLayoutSpec PrettySpec.
From Verif.Proof Require Import StrFacts Utf8Proof DebugTextProof DebugProof DebugTreeProof DebugLayoutProof PrettyProof.
From Verif.Props Require Import Load Debug DebugText.

(** ** Layout *)
(** The adapters that indent what passes through them make this layout by depth, however deep
    they are nested. *)
Theorem C84_layout plain quote t x : Forall (fun n => ~ In (ascii_of_N 10) (B n)) (names t) ->
  pretty_text plain quote t = x <-> laid_out plain quote 0 t x.
Proof.
  intros N. rewrite (pretty_lay plain quote t N). split; [intros <-; apply lay_laid|]. intros H. symmetry. now apply laid_lay.
Qed.
Print Assumptions C84_layout.
Theorem C84_config_layout plain quote c x :
  pretty_text plain quote (dbg_config c) = x <-> laid_out plain quote 0 (dbg_config c) x.
Proof. apply C84_layout. exact (named_names _ (proj1 (uniform_config c))). Qed.
Print Assumptions C84_config_layout.

(** ** What it tells *)
(** Two configurations have the same text exactly if they are the same up to the text of
    tokens. *)
Theorem C84_config plain quote c c' :
  pretty_text plain quote (dbg_config c) = pretty_text plain quote (dbg_config c') <-> hide c = hide c'.
Proof.
  rewrite <- C65_complete. split; [exact (pretty_uniform plain quote dbg_config c c' uniform_config)|now intros ->].
Qed.
Print Assumptions C84_config.
(** One line tells as much as several do. *)
Theorem C84_same plain quote plain' quote' c c' :
  pretty_text plain quote (dbg_config c) = pretty_text plain quote (dbg_config c')
  <-> debug_text plain' quote' (dbg_config c) = debug_text plain' quote' (dbg_config c').
Proof. now rewrite C84_config, C76_config. Qed.
Print Assumptions C84_same.
Theorem C84_flags plain quote f f' :
  pretty_text plain quote (edbg_flags f) = pretty_text plain quote (edbg_flags f') <-> ef_flags f = ef_flags f'.
Proof.
  split.
  - intros E. apply (pretty_uniform plain quote edbg_flags f f' uniform_eflags) in E. apply strs_inj. unfold edbg_flags, edbg_strs in E.
    now injection E as ->.
  - intros E. unfold edbg_flags. now rewrite E.
Qed.
Print Assumptions C84_flags.
Theorem C84_command plain quote p p' :
  pretty_text plain quote (edbg_pa p) = pretty_text plain quote (edbg_pa p') -> p = p'.
Proof. intros E. apply (pretty_uniform plain quote edbg_pa p p' uniform_epa) in E. exact (epa_inj p p' E). Qed.
Print Assumptions C84_command.

(** ** Lines of text *)
(** Whatever bytes paths and values consist of, the text is UTF-8 without control characters
    other than the ends of lines. *)
Theorem C84_lines plain quote c :
  in_lines (pretty_text plain quote (dbg_config c)) /\ utf8 (pretty_text plain quote (dbg_config c)).
Proof.
  assert (N := proj1 (uniform_config c)). rewrite (pretty_lay plain quote _ (named_names _ N)).
  destruct (fine_lay plain quote _ N 0) as [L U]. split; [exact L|]. apply utf8_valid_iff.
  specialize (U []). now rewrite app_nil_r in U.
Qed.
Print Assumptions C84_lines.

(** ** Examples *)
Definition lines (l : list string) : str := intercalate (ascii_of_N 10) (map B l).
Example C84_ex_tree :
  pretty_text none true
    (DStruct "S" [("a", DTuple "T" [DNum (-10); DTuple "U" []]); ("b", DList []);
                  ("c", DMap [(DStr (B "it's" ++ bytes [10%N])%list, DOs (B "it's")); (DStr [], DSet [DBool true; DNum 0])])]%string)
  = lines ["S {";
           "    a: T(";
           "        -10,";
           "        U,";
           "    ),";
           "    b: [],";
           "    c: {";
           "        ""it's\n"": ""it\'s"",";
           "        """": {";
           "            true,";
           "            0,";
           "        },";
           "    },";
           "}"]%string.
Proof. vm_compute. reflexivity. Qed.
Example C84_ex_registry :
  pretty_text none false (dbg_registry (c_registry (with_token "a")))
  = lines ["RegistryConfig {";
           "    default: None,";
           "    token: Some(";
           "        Value {";
           "            val: ""[REDACTED]"",";
           "            definition: None,";
           "        },";
           "    ),";
           "}"]%string.
Proof. vm_compute. reflexivity. Qed.
Example C84_ex_config : hide (with_token "a") = hide (with_token "b") /\ with_token "a" <> with_token "b".
Proof. split; [vm_compute; reflexivity|]. intros E. apply (f_equal c_registry) in E. vm_compute in E. discriminate E. Qed.
(** Names with the end of a line, which Rust does not have, would get spaces. *)
Example C84_ex_names : exists t, ~ laid_out (fun _ => false) false 0 t (pretty_text (fun _ => false) false t).
Proof.
  exists (DList [DUnit (String (ascii_of_N 10) "a")]). intros H. apply laid_lay in H. vm_compute in H. discriminate H.
Qed.
