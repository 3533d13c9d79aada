(** C76: the text of Debug output.

    For any choice of the printable characters beyond ASCII ([plain]) and for both ways of
    writing a single quote in a path ([quote]). *)
From Verif.Model Require Import Base Str BMap Error ErrorText Value De Debug EasyTypes Easy EasySerde Serde Merge JsonText DebugText.
From Verif.Spec Require Import StrSpec Utf8Spec SecretSpec DebugTextSpec DebugLayoutSpec ReportTextSpec.
From Verif.Proof Require Import StrFacts Utf8Proof DebugTextProof DebugProof DebugTreeProof DebugLayoutProof ReportTextProof.
From Verif.Props Require Import Load Clash Debug.

(** ** Strings *)
(** Each character by its short name, as it is or by its number; each byte that is not
    part of a character by its value. *)
Theorem C76_string plain quote os s x :
  debug_str plain quote os s = x
  <-> exists t, text_shown plain quote os s t /\ x = B """" ++ t ++ B """".
Proof.
  unfold debug_str. split.
  - intros <-. exists (debug_bytes plain quote os s). split; [apply dbytes_shown|reflexivity].
  - intros (t & H & ->). apply shown_dbytes in H. now rewrite H.
Qed.
Print Assumptions C76_string.

(** Whatever follows, the string and its end can be told. *)
Theorem C76_string_read plain quote os s s' r r' :
  debug_str plain quote os s ++ r = debug_str plain quote os s' ++ r' -> s = s' /\ r = r'.
Proof. exact (debug_str_inj plain quote os s s' r r'). Qed.
Print Assumptions C76_string_read.

(** ** Trees *)
(** Everything is laid out as documented for the builders of [std::fmt]. *)
Theorem C76_tree plain quote t x : debug_text plain quote t = x <-> tree_shown plain quote t x.
Proof. split; [intros <-; apply text_tree_shown|intros H; symmetry; now apply tree_shown_text]. Qed.
Print Assumptions C76_tree.

(** ** Configurations *)
(** Two configurations have the same text exactly if they are the same up to the text of
    tokens. *)
Theorem C76_config plain quote c c' :
  debug_text plain quote (dbg_config c) = debug_text plain quote (dbg_config c') <-> hide c = hide c'.
Proof.
  rewrite <- C65_complete. split; [exact (text_uniform plain quote dbg_config c c' uniform_config)|now intros ->].
Qed.
Print Assumptions C76_config.

(** The flags and programs printed by the examples of src/lib.rs and src/easy.rs. *)
Theorem C76_flags plain quote f f' :
  debug_text plain quote (edbg_flags f) = debug_text plain quote (edbg_flags f') <-> ef_flags f = ef_flags f'.
Proof.
  split.
  - intros E. apply (text_uniform plain quote edbg_flags f f' uniform_eflags) in E. apply strs_inj. unfold edbg_flags, edbg_strs in E.
    now injection E as ->.
  - intros E. unfold edbg_flags. now rewrite E.
Qed.
Print Assumptions C76_flags.
Theorem C76_command plain quote p p' :
  debug_text plain quote (edbg_pa p) = debug_text plain quote (edbg_pa p') -> p = p'.
Proof. intros E. apply (text_uniform plain quote edbg_pa p p' uniform_epa) in E. exact (epa_inj p p' E). Qed.
Print Assumptions C76_command.

(** ** The report of a failed merge *)
(** The report names one key and two entries: there is no other way to read it, even if the
    key contains quotes, backticks or the words of the report. *)
Theorem C76_report io plain quote k k' x y x' y' cause cause' :
  error_text io (debug_text plain quote) (EWithContext (MMergeKey k (entry_view x) (entry_view y)) cause)
  = error_text io (debug_text plain quote) (EWithContext (MMergeKey k' (entry_view x') (entry_view y')) cause') ->
  k = k' /\ x = x' /\ y = y'.
Proof. exact (report_told io plain quote k k' x y x' y' cause cause'). Qed.
Print Assumptions C76_report.

(** ** One line of text *)
(** Whatever bytes paths and values consist of, the text is UTF-8 without control
    characters. *)
Theorem C76_config_line plain quote c :
  in_line (debug_text plain quote (dbg_config c)) /\ utf8 (debug_text plain quote (dbg_config c)).
Proof.
  destruct (good_text plain quote _ (proj1 (uniform_config c))) as [L U]. split; [exact L|]. apply utf8_valid_iff.
  specialize (U []). now rewrite app_nil_r in U.
Qed.
Print Assumptions C76_config_line.
Theorem C76_report_line io plain quote k x y cause :
  let t := error_text io (debug_text plain quote) (EWithContext (MMergeKey k (entry_view x) (entry_view y)) cause) in
  (in_line t <-> in_line k) /\ (utf8 t <-> utf8 k).
Proof.
  destruct (good_text plain quote _ (proj1 (uniform_entry x))) as [Lx Ux]. destruct (good_text plain quote _ (proj1 (uniform_entry y))) as [Ly Uy].
  assert (G : good (B " between " ++ debug_text plain quote (entry_view x) ++ B " and " ++ debug_text plain quote (entry_view y))).
  { apply good_app; [now apply good_lit|]. apply good_app; [now split|]. apply good_app; [now apply good_lit|now split]. }
  cbn [error_text msg_text]. unfold bt. rewrite <- !app_assoc. split.
  - destruct G as [G _]. rewrite (line_app (B "failed to merge key ")), (line_app (B "`")), (line_app k), (line_app (B "`")).
    assert (in_line (B "failed to merge key ") /\ in_line (B "`")) by (split; now apply line_bool). tauto.
  - rewrite <- !utf8_valid_iff. rewrite valid_ascii_app by now apply ascii_bool. rewrite valid_ascii_app by now apply ascii_bool.
    destruct G as [_ G]. specialize (G []). rewrite app_nil_r in G. change (utf8_valid []) with true in G. split.
    + intros V. change (B "`" ++ ?z) with ("`"%char :: z) in V. apply valid_app_ascii in V as [V _]; [exact V|reflexivity].
    + intros V. apply utf8_valid_iff in V. induction V as [|n c s E V IH].
      * rewrite app_nil_l, valid_ascii_app by now apply ascii_bool. exact G.
      * rewrite <- app_assoc, valid_char by (apply encodes_shape; eauto). exact IH.
Qed.
Print Assumptions C76_report_line.

(** ** Examples *)
(** Only ASCII is printable, as in the examples below. *)
Definition none (n : N) : bool := false.
Example C76_ex_strings :
  debug_str none false false (B "a ""b"" \ c'" ++ bytes [9; 127; 195; 169]%N)
  = B """a \""b\"" \\ c'\t\u{7f}\u{e9}"""
  /\ debug_str none true true (B "it's " ++ bytes [195; 40; 226; 130; 65; 240; 159; 166; 128]%N) = B """it\'s \xC3(\xE2\x82A\u{1f980}"""
  /\ debug_str (fun _ => true) false true (B "it's " ++ bytes [195; 169]%N) = B """it's " ++ bytes [195; 169; 34]%N.
Proof. repeat split; vm_compute; reflexivity. Qed.

Example C76_ex_flags :
  debug_text none false (edbg_flags (mkEflags [B "-C"; B "link-arg=a b"])) = B "Flags { flags: [""-C"", ""link-arg=a b""] }"
  /\ debug_text none false (edbg_pa (mkEpa (B "/bin/x") [])) = B "PathAndArgs { path: ""/bin/x"", args: [] }".
Proof. split; vm_compute; reflexivity. Qed.

(** Nested, with empty parts, and with a quote in a string and in a path. *)
Example C76_ex_tree :
  tree_shown none true
    (DStruct "S" [("a", DTuple "T" [DNum (-10); DTuple "U" []]); ("b", DList []);
                  ("c", DMap [(DStr (B "it's"), DOs (B "it's")); (DStr [], DSet [DBool true; DNum 0])])]%string)
    (B "S { a: T(-10, U), b: [], c: {""it's"": ""it\'s"", """": {true, 0}} }").
Proof. apply C76_tree. vm_compute. reflexivity. Qed.

(** The clash of C63_ex_env. *)
Example C76_ex_report : forall e, merge_config many_a many_b false = Err e ->
  error_text (fun _ => []) (debug_text none false) e
  = B "failed to merge key `B` between Value(Value { val: ""2"", definition: None }) and "
    ++ B "Table { value: Value { val: ""4"", definition: None }, force: None, relative: None }".
Proof. intros e. rewrite C63_ex_env. intros [= <-]. vm_compute. reflexivity. Qed.

(** Keys and values made to look like another report. *)
Definition tricky (k v : string) : str :=
  error_text (fun _ => []) (debug_text none false)
    (EWithContext (MMergeKey (B k) (entry_view (OfEnv (EnvValue (mkValue (B v) None)))) (entry_view (OfEnv (EnvValue (mkValue (B "b") None))))) None).
Example C76_ex_tricky :
  tricky "A` between Value(Value { val: ""1"", definition: None }) and x" "` between "
  = B "failed to merge key `A` between Value(Value { val: ""1"", definition: None }) and x` between "
    ++ B "Value(Value { val: ""` between "", definition: None }) and Value(Value { val: ""b"", definition: None })".
Proof. vm_compute. reflexivity. Qed.

(** Tokens. *)
Definition with_token (s : string) : config := of_toml (tab [("registry", tab [("token", TomlStr (B s))])]%string).
Example C76_ex_token :
  c_registry (with_token "a") <> c_registry (with_token "b")
  /\ debug_text none false (dbg_config (with_token "a")) = debug_text none false (dbg_config (with_token "b"))
  /\ debug_text none false (dbg_registry (c_registry (with_token "a")))
     = B "RegistryConfig { default: None, token: Some(Value { val: ""[REDACTED]"", definition: None }) }".
Proof. split; [vm_compute; discriminate|]. split; vm_compute; reflexivity. Qed.
