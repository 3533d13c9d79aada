(** C65: what Debug output shows. *)
From Verif.Model Require Import Base Str BMap Error Value De Debug EasyTypes Triple Context Resolve Easy EasySerde Serde Walk Load.
From Verif.Spec Require Import StrSpec ConfigSpec RootSpec SerdeSpec SecretSpec FinalSpec DebugSpec.
From Verif.Proof Require Import StrFacts BMapFacts SecretProof DebugProof.
From Verif.Props Require Import Load Secrets Clash.

(** ** The configuration as read *)

(** A scalar key is shown at its place exactly if it is set, with its value and its
    origin; of a token only the origin is shown. *)
Theorem C65_scalar {A} (k : scalar_key A) c :
  ~ of_env k -> both (shows k) (look k c) (at_debug (place k) (dbg_config c)).
Proof. exact (scalar_shown k c). Qed.
Print Assumptions C65_scalar.

(** Lists, programs and variables: every word with its origin, and in which form
    the key was written. *)
Theorem C65_list k c : both (shown_list k) (look_list k c) (at_debug (list_place k) (dbg_config c)).
Proof. exact (list_shown k c). Qed.
Print Assumptions C65_list.
Theorem C65_program k c : both shown_program (look_program k c) (at_debug (program_place k) (dbg_config c)).
Proof. exact (program_shown k c). Qed.
Print Assumptions C65_program.
Theorem C65_env c n : at_debug [B "env"; n] (dbg_config c) = option_map shown_entry (bget n (c_env c)).
Proof. exact (env_shown c n). Qed.
Print Assumptions C65_env.

(** Two configurations are shown alike exactly if they are the same up to the text of
    tokens. *)
Theorem C65_complete c c' : dbg_config c = dbg_config c' <-> hide c = hide c'.
Proof. split; [exact (config_inj c c')|exact (C40_debug c c')]. Qed.
Print Assumptions C65_complete.

(** Entries shown in the report of a failed merge: equal views, equal entries. *)
Theorem C65_entry e e' : dbg_env_config_value e = dbg_env_config_value e' -> e = e'.
Proof. exact (env_inj e e'). Qed.
Print Assumptions C65_entry.
Theorem C65_table t t' : dbg_target t = dbg_target t' -> t = t'.
Proof. exact (target_inj t t'). Qed.
Print Assumptions C65_table.

(** ** The resolved configuration *)
Theorem C65_easy_scalar {A} (k : scalar_key A) c s :
  field k = true -> both (shown_plain k) (easy_look k c) (at_debug (place k) (edbg_config c s)).
Proof. exact (easy_shown k c s). Qed.
Print Assumptions C65_easy_scalar.
Theorem C65_easy_lists c s :
  (forall n, at_debug [B "alias"; n] (edbg_config c s)
     = option_map (fun l => shown_texts "StringList" "list" (esl_list l)) (bget n (ec_alias c)))
  /\ at_debug [B "build"; B "rustflags"] (edbg_config c s)
     = option_map (fun f => shown_texts "Flags" "flags" (ef_flags f)) (eb_rustflags (ec_build c))
  /\ at_debug [B "build"; B "rustdocflags"] (edbg_config c s)
     = option_map (fun f => shown_texts "Flags" "flags" (ef_flags f)) (eb_rustdocflags (ec_build c))
  /\ at_debug [B "build"; B "target"] (edbg_config c s)
     = option_map (fun l => DList (map shown_triple l)) (eb_target (ec_build c))
  /\ at_debug [B "doc"; B "browser"] (edbg_config c s) = option_map shown_command (ed_browser (ec_doc c))
  /\ (forall n, at_debug [B "env"; n] (edbg_config c s) = option_map shown_variable (bget n (ec_env c))).
Proof. exact (easy_lists_shown c s). Qed.
Print Assumptions C65_easy_lists.

(** Two resolved configurations are shown alike exactly if they are the same up to the
    text of tokens, started from the same variables, program, directories, and have
    remembered the same answers. *)
Theorem C65_easy_complete c c' s s' :
  edbg_config c s = edbg_config c' s' <-> (forall x, hide_easy c x = hide_easy c' x) /\ same_cells c c' s s'.
Proof. split; [exact (econfig_inj c c' s s')|intros [H K]; exact (econfig_same c c' s s' H K)]. Qed.
Print Assumptions C65_easy_complete.

(** ** Examples *)
Definition shown_ex : config := of_toml (tab [
  ("build", tab [("rustflags", arr ["-a"; "b"]); ("target-dir", TomlStr (B "out"))]);
  ("env", tab [("A", TomlStr (B "1")); ("B", tab [("value", TomlStr (B "4")); ("force", TomlBool true)])]);
  ("registry", tab [("token", TomlStr (B "secret")); ("default", TomlStr (B "mine"))]);
  ("term", tab [("progress", tab [("when", TomlStr (B "never"))])])]%string).
Definition plainly (x : dbg) : dbg := DStruct "Value" [("val", x); ("definition", DUnit "None")]%string.
Example C65_ex_scalars :
  look BuildTargetDir shown_ex = Some (mkValue (B "out") None)
  /\ at_debug (place BuildTargetDir) (dbg_config shown_ex) = Some (plainly (DStr (B "out")))
  /\ at_debug (place TermProgressWhen) (dbg_config shown_ex) = Some (plainly (DUnit "Never"))
  /\ at_debug (place RegistryToken) (dbg_config shown_ex) = Some (plainly (DStr (B "[REDACTED]")))
  /\ at_debug (place BuildRustc) (dbg_config shown_ex) = None.
Proof. vm_compute. repeat split. Qed.
Example C65_ex_list :
  at_debug (list_place BuildRustflags) (dbg_config shown_ex)
  = Some (DStruct "Flags" [("flags", DList [plainly (DStr (B "-a")); plainly (DStr (B "b"))]);
                           ("deserialized_repr", DUnit "Array")]%string).
Proof. vm_compute. reflexivity. Qed.
Example C65_ex_env :
  at_debug [B "env"; B "A"] (dbg_config shown_ex) = Some (DTuple "Value" [plainly (DStr (B "1"))])
  /\ at_debug [B "env"; B "B"] (dbg_config shown_ex)
     = Some (DStruct "Table" [("value", plainly (DStr (B "4")));
                              ("force", DTuple "Some" [plainly (DBool true)]); ("relative", DUnit "None")]%string).
Proof. vm_compute. split; reflexivity. Qed.
Definition shown_program_ex : config := of_toml (tab [("doc"%string, tab [("browser"%string, TomlStr (B "firefox -p x"))])]).
Example C65_ex_program :
  at_debug (program_place DocBrowser) (dbg_config shown_program_ex)
  = Some (DStruct "PathAndArgs" [("path", DTuple "ConfigRelativePath" [plainly (DStr (B "firefox"))]);
                                 ("args", DList [plainly (DStr (B "-p")); plainly (DStr (B "x"))]);
                                 ("deserialized_repr", DUnit "String")]%string).
Proof. vm_compute. reflexivity. Qed.

Definition shown_disk : fs :=
  mkFsys (fun p => str_eqb p (B "/w/.cargo/config.toml"))
         (fun p => ReadTree (tab [("build", tab [("rustflags", arr ["-a"]); ("target-dir", TomlStr (B "out")); ("target", arr ["x"])]);
                                  ("registry", tab [("token", TomlStr (B "secret"))])]%string)).
Example C65_ex_easy : exists c,
  easy_load_with_options shown_disk (mkProcess [] None) (B "/w") options_default = Ok c
  /\ let t := edbg_config c (state_init (ec_cx c)) in
     at_debug (place BuildTargetDir) t = Some (DOs (B "/w/out"))
     /\ at_debug (place RegistryToken) t = Some (DStr (B "[REDACTED]"))
     /\ at_debug [B "build"; B "rustflags"] t = Some (DStruct "Flags" [("flags"%string, DList [DStr (B "-a")])])
     /\ at_debug [B "build"; B "target"] t
        = Some (DList [DStruct "TargetTripleRef" [("triple", DStr (B "x")); ("spec_path", DUnit "None")]%string])
     /\ at_debug (place BuildJobs) t = None.
Proof. eexists. split; [vm_compute; reflexivity|]. vm_compute. repeat split. Qed.
