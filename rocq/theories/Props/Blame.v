(** What errors are about (C56). *)
From Verif.Model Require Import Base Str Path BMap Error Value De EasyTypes Triple Context ApplyEnv Load Process
  Resolve Easy Serde ErrorText.
From Verif.Spec Require Import StrSpec ConfigSpec LoadSpec EnvSpec FinalSpec BlameSpec.
From Verif.Proof Require Import BlameProof.

(** ** C56 *)

(** The variables make it fail exactly if one of them cannot be read; the error is about the
    first of them. *)
Theorem C56_variable c cx e :
  from_unresolved c cx = Err e <->
  exists name v, first_unreadable (cx_env cx) (is_some (look_program DocBrowser c)) name v /\ complaint name v e.
Proof. rewrite unresolved_err. apply env_blame. Qed.
Print Assumptions C56_variable.
(** There is one such variable, and one thing to say about it. *)
Theorem C56_one_variable env given n v n' v' :
  first_unreadable env given n v -> first_unreadable env given n' v' -> n = n' /\ v = v'.
Proof. exact (first_unreadable_unique env given n v n' v'). Qed.
Print Assumptions C56_one_variable.
Theorem C56_one_complaint n v e e' : complaint n v e -> complaint n v e' -> e = e'.
Proof. exact (complaint_unique n v e e'). Qed.
Print Assumptions C56_one_complaint.

(** A failed load: a file stops it, or a variable does after all files have been accepted. *)
Theorem C56_load f p cwd o env home ps e :
  environment p o env -> home_of p o cwd home -> visited f cwd home ps ->
  easy_load_with_options f p cwd o = Err e ->
  (exists pre file post l, ps = pre ++ file :: post /\ reads f pre l /\ same_shapes (map snd l) /\ stops_at f pre file e)
  \/ (exists l name v, reads f ps l /\ same_shapes (map snd l)
      /\ a_first_unreadable env (browser_in l) name v /\ complaint name v e).
Proof. exact (load_blame f p cwd o env home ps e). Qed.
Print Assumptions C56_load.
(** In the order of [in_turn] the first counts, if nothing is wrong with an alias or a registry
    (for those the order of the environment decides, which is not specified). *)
Theorem C56_load_in_turn f p cwd o env home ps l name v e :
  environment p o env -> home_of p o cwd home -> visited f cwd home ps -> reads f ps l -> same_shapes (map snd l) ->
  (forall n' v', env_get n' env = Some v' -> ~ entry_unreadable n' v') ->
  first_defined (in_turn env (browser_in l)) = Some name -> env_get name env = Some v -> complaint name v e ->
  easy_load_with_options f p cwd o = Err e.
Proof. exact (load_blame_fixed f p cwd o env home ps l name v e). Qed.
Print Assumptions C56_load_in_turn.

(** [Config::load] fails also without a current directory, for the reason given by the system
    and before anything else. *)
Theorem C56_directory io dbg f p cwd e :
  easy_load f p cwd = Err e ->
  (exists k, cwd = inr k /\ error_text io dbg e = B "failed to get current directory" /\ error_source e = Some (SIo k))
  \/ exists d, cwd = inl d /\ easy_load_with_options f p d options_default = Err e.
Proof.
  intros H. destruct cwd as [d|k]; [right; exists d; now split|left]. exists k. injection H as <-. now repeat split.
Qed.
Print Assumptions C56_directory.
Theorem C56_no_directory f p k : exists e, easy_load f p (inr k) = Err e.
Proof. eexists. reflexivity. Qed.
Print Assumptions C56_no_directory.

(** The text has the name of the variable, or of the file, in it. *)
Theorem C56_variable_named io dbg n v e :
  complaint n v e -> utf8_valid v = false \/ (n <> protocol_variable /\ n <> B "BROWSER") ->
  mentions (quoted_name n) (error_text io dbg e).
Proof. exact (complaint_names io dbg n v e). Qed.
Print Assumptions C56_variable_named.
Theorem C56_file_named io dbg f pre p e : stops_at f pre p e -> mentions (quoted p) (error_text io dbg e).
Proof. exact (stops_names io dbg f pre p e). Qed.
Print Assumptions C56_file_named.

(** *** Examples *)
Definition c56_cx (l : list (string * str)) : context :=
  mkContext (map (fun x => (B (fst x), snd x)) l) (B "cargo") (B "/p") None None None.
Definition c56_bad : str := bytes [255]%N.
Definition c56_error (l : list (string * str)) : option error :=
  match from_unresolved config_default (c56_cx l) with Err e => Some e | _ => None end.
(** The order is not that of the environment ... *)
Example C56_ex_order :
  c56_error [("CARGO_TERM_COLOR", B "red"); ("CARGO_NET_RETRY", B "-1"); ("CARGO_BUILD_JOBS", B "4");
             ("CARGO_HTTP_TIMEOUT", c56_bad)]%string
  = Some (not_parsed (B "CARGO_HTTP_TIMEOUT") (SVarError c56_bad))
  /\ first_unreadable
       (cx_env (c56_cx [("CARGO_TERM_COLOR", B "red"); ("CARGO_NET_RETRY", B "-1"); ("CARGO_BUILD_JOBS", B "4");
                        ("CARGO_HTTP_TIMEOUT", c56_bad)]%string)) false (B "CARGO_HTTP_TIMEOUT") c56_bad
  /\ complaint (B "CARGO_HTTP_TIMEOUT") c56_bad (not_parsed (B "CARGO_HTTP_TIMEOUT") (SVarError c56_bad)).
Proof.
  split; [vm_compute; reflexivity|]. split.
  - right. split; [|split; vm_compute; reflexivity].
    intros n v I [[[m ->]|[[m ->]|[[m ->]| ->]]] _]; cbv in I; intuition discriminate.
  - apply not_unicode; [reflexivity|]. intros [H|[m H]]; discriminate H.
Qed.
(** ... but entries come before everything else. *)
Example C56_ex_entry :
  c56_error [("CARGO_BUILD_JOBS", B "x"); ("CARGO_REGISTRIES_R_TOKEN", c56_bad); ("CARGO_ALIAS_B", c56_bad)]%string
  = Some (not_parsed (B "CARGO_REGISTRIES_R_TOKEN") (SText (B "environment variable was not valid unicode: [REDACTED]")))
  /\ complaint (B "CARGO_REGISTRIES_R_TOKEN") c56_bad
       (not_parsed (B "CARGO_REGISTRIES_R_TOKEN") (SText (B "environment variable was not valid unicode: [REDACTED]"))).
Proof. split; [vm_compute; reflexivity|]. apply secret_not_unicode; [reflexivity|]. right. now exists (B "R"). Qed.
Example C56_ex_choice :
  c56_error [("CARGO_TERM_QUIET", B "true"); ("CARGO_TERM_COLOR", B "red"); ("CARGO_TERM_PROGRESS_WIDTH", B "w")]%string
  = Some (not_parsed (B "CARGO_TERM_COLOR")
      (SCrate (EOther (MText (B "must be auto, always, or never, but found `red`")))))
  /\ complaint (B "CARGO_TERM_COLOR") (B "red") (not_parsed (B "CARGO_TERM_COLOR")
      (SCrate (EOther (MText (B "must be auto, always, or never, but found `red`"))))).
Proof.
  split; [vm_compute; reflexivity|].
  apply (no_choice (B "CARGO_TERM_COLOR") (B "red") (B "auto, always, or never")); [reflexivity|cbn; auto].
Qed.
Example C56_ex_number :
  c56_error [("CARGO_TERM_VERBOSE", B "yes")]%string = Some (not_parsed (B "CARGO_TERM_VERBOSE") SParse)
  /\ complaint (B "CARGO_TERM_VERBOSE") (B "yes") (not_parsed (B "CARGO_TERM_VERBOSE") SParse).
Proof. split; [vm_compute; reflexivity|]. apply no_number; [reflexivity|cbn; auto 20]. Qed.

(** A load that fails because of a file, and one because of a variable. *)
Definition c56_fs (near far : read_result) : fs :=
  mkFsys (fun p => str_eqb p (B "/p/.cargo/config.toml") || str_eqb p (B "/.cargo/config"))
       (fun p => if str_eqb p (B "/p/.cargo/config.toml") then near else far).
Definition c56_browser : read_result :=
  ReadTree (TomlTab [(B "doc", TomlTab [(B "browser", TomlStr (B "firefox"))])]).
Definition c56_process (l : list (string * string)) : process_env :=
  mkProcess (map (fun x => (B (fst x), B (snd x))) l) None.
Definition c56_load near far l := easy_load_with_options (c56_fs near far) (c56_process l) (B "/p") options_default.
Example C56_ex_load :
  c56_load (ReadTree (TomlTab [])) (ReadErr KPermissionDenied) [("CARGO_BUILD_JOBS", "x")]%string
  = Err (EWithContext (MText (B "failed to read `/.cargo/config`")) (Some (SIo KPermissionDenied)))
  /\ c56_load (ReadTree (TomlTab [])) c56_browser [("BROWSER", " "); ("CARGO_TERM_COLOR", "x")]%string
  = Err (not_parsed (B "CARGO_TERM_COLOR") (SCrate (EOther (MText (B "must be auto, always, or never, but found `x`")))))
  /\ c56_load (ReadTree (TomlTab [])) (ReadTree (TomlTab [])) [("BROWSER", " "); ("CARGO_TERM_COLOR", "x")]%string
  = Err (EWithContext (MText (B "invalid length 0, expected at least one element")) None).
Proof. repeat split; vm_compute; reflexivity. Qed.

(** Two variables are not named if their text is Unicode. *)
Theorem C56_always_named_refuted :
  exists n v e, complaint n v e /\ first_unreadable [(n, v)] false n v
  /\ (forall c cx, cx_env cx = [(n, v)] -> look_program DocBrowser c = None -> from_unresolved c cx = Err e)
  /\ forall io dbg, ~ mentions n (error_text io dbg e).
Proof.
  exists (B "BROWSER"), (B " "). eexists.
  assert (C : complaint (B "BROWSER") (B " ") (EWithContext (MText (B "invalid length 0, expected at least one element")) None))
    by now apply no_program.
  assert (F : first_unreadable [(B "BROWSER", B " ")] false (B "BROWSER") (B " ")).
  { right. split; [|split; vm_compute; reflexivity].
    intros n v [I|[]] [K _]. apply (f_equal fst) in I. cbn [fst] in I. subst n.
    destruct K as [[m H]|[[m H]|[[m H]|H]]]; discriminate H. }
  split; [exact C|]. split; [exact F|]. split.
  - intros c cx E D. apply C56_variable. exists (B "BROWSER"), (B " "). rewrite E, D. now split.
  - intros io dbg (a & b & H). cbn [error_text msg_text] in H.
    assert (K : forall l : str, ~ In "W"%char l -> l <> a ++ B "BROWSER" ++ b).
    { intros l N ->. apply N. apply in_or_app. right. apply in_or_app. left. cbn. auto 10. }
    revert H. apply K. cbn. intuition discriminate.
Qed.
Print Assumptions C56_always_named_refuted.
Example C56_ex_unnamed :
  c56_error [("CARGO_REGISTRIES_CRATES_IO_PROTOCOL", B "ftp")]%string
  = Some (EOther (MText (B "must be git or sparse, but found `ftp`"))).
Proof. vm_compute. reflexivity. Qed.
