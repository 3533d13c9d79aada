(** C44, C45 and C51: errors, program output and lossy text. *)
From Verif.Model Require Import Base Str Path BMap Error Value De Context Load Process Resolve Easy.
From Verif.Spec Require Import StrSpec Utf8Spec ErrorSpec.
From Verif.Proof Require Import StrFacts Utf8Proof ErrorProof LossyProof.

(** ** C44 *)

(** An error directly beneath the context decides the kind. *)
Theorem C44_directly e : layers e = 0 -> kind_tells e.
Proof. intros L. apply tells_iff. now destruct e as [| | |m [[]|]]. Qed.
Print Assumptions C44_directly.
(** Whatever loading and the queries report, the kind tells the cause, however deep. *)
Theorem C44_loading f p cwd e : easy_load f p cwd = Err e -> kind_tells e.
Proof. intros H. apply tells_iff. exact (t_easy_load f p cwd e H). Qed.
Print Assumptions C44_loading.
Theorem C44_loading_with_options f p cwd o e : easy_load_with_options f p cwd o = Err e -> kind_tells e.
Proof. intros H. apply tells_iff. exact (t_easy_load_with f p cwd o e H). Qed.
Print Assumptions C44_loading_with_options.
Theorem C44_queries pr w c q s e s' : run_query pr w c q s = (Err e, s') -> kind_tells e.
Proof. intros H. apply tells_iff. exact (t_query pr w c q s e s' H). Qed.
Print Assumptions C44_queries.
(** Message and source are those of the error. *)
Theorem C44_contents e :
  io_message (io_error_of e) = message e /\ io_source (io_error_of e) = error_source e
  /\ (forall p, e = ECfgExprParse p -> ie_payload (io_error_of e) = PCfg p)
  /\ (forall k, e = EIo k -> io_error_of e = mkIoError k PNone).
Proof. destruct e as [k|p|m|m [[]|]]; repeat split; intros; try discriminate; cbn; congruence. Qed.
Print Assumptions C44_contents.
(** For errors in general this is false: a second layer of context hides the cause. *)
Theorem C44_any_error_refuted : exists e, ~ kind_tells e.
Proof.
  exists (EWithContext (MText (B "outer")) (Some (SCrate (EWithContext (MText (B "inner")) (Some (SIo KNotFound)))))).
  intros (H & _). specialize (H KNotFound (io_deeper _ _ _ (io_cause _ _))). discriminate H.
Qed.
Print Assumptions C44_any_error_refuted.

(** Concrete errors of the three kinds. *)
Definition no_files : fs := mkFsys (fun p => str_eqb p (B "/w/.cargo/config")) (fun _ => ReadErr KPermissionDenied).
Definition bad_file : fs := mkFsys (fun p => str_eqb p (B "/w/.cargo/config")) (fun _ => ReadBad).
Definition bad_var : process_env := mkProcess [(B "CARGO_BUILD_JOBS", B "many")] None.
Definition plain_env : process_env := mkProcess [] None.
Definition kind_of {A} (r : result A) : option io_kind :=
  match r with Err e => Some (ie_kind (io_error_of e)) | _ => None end.
Example C44_example :
  kind_of (easy_load no_files plain_env (inl (B "/w"))) = Some KPermissionDenied
  /\ kind_of (easy_load bad_file plain_env (inl (B "/w"))) = Some KInvalidData
  /\ kind_of (easy_load no_files plain_env (inr KNotFound)) = Some KNotFound
  /\ kind_of (easy_load no_files bad_var (inl (B "/elsewhere"))) = Some KOther
  /\ kind_of (read_outcome (mkCommand (B "rustc") [B "-vV"]) (NotStarted KNotFound)) = Some KNotFound.
Proof. vm_compute. repeat split. Qed.

(** ** C45 *)
Theorem C45_output c o s :
  read_outcome c o = Ok s <->
  exists status out err, o = Exited true status out err /\ utf8 out /\ without_newlines out s.
Proof. exact (read_ok c o s). Qed.
Print Assumptions C45_output.
Theorem C45_failure c o e : read_outcome c o = Err e <-> failure c o e.
Proof. exact (read_err c o e). Qed.
Print Assumptions C45_failure.
(** There is no other outcome, and what is read is unique. *)
Theorem C45_total c o :
  (exists s, read_outcome c o = Ok s) \/ (exists e, read_outcome c o = Err e /\ failure c o e).
Proof.
  destruct (read_outcome c o) as [s|e|p] eqn:E; [eauto| |now apply read_panic in E].
  right. exists e. split; [reflexivity|now apply read_err].
Qed.
Print Assumptions C45_total.
(** Every failure names the command. *)
Theorem C45_names_command c o e :
  read_outcome c o = Err e -> exists a b, message e = Some (MText (a ++ shown c ++ b)).
Proof.
  intros H. apply read_err in H. destruct H as [k|status out err N|status out err o' e' Ho He]; cbn [message].
  - do 2 eexists. reflexivity.
  - exists (B "failed to parse output from "), []. now rewrite app_nil_r.
  - do 2 eexists. reflexivity.
Qed.
Print Assumptions C45_names_command.
Definition ex_cmd : command := mkCommand (B "rustc") [B "-vV"].
Example C45_example :
  read_outcome ex_cmd (Exited true (B "exit status: 0") (B "a" ++ [nl; sp; cr; nl; nl]) (B "warning"))
    = Ok (B "a" ++ [nl; sp])
  /\ read_outcome ex_cmd (Exited false (B "exit status: 1") (B "out") [sp; nl])
     = Err (EOther (MText (B "process didn't exit successfully: `rustc -vV` (exit status: 1)"
                           ++ [nl] ++ B "--- stdout" ++ [nl] ++ B "out")))
  /\ is_err (read_outcome ex_cmd (Exited true (B "exit status: 0") [byte_of 255] [])) = true
  /\ shown ex_cmd = B "`rustc -vV`".
Proof. vm_compute. repeat split. Qed.

(** ** C51 *)
Theorem C51_lossy s t : lossy s = t <-> repaired s t.
Proof. exact (lossy_iff s t). Qed.
Print Assumptions C51_lossy.
Theorem C51_text s : utf8 (lossy s).
Proof. exact (repaired_utf8 _ _ (lossy_repaired s)). Qed.
Print Assumptions C51_text.
Theorem C51_same s : lossy s = s <-> utf8 s.
Proof. exact (lossy_same s). Qed.
Print Assumptions C51_same.
(** Different names may be shown alike. *)
Theorem C51_injective_refuted : exists s s', s <> s' /\ lossy s = lossy s'.
Proof. exists (bytes [255])%N, (bytes [254])%N. split; [discriminate|reflexivity]. Qed.
Print Assumptions C51_injective_refuted.
Example C51_example :
  map (fun l => map nb (lossy (bytes l)))
    [[104; 195; 40]; [240; 159; 146]; [237; 160; 128]; [226; 130; 172]]%N
  = [[104; 239; 191; 189; 40]; [239; 191; 189];
     [239; 191; 189; 239; 191; 189; 239; 191; 189]; [226; 130; 172]]%N.
Proof. vm_compute. reflexivity. Qed.
