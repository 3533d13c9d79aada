(** C73: what examples/get.rs writes to stderr is a script that sets the variables. *)
From Verif.Model Require Import Base Str Path BMap Error Value De Serde Walk Load Get GetArgs ShellEscape.
From Verif.Spec Require Import StrSpec Utf8Spec GetSpec ShellSpec.
From Verif.Proof Require Import StrFacts GetProof ShellProof.

Definition heading : str := B "note: The following environment variables may affect the loaded values." ++ [newline].

(** Whatever the value, the shell reads it from its escaped form, *)
Theorem C73_value v : word (shell_escape v) v.
Proof. exact (escape_word v). Qed.
Print Assumptions C73_value.
(** and nothing else. *)
Theorem C73_value_unique v v' : word (shell_escape v) v' -> v' = v.
Proof. intros W. exact (proj1 (proj2 (word_unique _ _ W _ _ [] [] (escape_word v) eq_refl))). Qed.
Print Assumptions C73_value_unique.
Theorem C73_readings_agree t l l' : script t l -> script t l' -> l = l'.
Proof. intros S S'. exact (script_unique t l S l' S'). Qed.
Print Assumptions C73_readings_agree.
(** Only texts that are not empty and of these characters are written as they are. *)
Theorem C73_unchanged v : shell_escape v = v <-> v <> [] /\ Forall (fun c => In c (small ++ large ++ digits ++ B "-_=/,.+")) v.
Proof. exact (escape_same v). Qed.
Print Assumptions C73_unchanged.
(** The variables listed, in order, if their names are such that a shell can set them. *)
Theorem C73_script vars : (forall kv, In kv vars -> listed kv -> identifier (fst kv)) ->
  exists text keep, note shell_escape vars = heading ++ text
    /\ (forall kv, keep kv = true <-> listed kv) /\ script text (filter keep vars).
Proof.
  intros I. destruct (note_spec shell_escape vars) as (keep & K & E). eexists. exists keep. split; [exact E|]. split; [exact K|].
  apply listed_script. apply Forall_forall. intros kv H. apply filter_In in H as [H H']. apply I; [exact H|]. now apply K.
Qed.
Print Assumptions C73_script.
(** So the text tells the variables. *)
Theorem C73_decides vars vars' keep :
  (forall kv, keep kv = true <-> listed kv) ->
  (forall kv, In kv (vars ++ vars') -> listed kv -> identifier (fst kv)) ->
  note shell_escape vars = note shell_escape vars' -> filter keep vars = filter keep vars'.
Proof.
  intros K I E.
  destruct (C73_script vars) as (t & k & N & Hk & S); [intros kv H; apply I, in_or_app; auto|].
  destruct (C73_script vars') as (t' & k' & N' & Hk' & S'); [intros kv H; apply I, in_or_app; auto|].
  rewrite N, N' in E. apply app_inv_head in E. subst t'.
  assert (A : forall f g : str * str -> bool, (forall kv, f kv = true <-> listed kv) -> (forall kv, g kv = true <-> listed kv) -> forall l, filter f l = filter g l).
  { intros f g F G l. apply filter_ext. intros kv. specialize (F kv). specialize (G kv). destruct (f kv), (g kv); tauto || (symmetry; tauto). }
  rewrite (A keep k K Hk), (A keep k' K Hk'). exact (script_unique _ _ S _ S').
Qed.
Print Assumptions C73_decides.
(** The whole program: if it ends well it has written nothing to stderr (help and version) or
    that. *)
Theorem C73_main show json version words f vars home_var home_dir cwd out t :
  (forall kv, In kv vars -> listed kv -> identifier (fst kv)) ->
  main show json shell_escape version words f vars home_var home_dir cwd = (out, Done t) ->
  (t = [] /\ (parse words = Help \/ parse words = Version))
  \/ exists text keep, t = heading ++ text /\ (forall kv, keep kv = true <-> listed kv) /\ script text (filter keep vars).
Proof.
  intros I. unfold main. destruct (parse words) as [[|] m| | |e].
  - unfold get. destruct (if m then _ else _) as [o r]. destruct r as [[]|e|x]; try discriminate. intros [= _ <-]. right.
    destruct (C73_script vars I) as (text & k & H). exists text, k. exact H.
  - destruct m; [|discriminate]. destruct (load_with_cwd f home_var home_dir cwd) as [c|e|x]; try discriminate. intros [= _ <-]. right.
    destruct (C73_script vars I) as (text & k & H). exists text, k. exact H.
  - intros [= _ <-]. auto.
  - intros [= _ <-]. auto.
  - discriminate.
Qed.
Print Assumptions C73_main.

(** Names are written as they are.  That of a variable for an alias with a dash cannot be set
    in a shell, and the line is read as a command. *)
Theorem C73_names_refuted : exists kv, listed kv /\
  forall text, note shell_escape [kv] = heading ++ text -> forall l, ~ script text l.
Proof.
  exists (B "CARGO_ALIAS_my-alias", B "b"). split.
  - split; [|split].
    + apply Utf8Proof.utf8_valid_iff. reflexivity.
    + apply Utf8Proof.utf8_valid_iff. reflexivity.
    + exists (B "ALIAS_my-alias"). reflexivity.
  - intros text E l S.
    assert (T : text = B "CARGO_ALIAS_my-alias" ++ "="%char :: B "b" ++ [line_end]).
    { apply (app_inv_head heading). rewrite <- E. vm_compute. reflexivity. }
    clear E. subst text. inversion S as [|n w v rest l1 I W S1 E].
    change (n ++ "="%char :: w ++ line_end :: rest = B "CARGO_ALIAS_my-alias" ++ "="%char :: B "b" ++ [line_end]) in E.
    apply equals_split in E as [E _].
    + subst n. destruct I as (c & t & E & _ & F). injection E as <- <-. rewrite Forall_forall in F.
      specialize (F "-"%char). assert (H : In "-"%char (tl (B "CARGO_ALIAS_my-alias"))) by (vm_compute; auto 30). specialize (F H). no_byte F.
    + exact (identifier_no_equals n I).
    + vm_compute. intuition discriminate.
Qed.
Print Assumptions C73_names_refuted.

(** ** Concrete cases *)
Example C73_ex :
  note shell_escape [(B "PATH", B "/bin"); (B "CARGO_BUILD_RUSTFLAGS", B "-C a='b!'"); (B "CARGO_BUILD_TARGET", B "x86_64-unknown-linux-gnu"); (B "CARGO_A", [])]
  = heading ++ B "CARGO_BUILD_RUSTFLAGS='-C a='\''b'\!''\'''" ++ [newline]
    ++ B "CARGO_BUILD_TARGET=x86_64-unknown-linux-gnu" ++ [newline] ++ B "CARGO_A=''" ++ [newline].
Proof. vm_compute. reflexivity. Qed.
Example C73_ex_names : Forall identifier [B "CARGO_BUILD_RUSTFLAGS"; B "CARGO_BUILD_TARGET"; B "CARGO_A"].
Proof.
  repeat (constructor; [eexists; eexists; split; [reflexivity|]; split; [vm_compute; auto 60|repeat (constructor; [vm_compute; auto 80|]); constructor]|]). constructor.
Qed.
(** A value with a line end goes over two lines. *)
Example C73_ex_lines :
  shell_escape (B "a" ++ [newline] ++ B "b") = B "'a" ++ [newline] ++ B "b'" /\ word (B "'a" ++ [newline] ++ B "b'") (B "a" ++ [newline] ++ B "b").
Proof. split; [reflexivity|]. exact (C73_value (B "a" ++ [newline] ++ B "b")). Qed.
(** Other ways to write a word are read as well, and an unquoted dollar sign is not. *)
Example C73_ex_word : word (B "a\ 'b c'd") (B "a b cd") /\ (forall v, ~ word (B "$x") v).
Proof.
  split.
  - apply word_plain; [vm_compute; auto 60|]. apply word_escaped; [discriminate|].
    apply (word_quoted (B "b c") (B "d") (B "d")); [vm_compute; intuition discriminate|]. apply word_plain; [vm_compute; auto 60|constructor].
  - intros v W. inversion W as [|c w v1 O W1 E|c w v1 O W1 E|q w v1 O W1 E]. no_byte O.
Qed.
