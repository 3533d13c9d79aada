(** C85: comparing values, and showing where they come from. *)
From Coq Require Import RelationClasses.
From Verif.Model Require Import Base Str Path Error Value De EasyTypes Equal.
From Verif.Spec Require Import StrSpec PathSpec Utf8Spec RootSpec OriginSpec.
From Verif.Proof Require Import StrFacts RootProof EqualProof.

(** Two origins are equal when they are of one kind, whatever the file or variable. *)
Theorem C85_definition d d' : definition_eqb d d' = true <-> origin_of d = origin_of d'.
Proof. exact (definition_eqb_iff d d'). Qed.
Print Assumptions C85_definition.

(** Values: same content, and no origin or origins of one kind. *)
Theorem C85_value T (f : T -> T -> bool) R : (forall a b, f a b = true <-> R a b) ->
  forall v w, value_eqb f v w = true <-> alike R v w.
Proof. exact (value_eqb_iff f R). Qed.
Print Assumptions C85_value.
Theorem C85_relative_path v w : relative_path_eqb v w = true <-> alike eq v w.
Proof. exact (value_eqb_iff str_eqb eq str_eqb_eq v w). Qed.
Print Assumptions C85_relative_path.

(** A string never equals an array; arrays are compared one by one. *)
Theorem C85_string_or_array a b : soa_eqb a b = true <-> alike_lists a b.
Proof. exact (soa_eqb_iff a b). Qed.
Print Assumptions C85_string_or_array.

(** Resolved lists are equal when they are the same. *)
Theorem C85_flags a b : eflags_eqb a b = true <-> a = b.
Proof. destruct a, b. unfold eflags_eqb. rewrite strs_eqb. cbn. split; congruence. Qed.
Print Assumptions C85_flags.
Theorem C85_list a b : esl_eqb a b = true <-> a = b.
Proof. destruct a, b. unfold esl_eqb. rewrite strs_eqb. cbn. split; congruence. Qed.
Print Assumptions C85_list.

(** Programs are compared as paths, arguments byte by byte. *)
Theorem C85_command a b : epa_eqb a b = true <-> same_command a b.
Proof. exact (epa_eqb_iff a b). Qed.
Print Assumptions C85_command.

(** All of these are reflexive, symmetric and transitive. *)
Theorem C85_equivalences :
  Equivalence (fun d d' => definition_eqb d d' = true)
  /\ Equivalence (fun v w => relative_path_eqb v w = true)
  /\ Equivalence (fun a b => soa_eqb a b = true)
  /\ Equivalence (fun a b => epa_eqb a b = true).
Proof.
  assert (T : forall A (R S : A -> A -> Prop), (forall a b, R a b <-> S a b) -> Equivalence S -> Equivalence R).
  { intros A R S H [r s t]. split.
    - intros a. apply H, r.
    - intros a b K. apply H, s, H, K.
    - intros a b c K L. apply H. apply t with b; now apply H. }
  split; [|split; [|split]].
  - apply (T _ _ _ C85_definition). split; [easy | intros ? ?; congruence | intros ? ? ?; congruence].
  - apply (T _ _ _ C85_relative_path), alike_equivalence, eq_equivalence.
  - exact (T _ _ _ C85_string_or_array alike_lists_equivalence).
  - exact (T _ _ _ C85_command same_command_equivalence).
Qed.
Print Assumptions C85_equivalences.

(** Equal values stand for one path and one program if they start from the same directories ... *)
Theorem C85_same_start v w cwd :
  relative_path_eqb v w = true -> (forall r, starts_at cwd v r <-> starts_at cwd w r) ->
  (forall p, path_at cwd v p <-> path_at cwd w p) /\ (forall p, program_at cwd v p <-> program_at cwd w p).
Proof.
  intros H S. apply C85_relative_path in H.
  assert (H' : alike eq w v) by (destruct H; split; congruence).
  split; intros p; split.
  - exact (path_moves cwd v w p H (fun r => proj1 (S r))).
  - exact (path_moves cwd w v p H' (fun r => proj2 (S r))).
  - exact (program_moves cwd v w p H (fun r => proj1 (S r))).
  - exact (program_moves cwd w v p H' (fun r => proj2 (S r))).
Qed.
Print Assumptions C85_same_start.

(** ... so always if they do not stand in files ... *)
Theorem C85_same_path v w cwd :
  relative_path_eqb v w = true -> ~ in_a_file v -> ~ in_a_file w ->
  (forall p, path_at cwd v p <-> path_at cwd w p) /\ (forall p, program_at cwd v p <-> program_at cwd w p).
Proof.
  intros H N M. apply (C85_same_start v w cwd H). apply C85_relative_path in H.
  assert (H' : alike eq w v) by (destruct H; split; congruence).
  intros r. split; [exact (outside_files cwd v w r H N M) | exact (outside_files cwd w v r H' M N)].
Qed.
Print Assumptions C85_same_path.

(** ... but not in general: neither for two files ... *)
Theorem C85_same_path_refuted : exists v w cwd p q,
  relative_path_eqb v w = true /\ path_at cwd v p /\ path_at cwd w q /\ ~ same_place p q.
Proof.
  exists (mkValue (B "out") (Some (DefPath (B "/a/.cargo/config.toml")))),
    (mkValue (B "out") (Some (DefPath (B "/b/.cargo/config.toml")))), (B "/w"), (B "/a/out"), (B "/b/out").
  split; [vm_compute; reflexivity|]. split; [|split].
  - apply (path_ok (E := error)). vm_compute. reflexivity.
  - apply (path_ok (E := error)). vm_compute. reflexivity.
  - intros H. apply PathFacts.path_eqb_same in H. vm_compute in H. discriminate.
Qed.
Print Assumptions C85_same_path_refuted.

(** ... nor for an option and a file given as an option. *)
Theorem C85_options_refuted : exists v w cwd p q,
  def v = Some (DefCli None) /\ relative_path_eqb v w = true /\ path_at cwd v p /\ path_at cwd w q /\ ~ same_place p q.
Proof.
  exists (mkValue (B "out") (Some (DefCli None))),
    (mkValue (B "out") (Some (DefCli (Some (B "/b/.cargo/config.toml"))))), (B "/w"), (B "/w/out"), (B "/b/out").
  split; [reflexivity|]. split; [vm_compute; reflexivity|]. split; [|split].
  - apply (path_ok (E := error)). vm_compute. reflexivity.
  - apply (path_ok (E := error)). vm_compute. reflexivity.
  - intros H. apply PathFacts.path_eqb_same in H. vm_compute in H. discriminate.
Qed.
Print Assumptions C85_options_refuted.

(** What is shown of an origin ... *)
Theorem C85_display d t : definition_display d = t <-> shown d t.
Proof. exact (display_iff d t). Qed.
Print Assumptions C85_display.

(** ... tells the file, the variable or the option if files have absolute names that are text ... *)
Theorem C85_display_tells d d' : plainly_named d -> plainly_named d' ->
  definition_display d = definition_display d' -> source_of d = source_of d'.
Proof. exact (display_source d d'). Qed.
Print Assumptions C85_display_tells.

(** ... but not otherwise. *)
Theorem C85_display_refuted : exists d d',
  definition_display d = definition_display d' /\ origin_of d <> origin_of d' /\ source_of d <> source_of d'.
Proof.
  exists (DefPath (B "environment variable `X`")), (DefEnv (B "X")). split; [vm_compute; reflexivity|]. split; discriminate.
Qed.
Print Assumptions C85_display_refuted.

Example C85_ex_same :
  let v := mkValue (B "out") (Some (DefEnv (B "CARGO_TARGET_DIR"))) in
  let w := mkValue (B "out") (Some (DefEnv (B "CARGO_BUILD_TARGET_DIR"))) in
  relative_path_eqb v w = true /\ ~ in_a_file v /\ ~ in_a_file w /\ v <> w
  /\ resolve_as_path (E := error) v (B "/w") = Ok (B "/w/out").
Proof.
  split; [vm_compute; reflexivity|]. split; [intros [p [H|H]]; discriminate|]. split; [intros [p [H|H]]; discriminate|].
  split; [discriminate | vm_compute; reflexivity].
Qed.

Example C85_ex_different :
  let file := Some (DefPath (B "/a/.cargo/config.toml")) in
  relative_path_eqb (mkValue (B "out") file) (mkValue (B "out") (Some (DefEnv (B "X")))) = false
  /\ relative_path_eqb (mkValue (B "out") file) (mkValue (B "out") None) = false
  /\ soa_eqb (SoaString (mkValue (B "a") file)) (SoaArray [mkValue (B "a") file]) = false
  /\ soa_eqb (SoaArray [mkValue (B "a") file]) (SoaArray [mkValue (B "a") (Some (DefPath (B "/b")))]) = true
  /\ epa_eqb (mkEpa (B "/bin//sh") [B "-c"]) (mkEpa (B "/bin/./sh/") [B "-c"]) = true
  /\ epa_eqb (mkEpa (B "/bin/sh") [B "a/b"]) (mkEpa (B "/bin/sh") [B "a//b"]) = false.
Proof. repeat split; vm_compute; reflexivity. Qed.

Example C85_ex_display :
  map definition_display
    [DefPath (B "/a/.cargo/config.toml"); DefEnv (B "CARGO_BUILD_RUSTC"); DefCli None; DefCli (Some (B "/c.toml"))]
  = [B "/a/.cargo/config.toml"; B "environment variable `CARGO_BUILD_RUSTC`"; B "--config cli option"; B "/c.toml"]
  /\ plainly_named (DefPath (B "/a/.cargo/config.toml")).
Proof.
  split; [vm_compute; reflexivity|]. split; [eexists; reflexivity|].
  apply LossyProof.lossy_same. vm_compute. reflexivity.
Qed.
