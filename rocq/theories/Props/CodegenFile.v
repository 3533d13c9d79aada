(** C80: the text of generated files, and the files they are generated from. *)
From Coq Require Import ZArith.
From Verif.Model Require Import Base Str Path CodegenFile.
From Verif.Spec Require Import StrSpec PathSpec CodegenFileSpec.
From Verif.Proof Require Import StrFacts CodegenFileProof.

(** ** Formatting macro calls *)

(** It ends and does not fail, whatever the text; parentheses are counted in 32 bits. *)
Theorem C80_total (E : Type) pr s : (Z.of_nat (length s) < 2147483648)%Z ->
  exists s', format_macros (E := E) pr s = Ok s'.
Proof. exact (format_total pr s). Qed.
Print Assumptions C80_total.
(** What it gives, and nothing else. *)
Theorem C80_format (E : Type) pr s s' : (Z.of_nat (length s) < 2147483648)%Z ->
  format_macros (E := E) pr s = Ok s' <-> formatted s s'.
Proof. exact (format_spec pr s s'). Qed.
Print Assumptions C80_format.
(** Only spaces go, and no others come; without a macro call nothing changes. *)
Theorem C80_spaces (E : Type) pr s s' : (Z.of_nat (length s) < 2147483648)%Z ->
  format_macros (E := E) pr s = Ok s' ->
  no_spaces s' = no_spaces s /\ length s' <= length s /\ (~ within (B "!(") s -> s' = s).
Proof.
  intros R F. assert (K := proj1 (format_spec pr s s' R) F). split; [now apply formatted_spaces|]. split; [now apply formatted_shorter|].
  intros N. assert (P := proj2 (format_spec (E := E) pr s s R) (formatted_plain s N)). rewrite F in P. now injection P.
Qed.
Print Assumptions C80_spaces.
(** Formatting again changes nothing if no two spaces follow each other, .. *)
Theorem C80_again (E : Type) pr s s' : (Z.of_nat (length s) < 2147483648)%Z -> ~ within (B "  ") s ->
  format_macros (E := E) pr s = Ok s' -> format_macros (E := E) pr s' = Ok s'.
Proof.
  intros R N F. assert (K := proj1 (format_spec pr s s' R) F). assert (L := formatted_shorter _ _ K).
  apply format_spec; [lia|]. exact (formatted_again _ _ K N).
Qed.
Print Assumptions C80_again.
(** .. but it may otherwise. *)
Theorem C80_again_refuted : exists s s' s'', format_macros (E := unit) debug s = Ok s'
  /\ format_macros (E := unit) debug s' = Ok s'' /\ s'' <> s'.
Proof. exists (B "m!(a  > b)"), (B "m!(a > b)"), (B "m!(a> b)"). vm_compute. repeat split; discriminate. Qed.
Print Assumptions C80_again_refuted.
(** The contents of string literals in macro calls are not left alone. *)
Theorem C80_literal_refuted : exists lit lit', ~ In dquote lit /\ ~ In backslash lit /\ lit' <> lit
  /\ format_macros (E := unit) debug (B "m!(" ++ dquote :: lit ++ dquote :: B ")")
     = Ok (B "m!(" ++ dquote :: lit' ++ dquote :: B ")").
Proof.
  exists (B "a < b"), (B "a<b"). split; [vm_compute; intuition discriminate|]. split; [vm_compute; intuition discriminate|].
  split; [discriminate|vm_compute; reflexivity].
Qed.
Print Assumptions C80_literal_refuted.

Example C80_ex_format :
  format_macros (E := unit) debug (B "fn f() { x < y; m!(crate ::a::b < (u, crate ::c) >); crate ::d }")
  = Ok (B "fn f() { x < y; m!(crate::a::b<(u, crate::c)>); crate ::d }").
Proof. vm_compute. reflexivity. Qed.
Example C80_ex_formatted :
  formatted (B "x < y m!(crate ::a < () >) crate ::b") (B "x < y m!(crate::a<()>) crate ::b")
  /\ ~ within (B "  ") (B "x < y m!(crate ::a < () >) crate ::b").
Proof.
  split; [apply (format_spec (E := unit) debug); vm_compute; reflexivity|].
  intros (a & b & H). repeat (destruct a as [|? a]; [discriminate H|]; cbn in H; (discriminate H || injection H as _ H)).
Qed.

(** ** Writing *)

(** The header: four lines of comments (the licence, the generator, the function, a warning), an empty
    line, and the attribute that keeps the formatter away. *)
Theorem C80_header fn :
  header fn = flat_map (fun l => l ++ ["010"%char])
    [B "// SPDX-License-Identifier: Apache-2.0 OR MIT";
     B "// This file is @generated by cargo-config2-internal-codegen";
     B "// (" ++ fn ++ B " function at tools/codegen/src/main.rs).";
     B "// It is not intended for manual editing.";
     [];
     B "#![cfg_attr(rustfmt, rustfmt::skip)]"].
Proof. unfold header. cbn [flat_map]. rewrite <- !app_assoc. reflexivity. Qed.
Print Assumptions C80_header.
(** After writing, the file has the header and the contents; no other file changes, and the file is
    written only if it differs. *)
Theorem C80_write d fn p c d' b : write_raw d fn p c = Ok (d', b) ->
  dk_content d' p = Some (header fn ++ c) /\ (forall q, q <> p -> dk_content d' q = dk_content d q)
  /\ (b = false <-> dk_content d p = Some (header fn ++ c)) /\ (b = false -> d' = d).
Proof. exact (write_done d fn p c d' b). Qed.
Print Assumptions C80_write.
(** When it is possible. *)
Theorem C80_write_ok d fn p c : (exists x, write_raw d fn p c = Ok x) <->
  (dk_content d p <> None -> dk_readable d p = true) /\ (dk_content d p <> Some (header fn ++ c) -> dk_writable d p = true).
Proof. exact (write_possible d fn p c). Qed.
Print Assumptions C80_write_ok.
Example C80_ex_write :
  let d := mkDisk (fun _ => None) (fun _ => true) (fun _ => true) in
  match write_raw d (B "gen_de") (B "src/gen/de.rs") (B "use x;") with
  | Ok (d', true) => write_raw d' (B "gen_de") (B "src/gen/de.rs") (B "use x;") = Ok (d', false)
      /\ write_raw (mkDisk (dk_content d') (fun _ => true) (fun _ => false)) (B "gen_de") (B "src/gen/de.rs") (B "use y;") = Err CannotWrite
  | _ => False
  end.
Proof. vm_compute. repeat split. Qed.

(** ** The files that are read *)

(** Of the files listed, those that exist, in this order. *)
Theorem C80_listed ex l : Forall (fun f => f <> [] /\ ~ In nl f /\ is_trimmed f) l ->
  listed ex (flat_map (fun f => f ++ [nl]) l) = filter ex l.
Proof. exact (listed_written ex l). Qed.
Print Assumptions C80_listed.
Theorem C80_programs l f : In f (for_assertions l) <-> In f l /\ f <> B "main.rs" /\ ~ begins (B "bin/") f.
Proof.
  unfold for_assertions. rewrite filter_In. split; intros [I H]; (split; [exact I|]).
  - apply Bool.negb_true_iff, Bool.orb_false_iff in H as [H1 H2]. split; [now apply str_eqb_neq|]. intros K. apply begins_iff in K. congruence.
  - destruct H as [H1 H2]. apply Bool.negb_true_iff, Bool.orb_false_iff. split; [now apply str_eqb_neq|now apply begins_not].
Qed.
Print Assumptions C80_programs.
(** The module of a file in the source directory itself is right unless its name ends in [lib], .. *)
Theorem C80_module root name : name_ok name -> name <> B "mod" -> (forall a, name <> a ++ B "lib") ->
  module_of (join root (name ++ B ".rs")) = module_path [] name.
Proof.
  intros N M L. rewrite file_module by assumption. unfold module_path.
  rewrite (proj2 (str_eqb_neq _ _) M). destruct (str_eqb name (B "lib")) eqn:E; [|reflexivity].
  apply str_eqb_eq in E. destruct (L [] E).
Qed.
Print Assumptions C80_module.
Theorem C80_module_lib root : module_of (join root (B "lib.rs")) = module_path [] (B "lib").
Proof.
  apply lib_module. unfold join. change (is_absolute (B "lib.rs")) with false. cbn [is_empty].
  destruct root as [|c root]; [now exists []|]. destruct (ends_with_slash (c :: root)); [now exists (c :: root)|].
  exists ((c :: root) ++ [slash]). rewrite <- app_assoc. reflexivity.
Qed.
Print Assumptions C80_module_lib.
(** .. and wrong for files in directories and for names that end in [lib]. *)
Theorem C80_module_refuted : exists root,
  module_of (join root (B "gen/error.rs")) <> module_path [B "gen"] (B "error")
  /\ module_of (join root (B "cfg_expr/mod.rs")) <> module_path [B "cfg_expr"] (B "mod")
  /\ module_of (join root (B "zlib.rs")) <> module_path [] (B "zlib").
Proof. exists (B "/w/src"). vm_compute. repeat split; discriminate. Qed.
Print Assumptions C80_module_refuted.
Example C80_ex_files :
  let l := [B "de.rs"; B "lib.rs"; B "gone.rs"; B "main.rs"; B "bin/x.rs"] in
  Forall (fun f => f <> [] /\ ~ In nl f /\ is_trimmed f) l
  /\ map (fun f => module_of (join (B "/w/src") f))
       (for_assertions (listed (fun f => negb (str_eqb f (B "gone.rs"))) (flat_map (fun f => f ++ [nl]) l))) = [[B "de"]; []]
  /\ name_ok (B "de").
Proof.
  split; [|split; [vm_compute; reflexivity|split; [discriminate|split; [discriminate|vm_compute; intuition discriminate]]]].
  repeat (constructor; [split; [discriminate|split; [vm_compute; intuition discriminate|apply trim_iff; vm_compute; reflexivity]]|]). constructor.
Qed.
