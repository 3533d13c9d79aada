(** Errors in [cfg(...)] expressions (C28, C52). *)
From Verif.Model Require Import Base Str Error CfgExpr CfgError.
From Verif.Spec Require Import StrSpec Utf8Spec CfgSpec CfgErrorSpec.
From Verif.Proof Require Import Utf8Proof CfgLexProof CfgErrorProof CfgErrorUniqueProof CfgErrorTextProof.

#[local] Arguments B : simpl never.

(** ** C28 *)

(** The error tells what is wrong first, and where: everything before the span could
    have been continued, and what is under the span is what spoils it. *)
Theorem C28_explained pr text s e :
  utf8 text -> unwrapped text s -> parse_expr pr text = Err e ->
  pe_original e = s /\ explains s (pe_span e) (pe_reason e).
Proof. exact (fun V => parse_explained pr text s e (proj2 (utf8_valid_iff text) V)). Qed.
Print Assumptions C28_explained.

(** Conversely, what is wrong with a text is what its error tells. *)
Theorem C28_told pr text s sp r :
  utf8 text -> unwrapped text s -> explains s sp r ->
  (exists e, parse_expr pr text = Err e /\ pe_original e = s /\ pe_span e = sp /\ alike (pe_reason e) r) \/
  (exists p, parse_expr pr text = Panic p).
Proof. exact (fun V => explained_parse_any pr text s sp r (proj2 (utf8_valid_iff text) V)). Qed.
Print Assumptions C28_told.
Theorem C28_told_release text s sp r :
  utf8 text -> unwrapped text s -> explains s sp r ->
  exists e, parse_expr release text = Err e /\ pe_original e = s /\ pe_span e = sp /\ alike (pe_reason e) r.
Proof. exact (fun V => explained_parse text s sp r (proj2 (utf8_valid_iff text) V)). Qed.
Print Assumptions C28_told_release.

(** Only one place and, but for the names of terms, one thing is wrong with a text. *)
Theorem C28_first s sp r sp' r' :
  utf8 s -> explains s sp r -> explains s sp' r' ->
  sp = sp' /\ exists r0, alike r0 r /\ alike r0 r'.
Proof. exact (fun V => explains_unique s sp r sp' r' (proj2 (utf8_valid_iff s) V)). Qed.
Print Assumptions C28_first.

(** Nothing is wrong with the texts that are accepted, and something is with all others. *)
Theorem C28_either s :
  utf8 s ->
  ((exists roots, accepted s roots) \/ (exists sp r, explains s sp r)) /\
  ~ ((exists roots, accepted s roots) /\ (exists sp r, explains s sp r)).
Proof. exact (fun V => accepted_or_explained s (proj2 (utf8_valid_iff s) V)). Qed.
Print Assumptions C28_either.

Definition refused (text : string) (sp : nat * nat) (r : reason) : Prop :=
  utf8 (B text) /\ unwrapped (B text) (B text) /\
  parse_expr debug (B text) = Err (mkParseError (B text) sp r).

Ltac show_refused :=
  split; [now apply utf8_valid_iff|split; [|vm_compute; reflexivity]];
  apply unwrapped_plain; intros r E; cbv in E; discriminate E.

(** One text for each way of being refused. *)
Example C28_explained_token : refused "all(a b)" (6, 7) (Unexpected ["="; ","; ")"]%string).
Proof. show_refused. Qed.
Example C28_explained_unopened : refused "all(a) )" (7, 8) UnopenedParens.
Proof. show_refused. Qed.
Example C28_explained_stray : refused "all(a, $b)" (7, 8) (Unexpected ["<key>"; "all"; "any"; "not"]%string).
Proof. show_refused. Qed.
Example C28_explained_quote : refused "any(a, b = ""c)" (11, 14) UnclosedQuotes.
Proof. show_refused. Qed.
Example C28_explained_not : refused "all(a, not(b, not(c)), d)" (7, 21) (InvalidNot 2).
Proof. show_refused. Qed.
Example C28_explained_not_inner : refused "not(a, not())" (7, 12) (InvalidNot 0).
Proof. show_refused. Qed.
Example C28_explained_value :
  refused "a = " (4, 4) (Unexpected [String quote ("<value>" ++ String quote EmptyString)]%string).
Proof. show_refused. Qed.
Example C28_explained_name : refused "all(a, not " (7, 10) (Unexpected ["("]%string).
Proof. show_refused. Qed.
Example C28_explained_unclosed : refused "all(any(a), any(b, c" (15, 20) UnclosedParens.
Proof. show_refused. Qed.
Example C28_explained_empty : refused "  " (0, 2) Empty.
Proof. show_refused. Qed.
Example C28_explained_roots : refused "a, b" (0, 4) MultipleRootPredicates.
Proof. show_refused. Qed.

(** Explained texts. *)
Example C28_told_token : explains (B "all(a b)") (6, 7) (Unexpected ["="; ","; ")"]%string).
Proof. destruct C28_explained_token as (V & U & E). exact (proj2 (C28_explained _ _ _ _ V U E)). Qed.
Example C28_told_not : explains (B "all(a, not(b, not(c)), d)") (7, 21) (InvalidNot 2).
Proof. destruct C28_explained_not as (V & U & E). exact (proj2 (C28_explained _ _ _ _ V U E)). Qed.
(** The first of two mistakes is the one that counts. *)
Example C28_first_example sp r : explains (B "not(a, not())") sp r -> sp = (7, 12).
Proof.
  intros X. destruct C28_explained_not_inner as (V & U & E).
  exact (proj1 (C28_first _ _ _ _ _ V X (proj2 (C28_explained _ _ _ _ V U E)))).
Qed.
Example C28_either_example : ~ exists roots, accepted (B "all(a b)") roots.
Proof.
  intros A. apply (proj2 (C28_either _ (proj1 C28_explained_token))). split; [exact A|].
  eexists _, _. exact C28_told_token.
Qed.

(** A character outside ASCII is cut by the span. *)
Theorem C28_boundary_refuted :
  exists text e,
    utf8 text /\ unwrapped text text /\ parse_expr debug text = Err e /\
    ~ utf8 (firstn (snd (pe_span e)) text).
Proof.
  exists (bytes [195; 169]%N). eexists. split; [now apply utf8_valid_iff|]. split.
  { apply unwrapped_plain. intros r E. cbv in E. discriminate E. }
  split; [vm_compute; reflexivity|]. intros U. apply utf8_valid_iff in U. discriminate U.
Qed.
Print Assumptions C28_boundary_refuted.

(** At a character that is in no token, terms are named that cannot follow. *)
Theorem C28_stray_names_refuted :
  exists text sp names ts,
    parse_expr debug text = Err (mkParseError text sp (Unexpected names)) /\
    lexes (firstn (fst sp) text) ts /\ ~ hints ts names.
Proof.
  exists (B "a $"), (2, 3), ["<key>"; "all"; "any"; "not"]%string, [TKey (B "a")].
  split; [vm_compute; reflexivity|]. split.
  - apply (lexes_token [] (B "a") (B " ")); [constructor| | |].
    + constructor; try discriminate. exists "a"%char, []. split; [reflexivity|]. split; [|constructor].
      right. left. split; discriminate.
    + intros _ (c & r & [= <- <-] & [L|D]); [|now destruct D].
      destruct L as [L|[L|L]]; [now destruct L|now destruct L|discriminate L].
    + constructor. apply (blank_cons (B " ") []); [|constructor]. cbn. auto 8.
  - intros [H _]. destruct (H "all"%string ltac:(cbn; auto)) as (t & N & [Bt|[-> _]]); inversion N; subst.
    apply begins_follows in Bt. discriminate Bt.
Qed.
Print Assumptions C28_stray_names_refuted.

(** After a comma, calls may follow but are not named. *)
Theorem C28_comma_names_refuted :
  exists text sp names,
    parse_expr debug text = Err (mkParseError text sp (Unexpected names)) /\
    lexes (firstn (fst sp) text) [TKey (B "a"); TComma] /\
    begins [TKey (B "a"); TComma; TAll] /\ ~ exists h, In h names /\ named h TAll.
Proof.
  exists (B "a,="), (2, 3), [")"; "<key>"]%string. split; [vm_compute; reflexivity|]. split; [|split].
  - apply (lexes_token [] (B "a") (B ",")); [constructor| | |].
    + constructor; try discriminate. exists "a"%char, []. split; [reflexivity|]. split; [|constructor].
      right. left. split; discriminate.
    + intros _ (c & r & [= <- <-] & [L|D]); [|now destruct D].
      destruct L as [L|[L|L]]; [now destruct L|now destruct L|discriminate L].
    + apply (lexes_token [] (B ",") []); [constructor|constructor|intros []|]. constructor. constructor.
  - exists [TOpen; TClose], [Leaf (PFlag (B "a")); Call CAll []].
    apply (items_more (Leaf (PFlag (B "a"))) [TKey (B "a")] 0 (Call CAll []) [] [TAll; TOpen; TClose]).
    + constructor.
    + apply (items_last (Call CAll []) [TAll; TOpen; TClose] 0). apply (item_call CAll [] []). constructor.
  - intros (h & [<-|[<-|[]]] & N); inversion N.
Qed.
Print Assumptions C28_comma_names_refuted.

(** ** C52 *)

(** The message shows the text, and below it a line with marks under what the error
    is about, ending in the reason. *)
Theorem C52_message pr text s e :
  utf8 text -> unwrapped text s -> parse_expr pr text = Err e ->
  explains s (pe_span e) (pe_reason e) /\
  exists second, parse_error_text e = s ++ newline :: second /\ ~ In newline second /\
    (forall i, marked second i <-> to_mark (pe_span e) (pe_reason e) i) /\
    exists before, second = before ++ B " " ++ reason_text (pe_reason e).
Proof. exact (fun V => message pr text s e (proj2 (utf8_valid_iff text) V)). Qed.
Print Assumptions C52_message.

(** Different reasons read differently. *)
Theorem C52_reasons r r' :
  plain_names r -> plain_names r' -> reason_text r = reason_text r' -> r = r'.
Proof. exact (reason_inj r r'). Qed.
Print Assumptions C52_reasons.

Definition message_of (text : string) : str :=
  match parse_expr debug (B text) with Err e => parse_error_text e | _ => [] end.
Example C52_message_example :
  message_of "cfg(all(a, not(b, c)))" =
    B "all(a, not(b, c))" ++ newline ::
    B "       ^^^^^^^^^ not() takes 1 predicate, found 2" /\
  message_of "all(any(a" = B "all(any(a" ++ newline :: B "       - unclosed parens" /\
  message_of "a b" = B "a b" ++ newline :: B "  ^ expected one of `=`, `,`, `)` here".
Proof. vm_compute. auto. Qed.

(** Columns are bytes: after a character outside ASCII, the marks are too far right. *)
Theorem C52_columns_refuted :
  exists pre c rest e,
    parse_expr debug (pre ++ c :: rest) = Err e /\ pe_original e = pre ++ c :: rest /\
    explains (pre ++ c :: rest) (length pre, length pre + 1) (pe_reason e) /\
    exists n second, characters pre n /\ parse_error_text e = (pre ++ c :: rest) ++ newline :: second /\
      ~ marked second n.
Proof.
  set (pre := B "a = """ ++ bytes [195; 169]%N ++ B """ ").
  exists pre, "$"%char, []. eexists.
  assert (P : parse_expr debug (pre ++ ["$"%char]) =
    Err (mkParseError (pre ++ ["$"%char]) (9, 10) (Unexpected ["<key>"; "all"; "any"; "not"]%string)))
    by (vm_compute; reflexivity).
  split; [exact P|]. split; [reflexivity|]. cbn [pe_reason]. split.
  - assert (V : utf8 (pre ++ ["$"%char])) by now apply utf8_valid_iff.
    refine (proj2 (C28_explained debug _ _ _ V _ P)). apply unwrapped_plain. intros r E. cbv in E. discriminate E.
  - exists 8, (repeat " "%char 9 ++ B "^ expected one of `<key>`, `all`, `any`, `not` here").
    split; [|split].
    + exists (map (fun c => [c]) (B "a = """) ++ [bytes [195; 169]%N] ++ map (fun c => [c]) (B """ ")).
      split; [reflexivity|]. split; [|reflexivity].
      assert (One : forall c, (nb c < 128)%N -> exists k, encodes k [c]).
      { intros c L. apply encodes_shape. now apply cs1. }
      apply Forall_app. split; [|apply Forall_app; split].
      * repeat (apply Forall_cons; [apply One; reflexivity|]). constructor.
      * constructor; [|constructor]. exists 233%N. apply (encodes2 233 3 41); lia.
      * repeat (apply Forall_cons; [apply One; reflexivity|]). constructor.
    + vm_compute. reflexivity.
    + intros [E|E]; discriminate E.
Qed.
Print Assumptions C52_columns_refuted.

(** When a value is missing at the end, nothing is marked. *)
Theorem C52_unmarked_refuted :
  exists text second,
    message_of text = B text ++ newline :: second /\ ~ exists i, marked second i.
Proof.
  exists "a ="%string. eexists. split; [vm_compute; reflexivity|].
  intros (i & H). revert H. apply calm_not_marked. reflexivity.
Qed.
Print Assumptions C52_unmarked_refuted.
