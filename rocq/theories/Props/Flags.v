(** C01-C03: text forms of flag lists. *)
From Verif.Model Require Import Base Str Error ErrorText De EasyTypes.
From Verif.Spec Require Import StrSpec FlagsSpec.
From Verif.Proof Require Import StrFacts FlagsProof.

(** ** C01 *)

(** [encode] fails exactly when a flag contains the separator, and never panics. *)
Theorem C01_encode_ok_iff l :
  is_ok (encode (mkEflags l)) = true <-> Forall (free_of unit_separator) l.
Proof. exact (encode_ok_iff l). Qed.
Print Assumptions C01_encode_ok_iff.

(** The error shows the separator. *)
Theorem C01_encode_message io dbg f e : encode f = Err e ->
  error_text io dbg e = B "flag in rustflags must not contain its separator ('\u{1f}')".
Proof. unfold encode, encode_internal. destruct (encode_loop _ _ _); intros [= <-]. reflexivity. Qed.
Print Assumptions C01_encode_message.

Theorem C01_encode_never_panics f : is_panic (encode f) = false.
Proof. exact (encode_never_panics f). Qed.
Print Assumptions C01_encode_never_panics.

(** For every list that starts with text the result is the 0x1f-join ... *)
Theorem C01_encode_is_join l :
  Forall (free_of unit_separator) l -> starts_with_text l ->
  encode (mkEflags l) = Ok (intercalate unit_separator l).
Proof. exact (encode_value_join l). Qed.
Print Assumptions C01_encode_is_join.

(** ... and in general leading empty flags vanish. *)
Theorem C01_encode_in_general l :
  Forall (free_of unit_separator) l ->
  encode (mkEflags l) = Ok (intercalate unit_separator (drop_leading_empty l)).
Proof. exact (encode_value l). Qed.
Print Assumptions C01_encode_in_general.

(** The lists for which writing and reading back is the identity. *)
Theorem C01_roundtrip_iff l :
  Forall (free_of unit_separator) l ->
  (exists s, encode (mkEflags l) = Ok s /\ eflags_from_encoded s = mkEflags l)
  <-> starts_with_text l.
Proof. exact (encode_roundtrip_iff l). Qed.
Print Assumptions C01_roundtrip_iff.

(** The round trip fails for some lists a caller can build: a leading empty flag. *)
Theorem C01_roundtrip_refuted :
  exists l s, encode (mkEflags l) = Ok s /\ eflags_from_encoded s <> mkEflags l.
Proof. exists [B ""; B "-g"], (B "-g"). split; vm_compute; [reflexivity | discriminate]. Qed.
Print Assumptions C01_roundtrip_refuted.

Example C01_ex_good :
  Forall (free_of unit_separator) [B "-C"; B ""; B "link-arg=a b"]
  /\ starts_with_text [B "-C"; B ""; B "link-arg=a b"]
  /\ encode (mkEflags [B "-C"; B ""; B "x"])
     = Ok (B "-C" ++ unit_separator :: unit_separator :: B "x").
Proof.
  repeat split.
  - repeat constructor; intros H; cbn in H; repeat destruct H as [H|H]; try discriminate; easy.
  - now left.
Qed.
Example C01_ex_bad :
  is_ok (encode (mkEflags [B "a"; unit_separator :: B "b"])) = false.
Proof. reflexivity. Qed.

(** ** C02 *)

Theorem C02_from_encoded_unique s l :
  ef_flags (eflags_from_encoded s) = l
  <-> l <> [] /\ Forall (free_of unit_separator) l /\ intercalate unit_separator l = s.
Proof. exact (from_encoded_char s l). Qed.
Print Assumptions C02_from_encoded_unique.

Theorem C02_encode_from_encoded_iff s :
  encode (eflags_from_encoded s) = Ok s <-> forall t, s <> unit_separator :: t.
Proof. exact (encode_from_encoded_iff s). Qed.
Print Assumptions C02_encode_from_encoded_iff.

Example C02_ex :
  ef_flags (eflags_from_encoded (B "a" ++ unit_separator :: unit_separator :: B "b c"))
  = [B "a"; B ""; B "b c"]
  /\ ef_flags (eflags_from_encoded (B "")) = [B ""]
  /\ encode (eflags_from_encoded (unit_separator :: B "a")) = Ok (B "a").
Proof. repeat split. Qed.

(** ** C03 *)

Theorem C03_words_are_clean s w :
  In w (ef_flags (eflags_from_space_separated s)) ->
  w <> [] /\ free_of space w /\ is_trimmed w.
Proof. exact (from_space_words s w). Qed.
Print Assumptions C03_words_are_clean.

(** Reading: split at spaces, trim, drop the empty words. *)
Theorem C03_from_space_separated s l :
  ef_flags (eflags_from_space_separated s) = l
  <-> exists parts, parts <> [] /\ Forall (free_of space) parts /\ intercalate space parts = s
                    /\ words_of parts l.
Proof. exact (from_space_char s l). Qed.
Print Assumptions C03_from_space_separated.

Theorem C03_encode_ok_iff l :
  is_ok (encode_space_separated (mkEflags l)) = true <-> Forall (free_of space) l.
Proof. exact (encode_space_ok_iff l). Qed.
Print Assumptions C03_encode_ok_iff.

Theorem C03_encode_message io dbg f e : encode_space_separated f = Err e ->
  error_text io dbg e = B "flag in rustflags must not contain its separator (' ')".
Proof. unfold encode_space_separated, encode_internal. destruct (encode_loop _ _ _); intros [= <-]. reflexivity. Qed.
Print Assumptions C03_encode_message.

Theorem C03_encode_never_panics f : is_panic (encode_space_separated f) = false.
Proof. exact (encode_space_never_panics f). Qed.
Print Assumptions C03_encode_never_panics.

Theorem C03_encode_then_read l :
  Forall (free_of space) l ->
  exists s, encode_space_separated (mkEflags l) = Ok s
            /\ words_of l (ef_flags (eflags_from_space_separated s)).
Proof. exact (encode_space_reread l). Qed.
Print Assumptions C03_encode_then_read.

Theorem C03_same_list_iff l :
  Forall (free_of space) l ->
  (exists s, encode_space_separated (mkEflags l) = Ok s /\ eflags_from_space_separated s = mkEflags l)
  <-> Forall (fun w => w <> [] /\ is_trimmed w) l.
Proof. exact (encode_space_same_iff l). Qed.
Print Assumptions C03_same_list_iff.

Theorem C03_rereading_is_idempotent s :
  exists s', encode_space_separated (eflags_from_space_separated s) = Ok s'
             /\ eflags_from_space_separated s' = eflags_from_space_separated s.
Proof. exact (from_space_idem s). Qed.
Print Assumptions C03_rereading_is_idempotent.

(** The trimming relation used above has exactly one result. *)
Theorem C03_trimming_is_a_function s t t' : trimmed_of s t -> trimmed_of s t' -> t = t'.
Proof.
  exact (fun H H' => eq_trans (proj1 (trimmed_unique s t) H)
                              (eq_sym (proj1 (trimmed_unique s t') H'))).
Qed.
Print Assumptions C03_trimming_is_a_function.

(** U+2003 and a tab at the ends of a word are removed, an inner no-break space stays. *)
Example C03_ex :
  ef_flags (eflags_from_space_separated
     (B "  -C  opt" ++ bytes [226; 128; 131]%N ++ B " " ++ bytes [9; 97; 194; 160; 98]%N))
  = [B "-C"; B "opt"; bytes [97; 194; 160; 98]%N].
Proof. reflexivity. Qed.
Example C03_ex_reread :
  encode_space_separated (mkEflags [B "a"; B ""; bytes [9; 98]%N]) = Ok (B "a  " ++ bytes [9; 98]%N)
  /\ eflags_from_space_separated (B "a  " ++ bytes [9; 98]%N) = mkEflags [B "a"; B "b"].
Proof. split; reflexivity. Qed.
