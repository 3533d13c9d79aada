(** C74: configurations as JSON. *)
From Verif.Model Require Import Base Str Path BMap Error Value De Serde Walk Load Get GetArgs Triple EasyTypes Context
  Resolve Easy EasySerde JsonText.
From Verif.Spec Require Import StrSpec Utf8Spec ConfigSpec SerdeSpec LoadSpec GetSpec JsonSpec.
From Verif.Proof Require Import StrFacts RoundTripProof GetProof JsonProof JsonUseProof JsonShortProof.
From Verif.Props Require Import Serde Load.

(** The text is that of one JSON value, which is the tree that is written in TOML. *)
Theorem C74_reads c : exists j, read_json (json_text (ser_config c)) = Some j /\ alike (ser_config c) j.
Proof. exists (jt (ser_config c)). split; [apply read_text|apply jt_alike]; apply plain_config. Qed.
Print Assumptions C74_reads.
(** Also for a resolved configuration, whatever is known about targets. *)
Theorem C74_resolved c targets t : eser_config c targets = Some t ->
  exists j, read_json (json_text t) = Some j /\ alike t j.
Proof.
  intros E. pose proof (plain_resolved c targets t E) as P. exists (jt t). split; [now apply read_text|now apply jt_alike].
Qed.
Print Assumptions C74_resolved.
(** A tree is like no other JSON value, and a JSON value is like no other tree. *)
Theorem C74_alike t t' j j' : alike t j -> alike t' j' -> (t = t' <-> j = j').
Proof.
  intros A A'. apply alike_jt in A as [P ->]. apply alike_jt in A' as [P' ->]. split; [now intros ->|now apply jt_inj].
Qed.
Print Assumptions C74_alike.
(** So the text tells all that is written, *)
Theorem C74_decides c c' : json_text (ser_config c) = json_text (ser_config c') -> ser_config c = ser_config c'.
Proof.
  intros E. destruct (C74_reads c) as (j & R & A). destruct (C74_reads c') as (j' & R' & A').
  rewrite E, R' in R. injection R as <-. now apply (C74_alike _ _ _ _ A A').
Qed.
Print Assumptions C74_decides.
(** and from it the configuration can be read again, but for where values are from and the form
    of flags. *)
Theorem C74_round_trip c t j : storable c -> read_json (json_text (ser_config c)) = Some j -> alike t j ->
  exists c', de_config t = Some c'
  /\ (forall A (k : scalar_key A), look k c' = option_map anonymous (look k c))
  /\ (forall k, look_list k c' = option_map (fun w => anonymous_words (stored_form k w)) (look_list k c))
  /\ (forall k, look_program k c' = option_map anonymous_words (look_program k c))
  /\ (forall k, has_entry k c' = has_entry k c)
  /\ json_text (ser_config c') = json_text (ser_config c).
Proof.
  intros St R A. destruct (C74_reads c) as (j' & R' & A'). rewrite R in R'. injection R' as <-.
  assert (E : t = ser_config c) by (now apply (C74_alike _ _ _ _ A A')). subst t.
  destruct (C42_round_trip c St) as (c' & D & H1 & H2 & H3 & H4 & _ & _ & _ & S). exists c'. rewrite S. auto 10.
Qed.
Print Assumptions C74_round_trip.

(** Where settings are found. *)
Theorem C74_places t j p : alike t j ->
  match at_path p t, json_at p j with
  | Some u, Some i => alike u i
  | None, None => True
  | _, _ => False
  end.
Proof. exact (alike_at p t j). Qed.
Print Assumptions C74_places.
Theorem C74_scalars c j : storable c -> read_json (json_text (ser_config c)) = Some j ->
  forall A (k : scalar_key A) v, look k c = Some v ->
  exists p u i, json_at p j = Some i /\ alike u i
    /\ (p = place k /\ stands_for k u (val v) \/ p = place k ++ [B "value"] /\ stands_for k (TomlTab [(B "value", u)]) (val v)).
Proof.
  intros St R A k v L. destruct (C74_reads c) as (j' & R' & A'). rewrite R in R'. injection R' as <-.
  destruct (scalar_leaf c A k v St L) as (p & u & P & _ & H). exists p, u. pose proof (alike_at p _ _ A') as Q. rewrite P in Q.
  destruct (json_at p j) as [i|]; [|contradiction]. exists i. auto.
Qed.
Print Assumptions C74_scalars.
Theorem C74_lists c j : storable c -> read_json (json_text (ser_config c)) = Some j ->
  forall k v, look_list k c = Some v ->
  exists u i, json_at (list_place k) j = Some i /\ alike u i /\ list_stands_for k u (fst (stored_form k v), map val (snd v)).
Proof.
  intros St R k v L. destruct (C74_reads c) as (j' & R' & A'). rewrite R in R'. injection R' as <-.
  destruct (list_leaf c k v St L) as (u & w & P & _ & S & ->). exists u. pose proof (alike_at (list_place k) _ _ A') as Q. rewrite P in Q.
  destruct (json_at (list_place k) j) as [i|]; [|contradiction]. exists i. auto.
Qed.
Print Assumptions C74_lists.
(** No object has a key twice. *)
Theorem C74_keys c j p m : storable c -> read_json (json_text (ser_config c)) = Some j ->
  json_at p j = Some (JObject m) -> NoDup (map fst m).
Proof.
  intros St R E. destruct (C74_reads c) as (j' & R' & A'). rewrite R in R'. injection R' as <-.
  exact (json_keys c j p m (proj1 St) A' E).
Qed.
Print Assumptions C74_keys.

(** The text has no line ends nor other control characters, and is UTF-8 if the texts in it are. *)
Theorem C74_one_line c : Forall (fun b => (32 <= N_of_ascii b)%N) (json_text (ser_config c)).
Proof. exact (text_printable _ (plain_config c)). Qed.
Print Assumptions C74_one_line.
Theorem C74_utf8 c : texts (ser_config c) -> utf8 (json_text (ser_config c)).
Proof. exact (text_utf8 _ (plain_config c)). Qed.
Print Assumptions C74_utf8.

(** No text that is read as the same value is shorter: there are no blanks, and nothing is escaped
    that need not be. *)
Theorem C74_shortest c s : read_json s = read_json (json_text (ser_config c)) -> length (json_text (ser_config c)) <= length s.
Proof. destruct (C74_reads c) as (j & R & A). intros E. rewrite R in E. exact (text_shortest _ j s A E). Qed.
Print Assumptions C74_shortest.
Theorem C74_resolved_shortest c targets t s : eser_config c targets = Some t ->
  read_json s = read_json (json_text t) -> length (json_text t) <= length s.
Proof. intros H. destruct (C74_resolved c targets t H) as (j & R & A). intros E. rewrite R in E. exact (text_shortest _ j s A E). Qed.
Print Assumptions C74_resolved_shortest.

(** The program get: with [--format json] it writes one line, which is the merged configuration. *)
Theorem C74_main show escape version words f vars home_var home_dir cwd out t :
  parse words = Parsed Json true ->
  main show json_text escape version words f vars home_var home_dir cwd = (out, Done t) ->
  exists c j, load_with_cwd f home_var home_dir cwd = Ok c /\ storable c
    /\ read_json out = Some j /\ alike (ser_config c) j
    /\ exists line, out = line ++ [newline] /\ ~ In newline line.
Proof.
  intros W. unfold main. rewrite W. destruct (load_with_cwd f home_var home_dir cwd) as [c|e|x] eqn:L; try discriminate.
  intros [= <- _]. exists c, (jt (ser_config c)). split; [reflexivity|].
  split; [exact (load_storable _ _ _ L)|].
  split; [exact (read_text_line _ (plain_config c))|]. split; [exact (jt_alike _ (plain_config c))|].
  exists (json_text (ser_config c)). split; [reflexivity|]. intros I. pose proof (C74_one_line c) as F. rewrite Forall_forall in F.
  specialize (F _ I). vm_compute in F. now apply F.
Qed.
Print Assumptions C74_main.

(** Tokens are written in full. *)
Definition exists_token (c : config) (s : str) : Prop := exists v, look RegistryToken c = Some v /\ val v = s.
Theorem C74_tokens_hidden_refuted : exists c, exists_token c (B "secret") /\
  exists a b, json_text (ser_config c) = a ++ B "secret" ++ b.
Proof.
  exists (match de_config (TomlTab [(B "registry", TomlTab [(B "token", TomlStr (B "secret"))])]) with Some c => c | None => config_default end).
  split; [exists (mkValue (B "secret") None); split; vm_compute; reflexivity|].
  exists (B "{""registry"":{""token"":"""), (B """}}"). vm_compute. reflexivity.
Qed.
Print Assumptions C74_tokens_hidden_refuted.

(** ** Concrete cases *)
Example C74_ex :
  json_text (ser_config loaded)
  = B "{""build"":{""jobs"":4,""rustc"":""rc"",""rustflags"":[""-f"",""-m"",""-m"",""-n""]},""env"":{""V"":{""value"":""x"",""force"":true}},""target"":{""t1"":{""linker"":""ld"",""runner"":[""run"",""-x"",""far""]},""t2"":{}}}".
Proof. vm_compute. reflexivity. Qed.
Example C74_ex_storable : storable loaded.
Proof. exact (load_storable _ _ _ C07_ex_load). Qed.
(** Quotes, backslashes and control characters are escaped. *)
Example C74_ex_escapes :
  json_text (TomlTab [(B "a""b", TomlArr [TomlInt (-120); TomlStr (B "x\" ++ map ascii_of_N [7; 10; 127; 195; 164]%N); TomlTab []; TomlArr []])])
  = B "{""a\""b"":[-120,""x\\\u0007\n" ++ map ascii_of_N [127; 195; 164]%N ++ B """,{},[]]}".
Proof. vm_compute. reflexivity. Qed.
(** The reader takes other spellings, and refuses what is not JSON. *)
Example C74_ex_reader :
  read_json (B " { ""a"" : [ 1 , null , ""AA\/"" , -0 ] } ") = Some (JObject [(B "a", JArray [JNumber 1; JNull; JString (B "AA/"); JNumber 0])])
  /\ Forall (fun s => read_json s = None) [B "[1,]"; B "01"; B "{""a"" 1}"; B "[1] 2"; B """a"; B "nul"; B "{a:1}"; [newline]; B """" ++ [newline] ++ B """"].
Proof. split; [vm_compute; reflexivity|]. repeat (constructor; [vm_compute; reflexivity|]). constructor. Qed.
Example C74_ex_shortest :
  let long := B "{""registry"" : {""token"":""\u0061\/\u0009 "" }}" in
  exists c, read_json long = read_json (json_text (ser_config c)) /\ json_text (ser_config c) = B "{""registry"":{""token"":""a/\t ""}}".
Proof.
  exists (match de_config (TomlTab [(B "registry", TomlTab [(B "token", TomlStr (B "a/" ++ map ascii_of_N [9; 32]%N))])]) with Some c => c | None => config_default end).
  split; vm_compute; reflexivity.
Qed.
