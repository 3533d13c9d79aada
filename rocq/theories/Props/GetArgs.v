(** C69: the command line of examples/get.rs. *)
From Verif.Model Require Import Base Str Path BMap Error Value De Serde Walk Load Get GetArgs.
From Verif.Spec Require Import StrSpec Utf8Spec WalkSpec ConfigSpec LoadSpec SerdeSpec GetSpec GetArgsSpec.
From Verif.Proof Require Import StrFacts Utf8Proof LossyProof LoadProof GetProof GetArgsProof.
From Verif.Props Require Load Get.

(** The words are read as options, each at most once and in any order, until one of them
    decides. *)
Theorem C69_parse words r :
  parse words = r <-> exists ws c rest, words = ws ++ rest /\ accepted ws c /\ stops c rest r.
Proof. exact (parse_iff words r). Qed.
Print Assumptions C69_parse.

(** The program runs if and only if there is nothing else. *)
Theorem C69_accepted words f m :
  parse words = Parsed f m <->
  exists ws tail c, words = ws ++ tail /\ (tail = [] \/ tail = [B "--"]) /\ accepted ws c
    /\ f = or_default Toml (chosen_format c) /\ m = or_default true (chosen_merged c).
Proof.
  rewrite C69_parse. split.
  - intros (ws & c & rest & E & A & S). exists ws, rest, c. inversion S; subst; auto.
  - intros (ws & tail & c & -> & [->| ->] & A & -> & ->); exists ws, c; eexists;
      (split; [reflexivity|]; split; [exact A|constructor]).
Qed.
Print Assumptions C69_accepted.
(** Help is printed if it is asked for before anything is wrong. *)
Theorem C69_help words :
  parse words = Help <-> exists ws c w rest, words = ws ++ w :: rest /\ accepted ws c /\ asks_help w.
Proof.
  rewrite C69_parse. split.
  - intros (ws & c & rest & -> & A & S). inversion S; subst. eauto 8.
  - intros (ws & c & w & rest & -> & A & S). exists ws, c, (w :: rest). auto using stops_help.
Qed.
Print Assumptions C69_help.
Theorem C69_version words :
  parse words = Version <-> exists ws c w rest, words = ws ++ w :: rest /\ accepted ws c /\ asks_version w.
Proof.
  rewrite C69_parse. split.
  - intros (ws & c & rest & -> & A & S). inversion S; subst. eauto 8.
  - intros (ws & c & w & rest & -> & A & S). exists ws, c, (w :: rest). auto using stops_version.
Qed.
Print Assumptions C69_version.
(** No option is told that it does not take a value. *)
Theorem C69_no_unexpected_value words o v : parse words <> ArgError (UnexpectedValue o v).
Proof. rewrite C69_parse. intros (ws & c & rest & _ & _ & S). inversion S. Qed.
Print Assumptions C69_no_unexpected_value.
(** Neither the order nor the way of writing the options matters, whatever follows. *)
Theorem C69_order v f u m o1 o2 o1' o2' rest : format_word v f -> merged_word u m ->
  option_words (B "--format") v o1 -> option_words (B "--merged") u o2 ->
  option_words (B "--format") v o1' -> option_words (B "--merged") u o2' ->
  parse (o1 ++ o2 ++ rest) = parse (o2' ++ o1' ++ rest).
Proof.
  intros F M O1 O2 O1' O2'.
  assert (A : accepted (o1 ++ o2) (mkChoice (Some f) (Some m))).
  { apply (accepted_merged o1 (Some f) u m o2); auto. apply (accepted_format [] None v f o1); auto. constructor. }
  assert (A' : accepted (o2' ++ o1') (mkChoice (Some f) (Some m))).
  { apply (accepted_format o2' (Some m) v f o1'); auto. apply (accepted_merged [] None u m o2'); auto. constructor. }
  rewrite !app_assoc.
  destruct (full_stops (mkChoice (Some f) (Some m)) rest) as [r S]; [intros name H; inversion H; discriminate|].
  rewrite (proj2 (C69_parse ((o1 ++ o2) ++ rest) r)) by eauto 6. symmetry. apply C69_parse. eauto 6.
Qed.
Print Assumptions C69_order.

(** What the program does with accepted words. *)
Theorem C69_run show json escape version ws tail c f vars home_var home_dir cwd ps :
  accepted ws c -> tail = [] \/ tail = [B "--"] ->
  visited f cwd (cargo_home_with_cwd home_var home_dir cwd) ps ->
  let (out, e) := main show json escape version (ws ++ tail) f vars home_var home_dir cwd in
  match or_default Toml (chosen_format c), or_default true (chosen_merged c), e with
  | _, _, BadArguments _ | _, _, Crashed _ => False
  | Json, false, e => out = [] /\ e = JsonNotMerged
  | Toml, false, Done n => shows show f ps out /\ n = note escape vars
  | Toml, false, Failed e => exists pre p post, ps = pre ++ p :: post /\ shows show f pre out /\ stops_at f [] p e
  | ft, true, Done n =>
      exists conf, load_with_cwd f home_var home_dir cwd = Ok conf /\ n = note escape vars
        /\ match ft with
           | Json => out = json (ser_config conf) ++ [newline]
           | Toml => exists ls, listing (ser_config conf) ls /\ out = lines show ls
           end
  | _, true, Failed e => out = [] /\ load_with_cwd f home_var home_dir cwd = Err e
  | _, _, JsonNotMerged => False
  end.
Proof.
  intros A T V. unfold main.
  rewrite (proj2 (C69_accepted (ws ++ tail) _ _)) by (exists ws, tail, c; repeat split; eassumption).
  destruct (or_default Toml (chosen_format c)).
  - pose proof (Get.C59_merged show escape f vars home_var home_dir cwd) as H1.
    pose proof (Get.C59_each_file show escape f vars home_var home_dir cwd ps V) as H0.
    destruct (or_default true (chosen_merged c)); [clear H0|clear H1];
      destruct (get show escape _ f vars home_var home_dir cwd) as [out [n|e|x]].
    + destruct H1 as (conf & ls & L & Hl & Ho & Hn). exists conf. split; [exact L|]. split; [exact Hn|]. now exists ls.
    + exact H1.
    + exact H1.
    + exact H0.
    + exact H0.
    + exact H0.
  - destruct (or_default true (chosen_merged c)); [|auto].
    pose proof (Get.C59_merged show escape f vars home_var home_dir cwd) as H1. unfold get in H1.
    destruct (load_with_cwd f home_var home_dir cwd) as [conf|e|x]; [exists conf; auto|auto|exact H1].
Qed.
Print Assumptions C69_run.
(** With other words it reads no file, and ends as they demand. *)
Theorem C69_not_run show json escape version words r f vars home_var home_dir cwd :
  (exists ws c rest, words = ws ++ rest /\ accepted ws c /\ stops c rest r) -> (forall ft m, r <> Parsed ft m) ->
  main show json escape version words f vars home_var home_dir cwd
  = match r with
    | ArgError e => ([], BadArguments e)
    | Version => (version ++ [newline], Done [])
    | _ => (usage, Done [])
    end.
Proof.
  intros H N. apply C69_parse in H. unfold main. rewrite H. destruct r as [ft m| | |e]; [now destruct (N ft m)|reflexivity..].
Qed.
Print Assumptions C69_not_run.
(** Without words it shows the merged configuration as toml. *)
Theorem C69_no_words show json escape version f vars home_var home_dir cwd :
  fst (main show json escape version [] f vars home_var home_dir cwd) = fst (get show escape true f vars home_var home_dir cwd).
Proof. unfold main. change (parse []) with (Parsed Toml true). cbn match. now destruct (get _ _ _ _ _ _ _ _). Qed.
Print Assumptions C69_no_words.

(** ** Examples *)
Example C69_ex_accepted :
  accepted [B "--merged=no"; B "--format"; B "toml"] (mkChoice (Some Toml) (Some false))
  /\ parse [B "--merged=no"; B "--format"; B "toml"; B "--"] = Parsed Toml false
  /\ parse [B "--format=json"] = Parsed Json true.
Proof.
  split; [|split; reflexivity].
  apply (accepted_format [B "--merged=no"] (Some false) (B "toml") Toml [B "--format"; B "toml"]); [|constructor..].
  apply (accepted_merged [] None (B "no") false [B "--merged=no"]); constructor.
Qed.
Example C69_ex_stops :
  map parse [[B "--merged"; B "no"; B "--help=x"]; [B "-hx"; B "y"]; [B "-V"];
             [B "--merged"]; [B "--merged="]; [B "--format"; [byte_of 255]]; [B "-"]; [B "--"; B "-h"];
             [B "--format=toml"; B "--format=toml"]; [B "--" ++ [byte_of 255] ++ B "=x"]; [B "-" ++ [byte_of 195; byte_of 169]];
             [B "-" ++ [byte_of 195]]; [B "--=x"]; [B "-=x"]]
  = [Help; Help; Version; ArgError (MissingValue (B "--merged")); ArgError (ParsingFailed []);
     ArgError (NonUnicodeValue [byte_of 255]); ArgError (UnexpectedArgument (B "-")); ArgError (UnexpectedArgument (B "-h"));
     ArgError (UnexpectedOption (B "--format")); ArgError (UnexpectedOption (B "--" ++ replacement));
     ArgError (UnexpectedOption (B "-" ++ [byte_of 195; byte_of 169])); ArgError (UnexpectedOption (B "-" ++ replacement));
     ArgError (UnexpectedOption (B "--")); ArgError (UnexpectedOption (B "-="))].
Proof. vm_compute. reflexivity. Qed.
(** Two files that cannot be merged. *)
Example C69_ex_main :
  let run words := main Get.showing (fun _ => B "json") (fun s => s) (B "v") words Get.conflict [] (Some (B "/h")) None (B "/p/a") in
  fst (run [B "--merged=no"]) <> [] /\ snd (run [B "--merged=no"; B "--format"; B "json"]) = JsonNotMerged
  /\ run [B "-h"] = (usage, Done [])
  /\ match run [] with (out, Failed _) => out = [] | _ => False end.
Proof. vm_compute. repeat split. discriminate. Qed.

(** ** What does not hold *)
(** An option given again does not replace the former one, nor is it accepted if equal. *)
Theorem C69_repeated_refuted :
  exists ws c, accepted ws c /\ forall f m, parse (ws ++ ws) <> Parsed f m.
Proof.
  exists [B "--format=json"], (mkChoice (Some Json) None). split.
  - apply (accepted_format [] None (B "json") Json [B "--format=json"]); constructor.
  - intros f m. vm_compute. discriminate.
Qed.
Print Assumptions C69_repeated_refuted.
(** Asking for help does not always help. *)
Theorem C69_help_always_refuted : exists words, In (B "--help") words /\ parse words <> Help.
Proof. exists [B "toml"; B "--help"]. split; [right; now left|]. vm_compute. discriminate. Qed.
Print Assumptions C69_help_always_refuted.
