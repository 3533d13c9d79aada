(** C24-C29 and C49: [cfg(...)] expressions and the output of [rustc --print cfg].
    The texts of the theorems are Rust strings, hence [utf8]. *)
From Verif.Model Require Import Base Str Error CfgExpr Resolve.
From Verif.Spec Require Import StrSpec Utf8Spec CfgSpec.
From Verif.Proof Require Import Utf8Proof CfgProof CfgEvalProof CfgOutputProof.

(** ** C24 *)
(** In a build without overflow checks the texts taken are those of the grammar, where
    [accepted] counts the calls in an argument list modulo 256. *)
Theorem C24_accepts_release pr text :
  utf8 text -> overflow_checks pr = false ->
  (is_ok (parse_expr pr text) = true <->
   exists s roots, unwrapped text s /\ accepted s roots).
Proof.
  exact (fun V O => conj (parse_ok_accepted pr text (proj2 (utf8_valid_iff text) V))
                         (accepted_parse_ok pr text (proj2 (utf8_valid_iff text) V) O)).
Qed.
Print Assumptions C24_accepts_release.

(** In any build nothing else is taken. *)
Theorem C24_sound pr text :
  utf8 text -> is_ok (parse_expr pr text) = true ->
  exists s roots, unwrapped text s /\ accepted s roots.
Proof. exact (fun V => parse_ok_accepted pr text (proj2 (utf8_valid_iff text) V)). Qed.
Print Assumptions C24_sound.

(** Up to 255 calls in every argument list, in any build: at least one item, at most one
    of them a predicate, and [not] has one argument. *)
Theorem C24_accepts pr text s roots :
  utf8 text -> unwrapped text s -> written roots s -> Forall narrow roots ->
  (is_ok (parse_expr pr text) = true <->
   roots <> [] /\ leaves roots <= 1 /\ Forall (proper (@length tree)) roots).
Proof. exact (fun V => parse_accepts pr text s roots (proj2 (utf8_valid_iff text) V)). Qed.
Print Assumptions C24_accepts.

(** A text is a way of writing one list of trees only. *)
Theorem C24_unambiguous s roots roots' :
  utf8 s -> written roots s -> written roots' s -> roots = roots'.
Proof. exact (fun V => written_unique s roots roots' (proj2 (utf8_valid_iff s) V)). Qed.
Print Assumptions C24_unambiguous.
Theorem C24_one_text text s s' : unwrapped text s -> unwrapped text s' -> s = s'.
Proof. exact (unwrapped_unique text s s'). Qed.
Print Assumptions C24_one_text.

(** Every tree with fit names can be written. *)
Theorem C24_every_tree t : printable t -> written [t] (show t).
Proof. exact (show_written t). Qed.
Print Assumptions C24_every_tree.

(** The documented single root does not hold. *)
Theorem C24_single_root_refuted :
  exists text s x y, utf8 text /\ unwrapped text s /\ written [x; y] s /\
    is_ok (parse_expr release text) = true.
Proof.
  exists (B "cfg(not(b), a)"), (B "not(b), a"),
    (Call CNot [Leaf (PFlag (B "b"))]), (Leaf (PFlag (B "a"))).
  split; [now apply utf8_valid_iff|]. split; [exact (unwrapped_cfg (B "not(b), a"))|].
  split; [|reflexivity]. exists [TNot; TOpen; TKey (B "b"); TClose; TComma; TKey (B "a")]. split.
  - assert (P : printable (Call CAll [Call CNot [Leaf (PFlag (B "b"))]; Leaf (PFlag (B "a"))])).
    { repeat (constructor; try discriminate);
        (eexists _, _; split; [reflexivity|split; [|constructor]]; cbv; right; left; easy). }
    apply (lexes_next TNot (B "not")); [constructor|intros _; solve_cut|].
    apply (lexes_next TOpen (B "(")); [constructor|intros []|].
    inversion P as [| |? ? F]; subst. inversion F as [|? ? P1 F2]; subst. inversion F2 as [|? ? P2 _]; subst.
    inversion P1 as [| |? ? F3]; subst. inversion F3 as [|? ? P3 _]; subst.
    apply (lexes_show _ P3 (B "), a")); [solve_cut|].
    apply (lexes_next TClose (B ")")); [constructor|intros []|].
    apply (lexes_next TComma (B ",")); [constructor|intros []|].
    apply (lexes_blank_before (B " ") (B "a") _ blank_space).
    rewrite <- (app_nil_r (B "a")). apply (lexes_show _ P2 []); [apply cut_nil|]. constructor. constructor.
  - refine (items_more _ [TNot; TOpen; TKey (B "b"); TClose] 0 _ [] [TKey (B "a")] _ _).
    + refine (item_call CNot _ [TKey (B "b")] _). exact (items_last _ [TKey (B "b")] 0 (item_flag _)).
    + exact (items_last _ [TKey (B "a")] 0 (item_flag _)).
Qed.
Print Assumptions C24_single_root_refuted.

Definition ex_tree : tree :=
  Call CAny [Call CAll [Leaf (PFlag (B "unix")); Call CNot [Leaf (PKeyValue (B "target_os") (B "macos"))]];
             Leaf (PFlag (B "windows")); Call CAny []].
Lemma ex_tree_printable : printable ex_tree.
Proof.
  repeat match goal with
  | |- printable _ => constructor
  | |- Forall _ _ => constructor
  | |- name_ok _ => split; [|repeat split; discriminate]
  | |- identifier _ =>
      eexists _, _; split; [reflexivity|split; [right; left; cbn; lia|
        repeat (constructor; [first [left; right; left; cbn; lia|left; right; right; reflexivity]|]);
        constructor]]
  | |- ~ In _ _ => cbn; intros H; repeat (destruct H as [H|H]; [discriminate H|]); exact H
  end.
Qed.
Lemma ex_tree_proper : proper (@length tree) ex_tree.
Proof. repeat (constructor; try discriminate). Qed.
Lemma ex_tree_narrow : narrow ex_tree.
Proof. repeat (constructor; try (cbn; lia)). Qed.
Example C24_example :
  show ex_tree = B "any(all(unix, not(target_os = ""macos"")), windows, any())" /\
  unwrapped (B "cfg(" ++ show ex_tree ++ B ")") (show ex_tree) /\ utf8 (B "cfg(" ++ show ex_tree ++ B ")") /\
  written [ex_tree] (show ex_tree) /\ Forall narrow [ex_tree] /\ accepted (show ex_tree) [ex_tree] /\
  is_ok (parse_expr debug (B "cfg(" ++ show ex_tree ++ B ")")) = true.
Proof.
  split; [reflexivity|]. split; [apply unwrapped_cfg|]. split; [now apply utf8_valid_iff|].
  assert (W := show_written _ ex_tree_printable).
  split; [assumption|]. split; [constructor; [exact ex_tree_narrow|constructor]|].
  split; [|reflexivity]. split; [assumption|].
  split; [constructor; [apply proper_counts; [exact ex_tree_narrow|exact ex_tree_proper]|constructor]|].
  split; [discriminate|cbn; lia].
Qed.
(** Commas may be repeated, a trailing one is allowed, the parts are not. *)
Example C24_examples :
  map (fun s => is_ok (parse_expr release s))
    [B "cfg(all(a,,b,))"; B "cfg(not(a, b))"; B "cfg(not())"; B "a, b"; B "all(a), any(b)"; B "";
     B "a = b"; B "a(b)"; B "all a"; B "(a)"; B "a = ""x"" = ""y"""; B ",a"; B "all(,a)"; B "all()all()"]
  = [true; false; false; false; true; false; false; false; false; false; false; false; false; false].
Proof. vm_compute. reflexivity. Qed.

(** ** C25 *)
(** [last roots d]: with several roots the last one counts. *)
Theorem C25_meaning (E : Type) pr text s roots e d (ep : predicate -> bool) :
  utf8 text -> unwrapped text s -> written roots s -> Forall narrow roots ->
  parse_expr pr text = Ok e -> @eval_expr E bool logic_bool ep e = Ok (meaning ep (last roots d)).
Proof. exact (fun V => parse_eval_bool pr text s roots e d ep (proj2 (utf8_valid_iff text) V)). Qed.
Print Assumptions C25_meaning.

(** Every tree, written in the usual way. *)
Theorem C25_every_tree (E : Type) pr t (ep : predicate -> bool) :
  printable t -> narrow t -> proper (@length tree) t -> utf8 (show t) ->
  exists e, parse_expr pr (B "cfg(" ++ show t ++ B ")") = Ok e /\
            @eval_expr E bool logic_bool ep e = Ok (meaning ep t).
Proof.
  intros Pt N Pr V. assert (W := show_written t Pt).
  assert (V' : utf8 (B "cfg(" ++ show t ++ B ")")).
  { apply utf8_app; [now apply utf8_valid_iff|]. apply utf8_app; [assumption|now apply utf8_valid_iff]. }
  assert (U := unwrapped_cfg (show t)).
  assert (Fn : Forall narrow [t]) by auto.
  assert (L : leaves [t] <= 1) by (destruct t; cbn; lia).
  assert (A := proj2 (C24_accepts pr _ _ [t] V' U W Fn)
    (conj (fun H => nil_cons (eq_sym H)) (conj L (Forall_cons t Pr (Forall_nil _))))).
  generalize (fun e => C25_meaning E pr _ _ [t] e t ep V' U W Fn). intros K.
  revert A K. generalize (parse_expr pr (B "cfg(" ++ show t ++ B ")")). clear.
  intros [e|e|p] A K; try discriminate A. exists e. split; [reflexivity|]. now apply K.
Qed.
Print Assumptions C25_every_tree.

(** With answers that may be unknown. *)
Theorem C25_unknown (E : Type) pr text s roots e d (ep : predicate -> option bool) :
  utf8 text -> unwrapped text s -> written roots s -> Forall narrow roots ->
  parse_expr pr text = Ok e ->
  exists v, @eval_expr E (option bool) logic_option ep e = Ok v /\ meaning3 ep (last roots d) v.
Proof. exact (fun V => parse_eval_option pr text s roots e d ep (proj2 (utf8_valid_iff text) V)). Qed.
Print Assumptions C25_unknown.
Theorem C25_unknown_unique ep t v v' : meaning3 ep t v -> meaning3 ep t v' -> v = v'.
Proof. exact (meaning3_unique ep t v v'). Qed.
Print Assumptions C25_unknown_unique.

Definition ex_ep (p : predicate) : bool :=
  match p with PFlag f => str_eqb f (B "unix") | PKeyValue _ v => str_eqb v (B "linux") end.
Example C25_example :
  printable ex_tree /\ narrow ex_tree /\ proper (@length tree) ex_tree /\ utf8 (show ex_tree) /\
  meaning ex_ep ex_tree = true /\
  (e <- parse_expr debug (B "cfg(" ++ show ex_tree ++ B ")") ;; eval_expr logic_bool ex_ep e) = Ok true /\
  (e <- parse_expr debug (B "cfg(" ++ show ex_tree ++ B ")") ;;
   eval_expr logic_option (fun p => match p with PFlag _ => Some false | _ => None end) e) = Ok (Some false) /\
  (e <- parse_expr debug (show (Call CNot [ex_tree])) ;;
   eval_expr logic_option (fun p => match p with PFlag _ => None | _ => Some false end) e) = Ok None /\
  (e <- parse_expr debug (B "all()") ;; eval_expr logic_bool ex_ep e) = Ok true /\
  (e <- parse_expr debug (B "any()") ;; eval_expr logic_bool ex_ep e) = Ok false.
Proof.
  split; [exact ex_tree_printable|]. split; [exact ex_tree_narrow|]. split; [exact ex_tree_proper|].
  split; [now apply utf8_valid_iff|]. repeat split; vm_compute; reflexivity.
Qed.

(** ** C26 *)
Definition wide_tree : tree := Call CAll (repeat (Call CAny []) 256).
Lemma wide_printable : printable wide_tree.
Proof.
  constructor. apply Forall_forall. intros x I. apply repeat_spec in I as ->. constructor. constructor.
Qed.
Lemma wide_proper : proper (@length tree) wide_tree.
Proof.
  constructor; [|discriminate]. apply Forall_forall. intros x I. apply repeat_spec in I as ->.
  constructor; [constructor|discriminate].
Qed.
(** [all(any(), ..., any())] with 256 arguments is false.  Without overflow checks it
    evaluates to true. *)
Theorem C26_no_limit_refuted :
  exists t ep e, printable t /\ proper (@length tree) t /\
    parse_expr release (show t) = Ok e /\ meaning ep t = false /\
    @eval_expr unit bool logic_bool ep e = Ok true.
Proof.
  exists wide_tree, (fun _ => false).
  exists (match parse_expr release (show wide_tree) with Ok e => e | _ => mkExpression [] [] end).
  split; [exact wide_printable|]. split; [exact wide_proper|].
  split; [|split]; vm_compute; reflexivity.
Qed.
Print Assumptions C26_no_limit_refuted.
(** With overflow checks parsing it panics. *)
Theorem C26_debug_refuted :
  exists t, printable t /\ proper (@length tree) t /\ parse_expr debug (show t) = Panic POverflow.
Proof.
  exists wide_tree. split; [exact wide_printable|]. split; [exact wide_proper|]. vm_compute. reflexivity.
Qed.
Print Assumptions C26_debug_refuted.

(** ** C27 *)
Theorem C27_parse pr text p :
  utf8 text -> parse_expr pr text = Panic p ->
  p = POverflow /\ overflow_checks pr = true /\ 256 <= opens text.
Proof. exact (fun V => parse_no_panic pr text p (proj2 (utf8_valid_iff text) V)). Qed.
Print Assumptions C27_parse.
Theorem C27_release text p : utf8 text -> parse_expr release text <> Panic p.
Proof. intros V P. apply C27_parse in P as (_ & O & _); [discriminate O|exact V]. Qed.
Print Assumptions C27_release.
Theorem C27_eval (E T : Type) (L : logic T) ep pr text e :
  utf8 text -> parse_expr pr text = Ok e -> exists v, @eval_expr E T L ep e = Ok v.
Proof. exact (fun V => parse_eval_ok L ep pr text e (proj2 (utf8_valid_iff text) V)). Qed.
Print Assumptions C27_eval.

Definition ex_accents : str :=
  B "cfg(any(" ++ bytes [226; 128; 168]%N ++ B "k = """ ++ bytes [240; 159; 166; 128]%N ++ B """))".
Example C27_example :
  utf8 ex_accents /\
  (e <- parse_expr debug ex_accents ;;
   eval_expr logic_bool (fun p => match p with PKeyValue _ v => str_eqb v (bytes [240; 159; 166; 128]%N)
                                             | _ => false end) e) = Ok true.
Proof. split; [now apply utf8_valid_iff|vm_compute; reflexivity]. Qed.

(** ** C28 *)
Theorem C28_errors pr text s e :
  utf8 text -> unwrapped text s -> parse_expr pr text = Err e -> err_ok s e.
Proof. exact (fun V => parse_err_ok pr text s e (proj2 (utf8_valid_iff text) V)). Qed.
Print Assumptions C28_errors.

Example C28_example :
  utf8 (B "cfg(all(a = , b))") /\ unwrapped (B "cfg(all(a = , b))") (B "all(a = , b)") /\
  exists e, parse_expr debug (B "cfg(all(a = , b))") = Err e /\ pe_span e = (8, 9) /\
            pe_original e = B "all(a = , b)".
Proof.
  split; [now apply utf8_valid_iff|]. split; [exact (unwrapped_cfg (B "all(a = , b)"))|].
  eexists. split; [vm_compute; reflexivity|split; reflexivity].
Qed.

(** ** C29 *)
Theorem C29_predicates out p :
  (forall k v, p = PKeyValue k v -> v <> []) ->
  (cfg_pred (cfg_parse out) p = true <-> holds out p).
Proof. exact (cfg_pred_iff out p). Qed.
Print Assumptions C29_predicates.
Theorem C29_empty_never out k : cfg_pred (cfg_parse out) (PKeyValue k []) = false.
Proof. exact (cfg_pred_empty out k). Qed.
Print Assumptions C29_empty_never.
(** A line [target_abi=""] is not seen. *)
Theorem C29_empty_value_refuted :
  exists out p, holds out p /\ cfg_pred (cfg_parse out) p = false.
Proof.
  exists (B "target_abi="""""), (PKeyValue (B "target_abi") []). split; [|reflexivity].
  split; [split|]; [|now repeat (intros [[=]|H]; revert H)|intros [[=]|[]]].
  exists [B "target_abi="""""], (B "target_abi=""""").
  split; [reflexivity|]. split.
  - constructor; [|constructor]. intros H. repeat (destruct H as [H|H]; [discriminate H|]). exact H.
  - split; [now left|]. apply StrFacts.trimmed_unique. reflexivity.
Qed.
Print Assumptions C29_empty_value_refuted.

Definition ex_output : str :=
  B "debug_assertions" ++ [ascii_of_N 10] ++ B "target_os=""linux""" ++ [ascii_of_N 13; ascii_of_N 10]
  ++ B "target_has_atomic=""8""" ++ [ascii_of_N 10] ++ B "target_has_atomic=""16""" ++ [ascii_of_N 10]
  ++ B "feature=""x""" ++ [ascii_of_N 10] ++ B "unix" ++ [ascii_of_N 10].
Example C29_example :
  map (cfg_pred (cfg_parse ex_output))
    [PFlag (B "unix"); PFlag (B "windows"); PFlag (B "debug_assertions");
     PKeyValue (B "target_os") (B "linux"); PKeyValue (B "target_has_atomic") (B "8");
     PKeyValue (B "target_has_atomic") (B "16"); PKeyValue (B "target_has_atomic") (B "32");
     PKeyValue (B "feature") (B "x"); PFlag (B "target_os")]
  = [true; false; false; true; true; true; false; false; false].
Proof. vm_compute. reflexivity. Qed.

(** ** C49 *)
Theorem C49_utf8 s : utf8_valid s = true <-> utf8 s.
Proof. exact (utf8_valid_iff s). Qed.
Print Assumptions C49_utf8.
Example C49_examples :
  map (fun l => utf8_valid (bytes l))
    [[104; 195; 169]; [240; 159; 166; 128]; [192; 128]; [237; 160; 128]; [244; 144; 128; 128];
     [226; 130]; [255]; [224; 159; 191]; [237; 159; 191]; [244; 143; 191; 191]]%N
  = [true; true; false; false; false; false; false; false; true; true].
Proof. vm_compute. reflexivity. Qed.
