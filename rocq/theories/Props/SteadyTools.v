(** Tools that do not change: exactly what they say is answered (C37). *)
From Verif.Model Require Import Base Str Path StdPath OsPaths BMap Error Value De CfgExpr Triple EasyTypes Context
  Process Resolve Easy OsLoad.
From Verif.Spec Require Import StrSpec PathSpec TripleSpec TargetSpec OsTargetSpec QuerySpec OsQuerySpec.
From Verif.Proof Require Import StdUnixProof OsUnixProof OsLoadProof OsTargetProof.
From Verif.Proof Require QueryProof OsQueryProof WinQueryProof.
From Verif.Props Require Import Query.

(** The compilers that may be found at any time. *)
Definition once (w : world) (c : econfig) (_ : nat) (p : str) : Prop := exists k, p = os_compiler unix [] w c k.

Lemma once_compiler w c p : once w c 0 p <-> exists n, compiler w (ec_cx c) (ec_build c) n p.
Proof.
  unfold once, os_compiler, compiler, os_rustc_path. destruct (eb_rustc (ec_build c)) as [r|].
  - split; [intros (_ & ->); now exists 0 | intros (_ & ->); now exists 0].
  - rewrite app_nil_r, unix_join, unix_pop. split.
    + intros (k & ->). exists (S k), k, (join (pop (cx_cargo (ec_cx c))) (B "rustc")).
      split; [lia|]. split; [now apply QueryProof.next_to_iff | reflexivity].
    + intros (n & k & q & _ & H & ->). apply QueryProof.next_to_iff in H as ->. now exists k.
Qed.
Lemma asked_once w c cmd :
  asked_rustc (once w c) (ec_build c) 0 cmd <-> exists n, rustc_question w (ec_cx c) (ec_build c) n cmd.
Proof.
  unfold asked_rustc, rustc_question. split.
  - intros (p & F & A). apply once_compiler in F as (n & F). now exists n, p.
  - intros (n & p & F & A). exists p. split; [apply once_compiler; now exists n | exact A].
Qed.
Lemma once_mono w c n m p : n <= m -> once w c n p -> once w c m p.
Proof. auto. Qed.
Lemma once_now w c n m : n <= m -> once w c m (os_compiler unix [] w c n).
Proof. intros _. now exists n. Qed.
Lemma once_only w c n p : once w c n p -> exists k, p = os_compiler unix [] w c k.
Proof. auto. Qed.
Lemma reached_once pr w c s : reached pr w c s -> OsQueryProof.told w c (once w c) s.
Proof.
  intros (qs & _ & ->). assert (T := OsQueryProof.told_init w c (once w c)). revert T. generalize (state_init (ec_cx c)) as s.
  induction qs as [|q qs IH]; intros s T; [assumption|]. cbn [run_queries]. apply IH. rewrite <- unix_run_query.
  now apply (OsQueryProof.keeps_query unix [] pr w c (once w c) (once_mono w c) (once_now w c)).
Qed.

(** ** C37 *)
(** The version of rustc, with tools that do not change and no assertions. *)
Theorem C37_rustc_always pr w c s v :
  steady w -> debug_assertions pr = false -> reached pr w c s ->
  fst (run_query pr w c QRustcVersion s) = Ok (ARustcVersion v)
  <-> exists n cmd out, rustc_question w (ec_cx c) (ec_build c) n cmd
      /\ read_outcome cmd (w_run w 0 cmd) = Ok out /\ says_rustc out v.
Proof.
  intros St D Rs. apply reached_once in Rs. rewrite <- unix_run_query.
  rewrite (WinQueryProof.rustc_always unix [] pr w c (once w c) (once_mono w c) (once_now w c) St (once_only w c) D s v Rs).
  split.
  - intros (cmd & out & A & P). apply asked_once in A as (n & A). now exists n, cmd, out.
  - intros (n & cmd & out & A & P). exists cmd, out. split; [apply asked_once; now exists n | exact P].
Qed.
Print Assumptions C37_rustc_always.
(** The host: the option, or what cargo says, or what rustc says where cargo does not say it. *)
Theorem C37_host_always pr w c s h :
  steady w -> debug_assertions pr = false -> reached pr w c s ->
  let q := cargo_question (ec_cx c) in
  let cargo_says h := exists out v, read_outcome q (w_run w 0 q) = Ok out /\ says_cargo out v /\ says_host out h in
  let rustc_says h := exists n cmd out v, rustc_question w (ec_cx c) (ec_build c) n cmd
      /\ read_outcome cmd (w_run w 0 cmd) = Ok out /\ says_rustc out v /\ says_host out h in
  fst (run_query pr w c QHostTriple s) = Ok (AStr h)
  <-> match cx_host0 (ec_cx c) with
      | Some h0 => h = h0
      | None => cargo_says h \/ ((forall h', ~ cargo_says h') /\ rustc_says h)
      end.
Proof.
  intros St D Rs q cs rs. apply reached_once in Rs. rewrite <- unix_run_query.
  rewrite (WinQueryProof.host_always unix [] pr w c (once w c) (once_now w c) St (once_only w c) D s h Rs).
  unfold steady_host. destruct (cx_host0 (ec_cx c)) as [h0|].
  { split; [intros [[= ->]|[[=] _]]; reflexivity | intros ->; now left]. }
  split.
  - intros [[=]|[_ [H|[N (cmd & out & v & A & P)]]]]; [now left|]. right. split.
    + intros h' (out' & v' & P' & Sv & Sh). exact (N out' v' h' P' Sv Sh).
    + apply asked_once in A as (n & A). now exists n, cmd, out, v.
  - intros [H|[N (n & cmd & out & v & A & P)]]; right; split; auto. right. split.
    + intros out' v' h' P' Sv Sh. apply (N h'). now exists out', v'.
    + exists cmd, out, v. split; [apply asked_once; now exists n | exact P].
Qed.
Print Assumptions C37_host_always.
(** cargo says the host, or it does not start and rustc says it. *)
Example C37_ex_always :
  let good := ex_tools (ex_says ex_cargo_vv) (ex_says ex_rustc_vv) in
  let bad := ex_tools (NotStarted KNotFound) (ex_says ex_rustc_vv) in
  steady good /\ steady bad /\ debug_assertions release = false
  /\ ex_after release good [QCargoVersion] QRustcVersion = Some (Ok (ARustcVersion (mkRustcVersion 1 76 (Some 0%N) true)))
  /\ ex_after release good [QRustcVersion] QHostTriple = Some (Ok (AStr (B "x86_64-unknown-linux-gnu")))
  /\ ex_after release bad [QRustcVersion] QHostTriple = Some (Ok (AStr (B "aarch64-apple-darwin")))
  /\ ex_after release bad [] QHostTriple = Some (Ok (AStr (B "aarch64-apple-darwin"))).
Proof. vm_compute. repeat split. Qed.
