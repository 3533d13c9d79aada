(** C88: what cargo and rustc tell on Windows from any directory. *)
From Verif.Model Require Import Base Str Path StdPath OsPaths BMap Error Value De CfgExpr Triple EasyTypes Context ApplyEnv
  Process Walk Load Resolve Easy OsLoad.
From Verif.Spec Require WinAnySpec.
From Verif.Spec Require Import StrSpec ConfigSpec LoadSpec EnvSpec CfgSpec TargetSpec FinalSpec QuerySpec WinSpec WinLoadSpec WinPanicSpec
  OsTargetSpec WinTargetSpec OsQuerySpec CfgErrorSpec ErrorSpec BlameSpec QueryBlameSpec WinAnyLoadSpec WinAnyTargetSpec.
From Verif.Proof Require Import Utf8Proof LoadProof FinalProof CfgEvalProof StateProof OsTargetProof OsQueryProof WinTargetProof WinLoadProof WinPanicProof
  OsQueryBlameProof WinAnyLoadProof WinAnyTargetProof.
From Verif.Props Require Import WinAnyTarget.
From Verif.Spec Require Import WinSpec WinAnyLoadSpec WinAnyTargetSpec.

(** The version of cargo is one that it told when it was run. *)
Theorem C88_cargo_version f p cwd o env cargo ec pr w s v s' :
  any_loaded f p cwd o env cargo ec -> os_reached windows (B ".exe") pr w ec s ->
  os_run_query windows (B ".exe") pr w ec QCargoVersion s = (Ok (ACargoVersion v), s') ->
  cargo_said w cargo s' v.
Proof.
  intros A Rs Q. assert (T := any_told _ _ _ _ _ _ _ w A pr s Rs). destruct (any_context _ _ _ _ _ _ _ A) as (E1 & E2 & E3).
  destruct (cv_told_result windows (B ".exe") pr w ec _ (any_mono cargo ec w) (any_now _ _ _ _ _ _ _ w A) s T) as [T' K].
  cbn [os_run_query] in Q. unfold mapM in Q. apply bindM_ok in Q as (x & s1 & Q & E). injection E as -> <-.
  rewrite Q in T', K. rewrite <- E1. exact (told_cv _ _ _ _ T' v K).
Qed.
Print Assumptions C88_cargo_version.
(** ** Examples: the configuration of [C88_ex_meets], where cargo is [d:/t//bin\cargo.exe] *)
Definition c88_lines (l : list string) : str := flat_map (fun s => B s ++ ["010"%char]) l.
Definition c88_tools (cargo : outcome) : world := mkWorld (fun _ a => std_eqb windows a (B "D:\t\bin\rustc.exe"))
  (fun _ c => if str_eqb (cmd_program c) (B "d:/t//bin\cargo.exe") then cargo
              else Exited true (B "exit code: 0") (c88_lines ["rustc 1.76.0"; "release: 1.76.0"; "host: h"]%string) []).
Definition c88_talks : world := c88_tools (Exited true (B "exit code: 0") (B "release: 1.75.0") []).
Definition c88_fails : world := c88_tools (Exited false (B "exit code: 1") [] []).
Definition c88_told (w : world) (q : query) := match c88_loaded with
  | Ok ec => Some (let r := os_run_query windows (B ".exe") release w ec q (state_init (ec_cx ec)) in (fst r, s_trace (snd r)))
  | _ => None end.
Definition c88_ask_cargo : command := mkCommand (B "d:/t//bin\cargo.exe") [B "-vV"].
Definition c88_ask_rustc : command := mkCommand (B "d:/t//bin\rustc.exe") [B "-vV"].
Example C88_ex_told :
  c88_told c88_talks QCargoVersion = Some (Ok (ACargoVersion (mkCargoVersion 1 75 0 false)), [c88_ask_rustc; c88_ask_cargo])
  /\ c88_told c88_talks QRustcVersion = Some (Ok (ARustcVersion (mkRustcVersion 1 76 (Some 0%N) false)), [c88_ask_rustc; c88_ask_cargo])
  /\ c88_told c88_talks QHostTriple = Some (Ok (AStr (B "h")), [c88_ask_rustc; c88_ask_cargo])
  /\ match c88_told c88_fails QCargoVersion with Some (Err _, cmds) => cmds = [c88_ask_cargo; c88_ask_rustc; c88_ask_cargo] | _ => False end.
Proof. vm_compute. repeat split. Qed.
