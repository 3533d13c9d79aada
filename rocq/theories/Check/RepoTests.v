(** The tests of the repository, replayed on the model.

    Each [Example] is one assertion (or group of assertions) of a test in src/ or tests/,
    with the same inputs and the same expected values.  They say nothing about all inputs;
    they are a check that the model answers as the code does.  Where a test runs rustc, its
    answer is written down here. *)
From Verif.Model Require Import Base Str Path BMap Error CfgExpr CfgError Value De Merge SetPath
  Serde Triple EasyTypes Context ApplyEnv Walk Load Process Resolve Easy EasySerde.

(** ** src/cfg_expr/tests/lexer.rs *)
Fixpoint tokens_from (fuel : nat) (original inner : str) (offset : nat) : option (list token) :=
  match fuel with
  | O => None
  | S n =>
      match lex_next original inner offset with
      | Ok None => Some []
      | Ok (Some (t, _, inner', offset')) => option_map (cons t) (tokens_from n original inner' offset')
      | _ => None
      end
  end.
Definition tokens_of (s : string) : option (list token) :=
  match lexer_text (B s) with
  | Ok o => tokens_from (S (length o)) o o 0
  | _ => None
  end.

Example lexer_handles_raw : tokens_of "key" = Some [TKey (B "key")].
Proof. vm_compute. reflexivity. Qed.
Example lexer_strips_attribute : tokens_of "cfg(key)" = Some [TKey (B "key")].
Proof. vm_compute. reflexivity. Qed.
Example lexer_handle_key_value : tokens_of "key = ""value""" = Some [TKey (B "key"); TEquals; TValue (B "value")].
Proof. vm_compute. reflexivity. Qed.
Example lexer_handle_empty_value : tokens_of "key = """"" = Some [TKey (B "key"); TEquals; TValue []].
Proof. vm_compute. reflexivity. Qed.
Example lexer_handle_short_key : tokens_of "k" = Some [TKey (B "k")].
Proof. vm_compute. reflexivity. Qed.
Example lexer_handle_cfg_keywords : tokens_of "all(any(not(any_blah,all_nope,not_any)))" = Some [TAll; TOpen; TAny; TOpen; TNot; TOpen; TKey (B "any_blah"); TComma; TKey (B "all_nope"); TComma; TKey (B "not_any"); TClose; TClose; TClose].
Proof. vm_compute. reflexivity. Qed.

(** ** src/cfg_expr/tests/parser.rs *)
Definition fails (s : str) (sp : nat * nat) (r : reason) : Prop :=
  parse_expr debug s = Err (mkParseError s sp r) /\ parse_expr release s = Err (mkParseError s sp r).
(** [Expression::predicates], src/cfg_expr/expr/mod.rs:73-84. *)
Definition predicates (pr : profile) (s : string) : res parse_error (list predicate) :=
  e <- parse_expr pr (B s) ;;
  traverse (fun n => to_pred (ex_original e) n)
    (flat_map (fun n => match n with NPred p => [p] | NFn _ => [] end) (ex_expr e)).
Definition validates (s : string) (l : list predicate) : Prop :=
  predicates debug s = Ok l /\ predicates release s = Ok l.

Example fails_empty_1 : fails [] (0, 0) Empty.
Proof. vm_compute. split; reflexivity. Qed.
Example fails_empty_2 : fails (B " ") (0, 1) Empty.
Proof. vm_compute. split; reflexivity. Qed.
Example fails_empty_3 : fails [ascii_of_nat 10; ascii_of_nat 9; ascii_of_nat 10] (0, 3) Empty.
Proof. vm_compute. split; reflexivity. Qed.
Example fails_malformed_1 : fails (B ",") (0, 1) (Unexpected ["<key>"; "all"; "any"; "not"]%string).
Proof. vm_compute. split; reflexivity. Qed.
Example fails_malformed_2 : fails (B "8") (0, 1) (Unexpected ["<key>"; "all"; "any"; "not"]%string).
Proof. vm_compute. split; reflexivity. Qed.
Example fails_malformed_3 : fails (B "=") (0, 1) (Unexpected ["<key>"; "all"; "any"; "not"]%string).
Proof. vm_compute. split; reflexivity. Qed.
Example fails_malformed_4 : fails (B "(") (0, 1) (Unexpected ["<key>"; "all"; "any"; "not"]%string).
Proof. vm_compute. split; reflexivity. Qed.
Example fails_malformed_5 : fails (B "key =") (5, 5) (Unexpected ["""<value>"""]%string).
Proof. vm_compute. split; reflexivity. Qed.
Example fails_malformed_6 : fails (B "key1, key2") (0, 10) MultipleRootPredicates.
Proof. vm_compute. split; reflexivity. Qed.
Example fails_malformed_7 : fails (B "key1, key2,     ") (0, 16) MultipleRootPredicates.
Proof. vm_compute. split; reflexivity. Qed.
Example fails_malformed_8 : fails (B "key1 = ""v"", key2") (0, 16) MultipleRootPredicates.
Proof. vm_compute. split; reflexivity. Qed.
Example fails_unbalanced_parens_1 : fails (B "not(key") (3, 7) UnclosedParens.
Proof. vm_compute. split; reflexivity. Qed.
Example fails_unbalanced_parens_2 : fails (B "key)") (3, 4) UnopenedParens.
Proof. vm_compute. split; reflexivity. Qed.
Example fails_unbalanced_parens_3 : fails (B "foo (") (4, 5) (Unexpected ["="; ","; ")"]%string).
Proof. vm_compute. split; reflexivity. Qed.
Example fails_unbalanced_quotes_1 : fails (B "key = ""value") (6, 12) UnclosedQuotes.
Proof. vm_compute. split; reflexivity. Qed.
Example fails_unbalanced_quotes_2 : fails (B "key = """) (6, 7) UnclosedQuotes.
Proof. vm_compute. split; reflexivity. Qed.
Example fails_unbalanced_quotes_3 : fails (B "key = ""value, key = ""value""") (21, 26) (Unexpected [","; ")"]%string).
Proof. vm_compute. split; reflexivity. Qed.
Example fails_unbalanced_quotes_4 : fails (B "all(key = ""value), key = ""value""") (26, 31) (Unexpected [","; ")"]%string).
Proof. vm_compute. split; reflexivity. Qed.
Example fails_unbalanced_quotes_5 : fails (B "not(key = ""value)") (10, 17) UnclosedQuotes.
Proof. vm_compute. split; reflexivity. Qed.
Example handles_single_predicate_1 : validates "cfg(key)" [PFlag (B "key")].
Proof. vm_compute. split; reflexivity. Qed.
Example handles_single_predicate_2 : validates "unix" [PFlag (B "unix")].
Proof. vm_compute. split; reflexivity. Qed.
Example handles_single_predicate_3 : validates "target_arch = ""mips""" [PKeyValue (B "target_arch") (B "mips")].
Proof. vm_compute. split; reflexivity. Qed.
Example handles_single_predicate_4 : validates "feature = ""awesome""" [PKeyValue (B "feature") (B "awesome")].
Proof. vm_compute. split; reflexivity. Qed.
Example handles_single_predicate_5 : validates "_key" [PFlag (B "_key")].
Proof. vm_compute. split; reflexivity. Qed.
Example handles_single_predicate_6 : validates " key" [PFlag (B "key")].
Proof. vm_compute. split; reflexivity. Qed.
Example handles_single_predicate_7 : validates " key  " [PFlag (B "key")].
Proof. vm_compute. split; reflexivity. Qed.
Example handles_single_predicate_8 : validates " key  = ""val""" [PKeyValue (B "key") (B "val")].
Proof. vm_compute. split; reflexivity. Qed.
Example handles_single_predicate_9 : validates "key=""""" [PKeyValue (B "key") (B "")].
Proof. vm_compute. split; reflexivity. Qed.
Example handles_single_predicate_10 : validates " key=""7""       " [PKeyValue (B "key") (B "7")].
Proof. vm_compute. split; reflexivity. Qed.
Example handles_single_predicate_11 : validates "key = ""7 q"" " [PKeyValue (B "key") (B "7 q")].
Proof. vm_compute. split; reflexivity. Qed.
Example handles_single_predicate_12 : validates "target_has_atomic = ""ptr""" [PKeyValue (B "target_has_atomic") (B "ptr")].
Proof. vm_compute. split; reflexivity. Qed.
Example handles_single_predicate_13 : validates "target_has_atomic = ""4""" [PKeyValue (B "target_has_atomic") (B "4")].
Proof. vm_compute. split; reflexivity. Qed.
Example handles_single_predicate_14 : validates "target_has_atomic = ""64""" [PKeyValue (B "target_has_atomic") (B "64")].
Proof. vm_compute. split; reflexivity. Qed.
Example handles_single_predicate_15 : validates "target_has_atomic = ""128"" " [PKeyValue (B "target_has_atomic") (B "128")].
Proof. vm_compute. split; reflexivity. Qed.
Example handles_single_predicate_16 : validates "panic = ""unwind""" [PKeyValue (B "panic") (B "unwind")].
Proof. vm_compute. split; reflexivity. Qed.
Example handles_single_predicate_17 : validates "panic = ""abort""" [PKeyValue (B "panic") (B "abort")].
Proof. vm_compute. split; reflexivity. Qed.
Example handles_simple_fns_1 : validates "any()" [].
Proof. vm_compute. split; reflexivity. Qed.
Example handles_simple_fns_2 : validates "all()" [].
Proof. vm_compute. split; reflexivity. Qed.
Example handles_simple_fns_3 : validates "not(key = ""value"")" [PKeyValue (B "key") (B "value")].
Proof. vm_compute. split; reflexivity. Qed.
Example fails_invalid_fns_1 : fails (B "nope()") (4, 5) (Unexpected ["="; ","; ")"]%string).
Proof. vm_compute. split; reflexivity. Qed.
Example fails_invalid_fns_2 : fails (B "all(nope())") (8, 9) (Unexpected ["="; ","; ")"]%string).
Proof. vm_compute. split; reflexivity. Qed.
Example fails_invalid_fns_3 : fails (B "any(,)") (4, 5) (Unexpected ["<key>"; ")"; "all"; "any"; "not"]%string).
Proof. vm_compute. split; reflexivity. Qed.
Example fails_invalid_fns_4 : fails (B "blah(key)") (4, 5) (Unexpected ["="; ","; ")"]%string).
Proof. vm_compute. split; reflexivity. Qed.
Example ensures_not_has_one_predicate_1 : fails (B "not()") (0, 5) (InvalidNot 0).
Proof. vm_compute. split; reflexivity. Qed.
Example ensures_not_has_one_predicate_2 : fails (B "not(key_one, key_two)") (0, 21) (InvalidNot 2).
Proof. vm_compute. split; reflexivity. Qed.
Example ensures_not_has_one_predicate_3 : fails (B "any(not(not(key_one, key_two)))") (8, 29) (InvalidNot 2).
Proof. vm_compute. split; reflexivity. Qed.
Example ensures_not_has_one_predicate_4 : validates "not(key)" [PFlag (B "key")].
Proof. vm_compute. split; reflexivity. Qed.
Example ensures_not_has_one_predicate_5 : validates "not(key,)" [PFlag (B "key")].
Proof. vm_compute. split; reflexivity. Qed.
Example ensures_not_has_one_predicate_6 : validates "not(key = ""value"")" [PKeyValue (B "key") (B "value")].
Proof. vm_compute. split; reflexivity. Qed.
Example ensures_not_has_one_predicate_7 : validates "not(key = ""value"",)" [PKeyValue (B "key") (B "value")].
Proof. vm_compute. split; reflexivity. Qed.
Example ensures_not_has_one_predicate_8 : validates "not(not(not(key = ""value"",)))" [PKeyValue (B "key") (B "value")].
Proof. vm_compute. split; reflexivity. Qed.

(** ** src/cfg_expr/tests/eval.rs *)
Definition evaluates (ep : predicate -> bool) (s : string) : res parse_error bool :=
  e <- parse_expr debug (B s) ;; eval_expr logic_bool ep e.
Definition yes (_ : predicate) := true.
Definition no (_ : predicate) := false.
Example eval_tiny :
  evaluates no "all()" = Ok true /\ evaluates yes "any()" = Ok false
  /\ evaluates no "not(all())" = Ok false /\ evaluates yes "not(any())" = Ok true
  /\ evaluates no "all(not(blah))" = Ok true /\ evaluates yes "any(not(blah))" = Ok false.
Proof. vm_compute. repeat split. Qed.

(** What [rustc --print cfg --target ..] says of the targets used (the lines that matter,
    as stable rustc prints them). *)
Definition lines_of (l : list string) : str := flat_map (fun s => B s ++ [nl]) l.
Definition kv (k v : string) : string := (k ++ "=" ++ String dquote v ++ String dquote EmptyString)%string.
Definition cfg_common (arch os family_env endian width : string) (atomics : list string) : list string :=
  ["debug_assertions"%string; kv "panic" "unwind"; kv "target_arch" arch; kv "target_endian" endian;
   kv "target_env" family_env] ++ map (kv "target_has_atomic") atomics
  ++ [kv "target_os" os; kv "target_pointer_width" width].
Definition w64 := ["16"; "32"; "64"; "8"; "ptr"]%string.
Definition printed (t : string) : list string :=
  (if String.eqb t "x86_64-unknown-linux-gnu" then
     cfg_common "x86_64" "linux" "gnu" "little" "64" w64 ++ [kv "target_family" "unix"; kv "target_vendor" "unknown"; "unix"%string]
   else if String.eqb t "x86_64-unknown-linux-musl" then
     cfg_common "x86_64" "linux" "musl" "little" "64" w64 ++ [kv "target_family" "unix"; kv "target_vendor" "unknown"; "unix"%string]
   else if String.eqb t "x86_64-apple-darwin" then
     cfg_common "x86_64" "macos" "" "little" "64" w64 ++ [kv "target_family" "unix"; kv "target_vendor" "apple"; "unix"%string]
   else if String.eqb t "aarch64-apple-darwin" then
     cfg_common "aarch64" "macos" "" "little" "64" ("128"%string :: w64) ++ [kv "target_family" "unix"; kv "target_vendor" "apple"; "unix"%string]
   else if String.eqb t "aarch64-linux-android" then
     cfg_common "aarch64" "android" "" "little" "64" w64 ++ [kv "target_family" "unix"; kv "target_vendor" "unknown"; "unix"%string]
   else if String.eqb t "x86_64-pc-windows-msvc" then
     cfg_common "x86_64" "windows" "msvc" "little" "64" w64 ++ [kv "target_family" "windows"; kv "target_vendor" "pc"; "windows"%string]
   else if String.eqb t "i686-pc-windows-msvc" then
     cfg_common "x86" "windows" "msvc" "little" "32" w64
       ++ [kv "target_feature" "fxsr"; kv "target_feature" "sse"; kv "target_feature" "sse2"; kv "target_family" "windows"; kv "target_vendor" "pc"; "windows"%string]
   else if String.eqb t "i586-pc-windows-msvc" then
     cfg_common "x86" "windows" "msvc" "little" "32" w64 ++ [kv "target_family" "windows"; kv "target_vendor" "pc"; "windows"%string]
   else if String.eqb t "wasm32-unknown-emscripten" then
     cfg_common "wasm32" "emscripten" "" "little" "32" w64 ++ [kv "target_family" "unix"; kv "target_family" "wasm"; kv "target_vendor" "unknown"; "unix"%string]
   else if String.eqb t "wasm32-wasip1" then
     cfg_common "wasm32" "wasi" "p1" "little" "32" w64 ++ [kv "target_family" "wasm"; kv "target_vendor" "unknown"]
   else if String.eqb t "wasm32-unknown-unknown" then
     cfg_common "wasm32" "unknown" "" "little" "32" w64 ++ [kv "target_family" "wasm"; kv "target_vendor" "unknown"]
   else if String.eqb t "wasm64-unknown-unknown" then
     cfg_common "wasm64" "unknown" "" "little" "64" w64 ++ [kv "target_family" "wasm"; kv "target_vendor" "unknown"]
   else if String.eqb t "thumbv7m-none-eabi" then
     cfg_common "arm" "none" "" "little" "32" ["16"; "32"; "8"; "ptr"]%string ++ [kv "target_vendor" "unknown"]
   else if String.eqb t "armebv7r-none-eabi" then
     cfg_common "arm" "none" "" "big" "32" ["16"; "32"; "8"; "ptr"]%string ++ [kv "target_vendor" "unknown"]
   else if (String.eqb t "avr-unknown-gnu-atmega328" || String.eqb t "/r/tests/fixtures/target-specs/avr-unknown-gnu-atmega2560.json")%bool then
     cfg_common "avr" "none" "" "little" "16" [] ++ [kv "target_vendor" "unknown"]
   else [])%list.
(** A world in which [rustc] prints the above and every other program fails to start. *)
Definition test_world : world :=
  mkWorld (fun _ _ => false)
    (fun _ c =>
       match cmd_args c with
       | [p; c'; t; n] =>
           if (str_eqb (cmd_program c) (B "rustc") && str_eqb p (B "--print") && str_eqb c' (B "cfg")
               && str_eqb t (B "--target"))%bool
           then match printed (string_of_list_ascii n) with
                | [] => Exited false (B "exit status: 1") [] (B "error: Error loading target specification")
                | l => Exited true (B "exit status: 0") (lines_of l) []
                end
           else NotStarted KNotFound
       | _ => NotStarted KNotFound
       end).
Definition rustc_only : options :=
  opt_rustc (opt_cargo_home (opt_env options_default []) None) (epa_new (B "rustc")).
Definition test_cx : context := into_context (mkProcess [] None) rustc_only (B "/cwd").
Definition test_build : ebuild :=
  mkEbuild None None None None None None None None None None None false None false None.
Definition holds (e t : string) : result bool :=
  fst ((x <~ lift (triple_from (B t)) ;; eval_cfg debug test_world test_cx test_build (B e) x) (state_init test_cx)).
Definition all_hold (e : string) (l : list string) : Prop := Forall (fun t => holds e t = Ok true) l.
Definition none_hold (e : string) (l : list string) : Prop := Forall (fun t => holds e t = Ok false) l.
Ltac each := repeat (constructor; [vm_compute; reflexivity|]); constructor.

Example eval_target_family :
  all_hold "any(unix, target_family = ""windows"", target_family = ""wasm"")" ["aarch64-apple-darwin"; "x86_64-pc-windows-msvc"; "wasm32-unknown-unknown"]%string
  /\ none_hold "any(unix, target_family = ""windows"", target_family = ""wasm"")" ["thumbv7m-none-eabi"]%string.
Proof. split; [unfold all_hold; each | unfold none_hold; each]. Qed.
Example eval_target_family_impossible :
  none_hold "all(windows, target_family = ""unix"")" ["aarch64-apple-darwin"; "x86_64-pc-windows-msvc"; "wasm32-unknown-unknown"; "thumbv7m-none-eabi"]%string.
Proof. unfold all_hold, none_hold; each. Qed.
Example eval_very_specific :
  all_hold "all(
            target_os = ""windows"",
            target_arch = ""x86"",
            windows,
            target_env = ""msvc"",
            target_feature = ""fxsr"",
            target_feature = ""sse"",
            target_feature = ""sse2"",
            target_pointer_width = ""32"",
            target_endian = ""little"",
            not(target_vendor = ""uwp""),
            target_has_atomic = ""8"",
            target_has_atomic = ""16"",
            target_has_atomic = ""32"",
            target_has_atomic = ""64"",
            not(target_has_atomic = ""128""),
            target_has_atomic = ""ptr"",
            panic = ""unwind"",
            not(panic = ""abort""),
        )" ["i686-pc-windows-msvc"]%string
  /\ none_hold "all(
            target_os = ""windows"",
            target_arch = ""x86"",
            windows,
            target_env = ""msvc"",
            target_feature = ""fxsr"",
            target_feature = ""sse"",
            target_feature = ""sse2"",
            target_pointer_width = ""32"",
            target_endian = ""little"",
            not(target_vendor = ""uwp""),
            target_has_atomic = ""8"",
            target_has_atomic = ""16"",
            target_has_atomic = ""32"",
            target_has_atomic = ""64"",
            not(target_has_atomic = ""128""),
            target_has_atomic = ""ptr"",
            panic = ""unwind"",
            not(panic = ""abort""),
        )" ["i586-pc-windows-msvc"]%string.
Proof. split; [unfold all_hold; each | unfold none_hold; each]. Qed.
Example eval_complex_1 :
  all_hold "cfg(all(unix, not(any(target_os=""macos"", target_os=""android"", target_os=""emscripten""))))" ["x86_64-unknown-linux-gnu"; "x86_64-unknown-linux-musl"]%string
  /\ none_hold "cfg(all(unix, not(any(target_os=""macos"", target_os=""android"", target_os=""emscripten""))))" ["x86_64-pc-windows-msvc"; "x86_64-apple-darwin"; "aarch64-linux-android"]%string.
Proof. split; [unfold all_hold; each | unfold none_hold; each]. Qed.
Example eval_complex_2 :
  all_hold "all(not(target_os = ""ios""), not(target_os = ""android""))" ["x86_64-unknown-linux-gnu"; "x86_64-unknown-linux-musl"; "x86_64-pc-windows-msvc"; "x86_64-apple-darwin"]%string
  /\ none_hold "all(not(target_os = ""ios""), not(target_os = ""android""))" ["aarch64-linux-android"]%string.
Proof. split; [unfold all_hold; each | unfold none_hold; each]. Qed.
Example eval_complex_3 :
  all_hold "all(any(unix, target_arch=""x86""), not(any(target_os=""android"", target_os=""emscripten"")))" ["x86_64-unknown-linux-gnu"; "x86_64-unknown-linux-musl"; "x86_64-apple-darwin"]%string
  /\ none_hold "all(any(unix, target_arch=""x86""), not(any(target_os=""android"", target_os=""emscripten"")))" ["x86_64-pc-windows-msvc"; "aarch64-linux-android"]%string.
Proof. split; [unfold all_hold; each | unfold none_hold; each]. Qed.
Example eval_complex_4 :
  all_hold "all(target_os=""none"")" ["armebv7r-none-eabi"]%string
  /\ none_hold "all(target_os=""none"")" ["x86_64-unknown-linux-gnu"]%string.
Proof. split; [unfold all_hold; each | unfold none_hold; each]. Qed.
Example eval_wasm_family :
  all_hold "cfg(target_family = ""wasm"")" ["wasm32-unknown-unknown"; "wasm32-unknown-emscripten"; "wasm32-wasip1"; "wasm64-unknown-unknown"]%string.
Proof. unfold all_hold, none_hold; each. Qed.

(** ** src/resolve.rs:664-903 *)
Example target_triple :
  triple_from (E := error) (B "x86_64-unknown-linux-gnu") = Ok (mkTriple (B "x86_64-unknown-linux-gnu") None).
Proof. vm_compute. reflexivity. Qed.
Definition pairs_of (l : list (string * string)) : list (str * str) := map (fun x => (B (fst x), B (snd x))) l.
Definition env_with (l : list (string * string)) : env_map :=
  cx_env (into_context (mkProcess [] None) (opt_env options_default (pairs_of l)) (B "/cwd")).
Definition env_list : list (string * string) :=
  [("CARGO_BUILD_JOBS", "-1");
   ("RUSTC", "rustc");
   ("CARGO_BUILD_RUSTC", "rustc");
   ("RUSTC_WRAPPER", "rustc_wrapper");
   ("CARGO_BUILD_RUSTC_WRAPPER", "rustc_wrapper");
   ("RUSTC_WORKSPACE_WRAPPER", "rustc_workspace_wrapper");
   ("CARGO_BUILD_RUSTC_WORKSPACE_WRAPPER", "rustc_workspace_wrapper");
   ("RUSTDOC", "rustdoc");
   ("CARGO_BUILD_RUSTDOC", "rustdoc");
   ("CARGO_BUILD_TARGET", "triple");
   ("CARGO_TARGET_DIR", "target");
   ("CARGO_BUILD_TARGET_DIR", "target");
   ("CARGO_ENCODED_RUSTFLAGS", "1");
   ("RUSTFLAGS", "1");
   ("CARGO_BUILD_RUSTFLAGS", "1");
   ("CARGO_ENCODED_RUSTDOCFLAGS", "1");
   ("RUSTDOCFLAGS", "1");
   ("CARGO_BUILD_RUSTDOCFLAGS", "1");
   ("CARGO_INCREMENTAL", "false");
   ("CARGO_BUILD_INCREMENTAL", "1");
   ("CARGO_BUILD_DEP_INFO_BASEDIR", "1");
   ("BROWSER", "1");
   ("CARGO_FUTURE_INCOMPAT_REPORT_FREQUENCY", "always");
   ("CARGO_CARGO_NEW_VCS", "git");
   ("CARGO_HTTP_DEBUG", "true");
   ("CARGO_HTTP_PROXY", "-");
   ("CARGO_HTTP_TIMEOUT", "1");
   ("CARGO_HTTP_CAINFO", "-");
   ("CARGO_HTTP_CHECK_REVOKE", "true");
   ("CARGO_HTTP_LOW_SPEED_LIMIT", "1");
   ("CARGO_HTTP_MULTIPLEXING", "true");
   ("CARGO_HTTP_USER_AGENT", "-");
   ("CARGO_NET_RETRY", "1");
   ("CARGO_NET_GIT_FETCH_WITH_CLI", "false");
   ("CARGO_NET_OFFLINE", "false");
   ("CARGO_REGISTRIES_crates-io_INDEX", "https://github.com/rust-lang/crates.io-index");
   ("CARGO_REGISTRIES_crates-io_TOKEN", "00000000000000000000000000000000000");
   ("CARGO_REGISTRY_DEFAULT", "crates-io");
   ("CARGO_REGISTRY_TOKEN", "00000000000000000000000000000000000");
   ("CARGO_REGISTRIES_CRATES_IO_PROTOCOL", "git");
   ("CARGO_TERM_QUIET", "false");
   ("CARGO_TERM_VERBOSE", "false");
   ("CARGO_TERM_COLOR", "auto");
   ("CARGO_TERM_PROGRESS_WHEN", "auto");
   ("CARGO_TERM_PROGRESS_WIDTH", "100")]%string.
Example env_filter_applies : is_ok (apply_env (env_with env_list) config_default) = true.
Proof. vm_compute. reflexivity. Qed.
Example env_filter_keeps :
  let e := env_with (env_list ++ [("A", "B")%string]) in
  env_get (B "A") e = None /\ Forall (fun x => env_get (B (fst x)) e = Some (B (snd x))) env_list.
Proof. split; [vm_compute; reflexivity | each]. Qed.

Definition wrapped (l : list (string * string)) : result epath_and_args :=
  c <- apply_env (env_with l) config_default ;;
  b <- ebuild_of (B "/cwd") (c_build c) ;;
  fst (cx_rustc test_world (into_context (mkProcess [] None) (opt_env options_default (pairs_of l)) (B "/cwd")) b
         (state_init (into_context (mkProcess [] None) (opt_env options_default (pairs_of l)) (B "/cwd")))).
Example rustc_wrapper_1 :
  wrapped [("RUSTC", "rustc"); ("CARGO_BUILD_RUSTC", "cargo_build_rustc"); ("RUSTC_WRAPPER", "rustc_wrapper"); ("CARGO_BUILD_RUSTC_WRAPPER", "cargo_build_rustc_wrapper"); ("RUSTC_WORKSPACE_WRAPPER", "rustc_workspace_wrapper"); ("CARGO_BUILD_RUSTC_WORKSPACE_WRAPPER", "cargo_build_rustc_workspace_wrapper")]%string
  = Ok (mkEpa (B "rustc_wrapper") [B "rustc_workspace_wrapper"; B "rustc"]).
Proof. vm_compute. reflexivity. Qed.
Example rustc_wrapper_2 :
  wrapped [("RUSTC", "rustc"); ("CARGO_BUILD_RUSTC", "cargo_build_rustc"); ("RUSTC_WRAPPER", ""); ("CARGO_BUILD_RUSTC_WRAPPER", "cargo_build_rustc_wrapper"); ("RUSTC_WORKSPACE_WRAPPER", "rustc_workspace_wrapper"); ("CARGO_BUILD_RUSTC_WORKSPACE_WRAPPER", "cargo_build_rustc_workspace_wrapper")]%string
  = Ok (mkEpa (B "rustc_workspace_wrapper") [B "rustc"]).
Proof. vm_compute. reflexivity. Qed.
Example rustc_wrapper_3 :
  wrapped [("RUSTC", "rustc"); ("CARGO_BUILD_RUSTC", "cargo_build_rustc"); ("RUSTC_WRAPPER", "rustc_wrapper"); ("CARGO_BUILD_RUSTC_WRAPPER", "cargo_build_rustc_wrapper"); ("RUSTC_WORKSPACE_WRAPPER", ""); ("CARGO_BUILD_RUSTC_WORKSPACE_WRAPPER", "cargo_build_rustc_workspace_wrapper")]%string
  = Ok (mkEpa (B "rustc_wrapper") [B "rustc"]).
Proof. vm_compute. reflexivity. Qed.
Example rustc_wrapper_4 :
  wrapped [("CARGO_BUILD_RUSTC", "cargo_build_rustc"); ("CARGO_BUILD_RUSTC_WRAPPER", "cargo_build_rustc_wrapper"); ("CARGO_BUILD_RUSTC_WORKSPACE_WRAPPER", "cargo_build_rustc_workspace_wrapper")]%string
  = Ok (mkEpa (B "cargo_build_rustc_wrapper") [B "cargo_build_rustc_workspace_wrapper"; B "cargo_build_rustc"]).
Proof. vm_compute. reflexivity. Qed.
Example rustc_wrapper_5 :
  wrapped [("RUSTC", "rustc"); ("RUSTC_WRAPPER", "rustc_wrapper"); ("RUSTC_WORKSPACE_WRAPPER", "rustc_workspace_wrapper")]%string
  = Ok (mkEpa (B "rustc_wrapper") [B "rustc_workspace_wrapper"; B "rustc"]).
Proof. vm_compute. reflexivity. Qed.
Example rustc_wrapper_6 :
  wrapped [("RUSTC", "rustc"); ("RUSTC_WRAPPER", "rustc_wrapper"); ("RUSTC_WORKSPACE_WRAPPER", "")]%string
  = Ok (mkEpa (B "rustc_wrapper") [B "rustc"]).
Proof. vm_compute. reflexivity. Qed.
Example rustc_wrapper_7 :
  wrapped [("RUSTC", "rustc"); ("RUSTC_WRAPPER", ""); ("RUSTC_WORKSPACE_WRAPPER", "rustc_workspace_wrapper")]%string
  = Ok (mkEpa (B "rustc_workspace_wrapper") [B "rustc"]).
Proof. vm_compute. reflexivity. Qed.
Example rustc_wrapper_8 :
  wrapped [("RUSTC", "rustc"); ("RUSTC_WRAPPER", "rustc_wrapper")]%string
  = Ok (mkEpa (B "rustc_wrapper") [B "rustc"]).
Proof. vm_compute. reflexivity. Qed.
Example rustc_wrapper_9 :
  wrapped [("RUSTC", "rustc"); ("RUSTC_WORKSPACE_WRAPPER", "rustc_workspace_wrapper")]%string
  = Ok (mkEpa (B "rustc_workspace_wrapper") [B "rustc"]).
Proof. vm_compute. reflexivity. Qed.
Example rustc_wrapper_10 :
  wrapped [("RUSTC", "rustc"); ("RUSTC_WRAPPER", "")]%string
  = Ok (mkEpa (B "rustc") []).
Proof. vm_compute. reflexivity. Qed.
Example rustc_wrapper_11 :
  wrapped [("RUSTC", "rustc"); ("RUSTC_WORKSPACE_WRAPPER", "")]%string
  = Ok (mkEpa (B "rustc") []).
Proof. vm_compute. reflexivity. Qed.
Example env_non_utf8 :
  let v := [ascii_of_nat 102; ascii_of_nat 111; ascii_of_nat 128; ascii_of_nat 111] in
  let e := cx_env (into_context (mkProcess [] None) (opt_env options_default [(B "CARGO_ALIAS_a", v)]) (B "/cwd")) in
  cx_env_var e (B "CARGO_ALIAS_a")
  = Err (EWithContext (MText (B "failed to parse environment variable `CARGO_ALIAS_a`")) (Some (SVarError v))).
Proof. vm_compute. reflexivity. Qed.

(** ** src/env.rs:400-413 *)
Example empty_string_wrapper_envs :
  let b := mkBuild None None (Some (mkValue (B "rustc_wrapper") None)) (Some (mkValue (B "rustc_workspace_wrapper") None))
             None None None None None None None false false in
  match apply_build (env_with [("RUSTC_WRAPPER", ""); ("RUSTC_WORKSPACE_WRAPPER", "")]%string) b with
  | Ok b' => b_rustc_wrapper b' = None /\ b_rustc_workspace_wrapper b' = None
  | _ => False
  end.
Proof. vm_compute. split; reflexivity. Qed.

(** ** src/walk.rs:132-149 *)
Definition walk_files : list string :=
  ["/t/a/.cargo/config"; "/t/a/b/.cargo/config"; "/t/a/b/.cargo/config.toml"; "/t/a/b/c/.cargo/config.toml"]%string.
Example walk :
  let e p := existsb (fun f => str_eqb p (B f)) walk_files in
  let (r1, s1) := walk_next e (walk_init (B "/t/a/b/c") (Some (B "/t/a/.cargo"))) in
  let (r2, s2) := walk_next e s1 in
  let (r3, s3) := walk_next e s2 in
  let (r4, s4) := walk_next e s3 in
  r1 = Some (B "/t/a/b/c/.cargo/config.toml") /\ r2 = Some (B "/t/a/b/.cargo/config")
  /\ r3 = Some (B "/t/a/.cargo/config") /\ r4 = None.
Proof. vm_compute. repeat split. Qed.

(** ** tests/test.rs *)
Definition tstr (s : string) : toml := TomlStr (B s).
Definition tstrs (l : list string) : toml := TomlArr (map tstr l).
Definition ttab (l : list (string * toml)) : toml := TomlTab (map (fun x => (B (fst x), snd x)) l).
(** tests/fixtures/reference/.cargo/config.toml *)

Definition reference : toml :=
  ttab
    [("alias", ttab
      [("b", tstr "build");
       ("c", tstr "check");
       ("t", tstr "test");
       ("r", tstr "run");
       ("rr", tstr "run --release");
       ("recursive_example", tstr "rr --example recursions");
       ("space_example", tstrs ["run"; "--release"; "--"; """command list"""]%string)]%string);
     ("build", ttab
      [("jobs", TomlInt 1);
       ("rustc", tstr "rustc");
       ("rustc-wrapper", tstr "…");
       ("rustc-workspace-wrapper", tstr "…");
       ("rustdoc", tstr "rustdoc");
       ("target", tstr "triple");
       ("target-dir", tstr "target");
       ("rustflags", tstrs ["…"; "…"]%string);
       ("rustdocflags", tstrs ["…"; "…"]%string);
       ("incremental", TomlBool true);
       ("dep-info-basedir", tstr "…")]%string);
     ("doc", ttab
      [("browser", tstr "chromium")]%string);
     ("env", ttab
      [("ENV_VAR_NAME", ttab
        [("value", tstr "value");
         ("force", TomlBool true)]%string);
       ("ENV_VAR_NAME_2", tstr "value");
       ("ENV_VAR_NAME_3", ttab
        [("value", tstr "relative/path");
         ("relative", TomlBool true)]%string)]%string);
     ("future-incompat-report", ttab
      [("frequency", tstr "always")]%string);
     ("cargo-new", ttab
      [("vcs", tstr "none")]%string);
     ("http", ttab
      [("debug", TomlBool false);
       ("proxy", tstr "host:port");
       ("timeout", TomlInt 30);
       ("low-speed-limit", TomlInt 10);
       ("cainfo", tstr "cert.pem");
       ("check-revoke", TomlBool true);
       ("multiplexing", TomlBool true);
       ("user-agent", tstr "foo-usr-agt")]%string);
     ("net", ttab
      [("retry", TomlInt 2);
       ("git-fetch-with-cli", TomlBool true);
       ("offline", TomlBool true)]%string);
     ("registries", ttab
      [("crates-io", ttab
        [("index", tstr "https://github.com/rust-lang/crates.io-index");
         ("token", tstr "00000000000000000000000000000000000");
         ("protocol", tstr "git")]%string)]%string);
     ("registry", ttab
      [("default", tstr "crates-io");
       ("token", tstr "00000000000000000000000000000000000")]%string);
     ("target", ttab
      [("x86_64-unknown-linux-gnu", ttab
        [("linker", tstr "b");
         ("runner", tstr "b");
         ("rustflags", tstrs ["b"; "bb"]%string);
         ("rustdocflags", tstrs ["d"; "dd"]%string)]%string);
       ("cfg(target_arch = ""x86_64"")", ttab
        [("runner", tstr "c");
         ("rustflags", tstrs ["c"; "cc"]%string)]%string)]%string);
     ("term", ttab
      [("quiet", TomlBool false);
       ("verbose", TomlBool false);
       ("color", tstr "auto");
       ("progress", ttab
        [("when", tstr "auto");
         ("width", TomlInt 80)]%string)]%string)]%string.
Definition files (l : list (string * toml)) : fs :=
  mkFsys (fun p => existsb (fun x => str_eqb p (B (fst x))) l)
    (fun p => match find (fun x => str_eqb p (B (fst x))) l with Some x => ReadTree (snd x) | None => ReadErr KNotFound end).
Definition reference_files : fs := files [("/p/.cargo/config.toml", reference)]%string.
Definition loaded (f : fs) (dir : string) : result econfig :=
  easy_load_with_options f (mkProcess [] None) (B dir) rustc_only.
Definition with_config (f : fs) (dir : string) (P : econfig -> Prop) : Prop :=
  match loaded f dir with Ok c => P c | _ => False end.
Definition asked (c : econfig) (q : query) : result answer :=
  fst (run_query debug test_world c q (state_init (ec_cx c))).
Definition flags_ (l : list string) : option eflags := Some (mkEflags (map B l)).
Definition list_ (l : list string) : option estring_list := Some (mkEsl (map B l)).

Example reference_alias : with_config reference_files "/p" (fun c =>
  let a n := bget (B n) (ec_alias c) in
  length (ec_alias c) = 7
  /\ a "b"%string = list_ ["build"]%string /\ a "c"%string = list_ ["check"]%string
  /\ a "t"%string = list_ ["test"]%string /\ a "r"%string = list_ ["run"]%string
  /\ a "rr"%string = Some (esl_from_string (B "run --release"))
  /\ a "recursive_example"%string = Some (esl_from_string (B "rr --example recursions"))
  /\ a "space_example"%string = list_ ["run"; "--release"; "--"; """command list"""]%string).
Proof. vm_compute. repeat split. Qed.
Example reference_build : with_config reference_files "/p" (fun c =>
  let b := ec_build c in
  eb_rustc b = Some (B "rustc") /\ eb_rustc_wrapper b = Some (B "…")
  /\ eb_rustc_workspace_wrapper b = Some (B "…") /\ eb_rustdoc b = Some (B "rustdoc")
  /\ eb_target b = Some [mkTriple (B "triple") None] /\ eb_target_dir b = Some (B "/p/target")
  /\ eb_rustflags b = flags_ ["…"; "…"]%string /\ eb_rustdocflags b = flags_ ["…"; "…"]%string
  /\ eb_incremental b = Some true /\ eb_dep_info_basedir b = Some (B "/p/…")).
Proof. vm_compute. repeat split. Qed.
Example reference_doc : with_config reference_files "/p" (fun c => ed_browser (ec_doc c) = Some (mkEpa (B "chromium") [])).
Proof. vm_compute. reflexivity. Qed.
Example reference_env : with_config reference_files "/p" (fun c =>
  bget (B "ENV_VAR_NAME") (ec_env c) = Some (mkEenv (B "value") true false)
  /\ bget (B "ENV_VAR_NAME_2") (ec_env c) = Some (mkEenv (B "value") false false)
  /\ bget (B "ENV_VAR_NAME_3") (ec_env c) = Some (mkEenv (B "/p/relative/path") false false)).
Proof. vm_compute. repeat split. Qed.
Example reference_small : with_config reference_files "/p" (fun c =>
  efr_frequency (ec_future_incompat_report c) = Some FreqAlways
  /\ ecn_vcs (ec_cargo_new c) = Some VcsNone
  /\ ec_http c = mkEhttp (Some false) (Some (B "host:port")) (Some 30%N) (Some (B "cert.pem")) (Some true) (Some 10%N)
                   (Some true) (Some (B "foo-usr-agt"))
  /\ ec_net c = mkEnet (Some 2%N) (Some true) (Some true)
  /\ ec_registries c = [(B "crates-io", mkEregistries (Some (B "https://github.com/rust-lang/crates.io-index"))
                                          (Some (B "00000000000000000000000000000000000")) (Some ProtoGit))]
  /\ ec_registry c = mkEregistry (Some (B "crates-io")) (Some (B "00000000000000000000000000000000000"))
  /\ ec_term c = mkEterm (Some false) (Some false) (Some ColorAuto) (mkEprogress (Some WhenAuto) (Some 80%N))).
Proof. vm_compute. repeat split. Qed.
Definition linux : target_arg := ArgText (B "x86_64-unknown-linux-gnu").
Example reference_target : with_config reference_files "/p" (fun c =>
  asked c (QTarget linux)
  = Ok (ATarget (mkEtarget (Some (B "b")) (Some (mkEpa (B "b") [])) (flags_ ["b"; "bb"; "c"; "cc"]%string)
                   (flags_ ["d"; "dd"]%string)))
  /\ asked c (QLinker linux) = Ok (APath (Some (B "b")))
  /\ asked c (QRunner linux) = Ok (APa (Some (mkEpa (B "b") [])))
  /\ asked c (QRustflags linux) = Ok (AFlags (flags_ ["b"; "bb"; "c"; "cc"]%string))
  /\ asked c (QRustdocflags linux) = Ok (AFlags (flags_ ["d"; "dd"]%string))).
Proof. vm_compute. repeat split. Qed.
Definition cfg_arg : target_arg := ArgText (B "cfg(target_arch = ""x86_64"")").
Definition not_a_triple (r : result answer) : Prop :=
  r = Err (EOther (MText (B "'cfg(target_arch = ""x86_64"")' is not valid target triple"))).
Example reference_not_by_cfg : with_config reference_files "/p" (fun c =>
  not_a_triple (asked c (QTarget cfg_arg)) /\ not_a_triple (asked c (QLinker cfg_arg))
  /\ not_a_triple (asked c (QRunner cfg_arg)) /\ not_a_triple (asked c (QRustflags cfg_arg))).
Proof. vm_compute. repeat split. Qed.
Definition is_some {A} (o : option A) : bool := match o with Some _ => true | None => false end.
Example reference_serializes : with_config reference_files "/p" (fun c =>
  is_some (eser_config c (s_target (run_queries debug test_world c [QTarget linux] (state_init (ec_cx c))))) = true).
Proof. vm_compute. reflexivity. Qed.
Example no_manifest_dir : with_config (files []) "/tmp/x" (fun c => eser_config c [] = Some (TomlTab [])).
Proof. vm_compute. reflexivity. Qed.
Example de_reference : is_ok (load_with_options reference_files (B "/p") None) = true
  /\ ser_config config_default = TomlTab [].
Proof. vm_compute. split; reflexivity. Qed.

Definition avr_doc : toml :=
  ttab [("target", ttab [("cfg(target_arch = ""avr"")", ttab [("linker", tstr "avr-gcc"); ("rustflags", tstr "-C opt-level=s")])])]%string.
Definition custom_target (c : econfig) (cli name file : string) : Prop :=
  let a := ArgText (B cli) in
  match asked c (QBuildTargetForConfig [a]) with
  | Ok (ATriples l) => map tt_triple l = [B name]
  | _ => False
  end
  /\ asked c (QBuildTargetForCli [B cli]) = Ok (AStrs [B cli])
  /\ asked c (QLinker a) = Ok (APath (Some (B "avr-gcc")))
  /\ asked c (QRustflags a) = Ok (AFlags (flags_ ["-C"; "opt-level=s"]%string))
  /\ asked c (QBuildTargetForConfig [ArgText (B file)]) = Ok (ATriples [mkTriple (B name) (Some (B file))])
  /\ asked c (QBuildTargetForCli [B file]) = Ok (AStrs [B file])
  /\ is_some (eser_config c (s_target (run_queries debug test_world c [QLinker a] (state_init (ec_cx c))))) = true.
Example custom_target_builtin : with_config (files [("/e/.cargo/config.toml", avr_doc)]%string) "/e" (fun c =>
  custom_target c "avr-unknown-gnu-atmega328" "avr-unknown-gnu-atmega328" "avr-unknown-gnu-atmega328.json").
Proof. vm_compute. repeat split. Qed.
Example custom_target_spec : with_config (files [("/e/.cargo/config.toml", avr_doc)]%string) "/e" (fun c =>
  custom_target c "/r/tests/fixtures/target-specs/avr-unknown-gnu-atmega2560.json" "avr-unknown-gnu-atmega2560"
    "avr-unknown-gnu-atmega2560.json").
Proof. vm_compute. repeat split. Qed.
(** The [env] table does not take part in the resolution. *)
Example env_table_is_no_variable :
  with_config (files [("/e/.cargo/config.toml",
                       ttab [("env", ttab [("RUSTFLAGS", tstr "--cfg a")]); ("build", ttab [("rustflags", tstr "--cfg b")])])]%string) "/e"
    (fun c => asked c (QRustflags linux) = Ok (AFlags (flags_ ["--cfg"; "b"]%string))).
Proof. vm_compute. reflexivity. Qed.
