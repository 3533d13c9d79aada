(** The types of the crate and the assertions of src/gen/assert_impl.rs, written by a script
    from src/**/*.rs.  A type is its parts: the types of the fields, of all variants
    together. *)
From Verif.Model Require Import Base Types AssertImpl.

(** What the generator sees of src/ (the tests of cfg_expr/ define no types).  A module is named
    by its file.  [impl] blocks are left out, and so are the types inside functions, which are
    not public (src/de.rs:1091, src/easy.rs:699, src/cfg_expr/expr/parser.rs:16). *)
Definition crate_files : list (list str * list titem) :=
  [
([B "error"],
    [TypeItem false (B "ParseError") 0 0 0;
     TypeItem false (B "Reason") 0 0 0]);
   ([B "lexer"],
    [TypeItem false (B "Token") 1 0 0;
     TypeItem false (B "Lexer") 1 0 0;
     TypeItem false (B "LexerToken") 1 0 0]);
   ([B "mod"],
    [TypeItem false (B "Func") 0 0 0;
     TypeItem false (B "Predicate") 1 0 0;
     TypeItem false (B "InnerPredicate") 0 0 0;
     TypeItem false (B "ExprNode") 0 0 0;
     TypeItem false (B "Expression") 0 0 0]);
   ([B "de"],
    [TypeItem true (B "Config") 0 0 0;
     TypeItem true (B "BuildConfig") 0 0 0;
     TypeItem true (B "TargetConfig") 0 0 0;
     TypeItem true (B "DocConfig") 0 0 0;
     TypeItem true (B "EnvConfigValue") 0 0 0;
     TypeItem true (B "FutureIncompatReportConfig") 0 0 0;
     TypeItem true (B "CargoNewConfig") 0 0 0;
     TypeItem true (B "VersionControlSoftware") 0 0 0;
     TypeItem true (B "HttpConfig") 0 0 0;
     TypeItem true (B "NetConfig") 0 0 0;
     TypeItem true (B "RegistriesConfigValue") 0 0 0;
     TypeItem true (B "RegistriesProtocol") 0 0 0;
     TypeItem true (B "RegistryConfig") 0 0 0;
     TypeItem true (B "TermConfig") 0 0 0;
     TypeItem true (B "TermProgress") 0 0 0;
     TypeItem true (B "Color") 0 0 0;
     TypeItem true (B "When") 0 0 0;
     TypeItem true (B "Frequency") 0 0 0;
     TypeItem true (B "Flags") 0 0 0;
     TypeItem true (B "ConfigRelativePath") 0 0 0;
     TypeItem true (B "PathAndArgs") 0 0 0;
     TypeItem true (B "StringList") 0 0 0;
     TypeItem false (B "StringListDeserializedRepr") 0 0 0;
     TypeItem true (B "StringOrArray") 0 0 0]);
   ([B "easy"],
    [TypeItem true (B "Config") 0 0 0;
     TypeItem true (B "BuildConfig") 0 0 0;
     TypeItem true (B "TargetConfig") 0 0 0;
     TypeItem true (B "DocConfig") 0 0 0;
     TypeItem true (B "EnvConfigValue") 0 0 0;
     TypeItem true (B "FutureIncompatReportConfig") 0 0 0;
     TypeItem true (B "CargoNewConfig") 0 0 0;
     TypeItem true (B "HttpConfig") 0 0 0;
     TypeItem true (B "NetConfig") 0 0 0;
     TypeItem true (B "RegistriesConfigValue") 0 0 0;
     TypeItem true (B "RegistryConfig") 0 0 0;
     TypeItem true (B "TermConfig") 0 0 0;
     TypeItem true (B "TermProgressConfig") 0 0 0;
     TypeItem true (B "Flags") 0 0 0;
     TypeItem true (B "PathAndArgs") 0 0 0;
     TypeItem true (B "StringList") 0 0 0]);
   ([B "error"],
    [TypeItem false (B "Result") 0 2 0;
     TypeItem true (B "Error") 0 0 0;
     TypeItem false (B "ErrorKind") 0 0 0]);
   ([B "assert_impl"],
    [TypeItem false (B "NotSync") 0 0 0;
     TypeItem false (B "NotSend") 0 0 0;
     TypeItem false (B "NotSendSync") 0 0 0;
     TypeItem false (B "NotUnpin") 0 0 0;
     TypeItem false (B "NotUnwindSafe") 0 0 0;
     TypeItem false (B "NotRefUnwindSafe") 0 0 0]);
   ([B "process"],
    [TypeItem false (B "ProcessBuilder") 0 0 0]);
   ([B "resolve"],
    [TypeItem true (B "ResolveOptions") 0 0 0;
     TypeItem true (B "ResolveContext") 0 0 0;
     TypeItem false (B "CfgMap") 0 0 0;
     TypeItem false (B "Cfg") 0 0 0;
     TypeItem true (B "TargetTripleRef") 1 0 0;
     TypeItem true (B "TargetTriple") 0 0 0;
     TypeItem false (B "TargetTripleBorrow") 1 0 0;
     TypeItem true (B "RustcVersion") 0 0 0;
     TypeItem true (B "CargoVersion") 0 0 0]);
   ([B "value"],
    [TypeItem true (B "Value") 0 1 0;
     TypeItem true (B "Definition") 0 0 0]);
   ([B "walk"],
    [TypeItem false (B "WalkInner") 1 1 0;
     TypeItem true (B "Walk") 1 0 0])].

(** The declarations, by the same names. *)
Definition crate_types : list (str * list ty) :=
  [
(* src/cfg_expr/error.rs:7 *)
   (B "error::ParseError", [TStd (B "String") [];
      TStd (B "Range") [TStd (B "usize") []];
      TCrate (B "error::Reason") []]);
   (* src/cfg_expr/error.rs:19 *)
   (B "error::Reason", [TStd (B "usize") [];
      TRef (TStd (B "[]") [TRef (TStd (B "str") [])])]);
   (* src/cfg_expr/expr/lexer.rs:10 *)
   (B "lexer::Token", [TRef (TStd (B "str") []);
      TRef (TStd (B "str") [])]);
   (* src/cfg_expr/expr/lexer.rs:53 *)
   (B "lexer::Lexer", [TRef (TStd (B "str") []);
      TRef (TStd (B "str") []);
      TStd (B "usize") []]);
   (* src/cfg_expr/expr/lexer.rs:76 *)
   (B "lexer::LexerToken", [TCrate (B "lexer::Token") [];
      TStd (B "Range") [TStd (B "usize") []]]);
   (* src/cfg_expr/expr/mod.rs:11 *)
   (B "mod::Func", [TStd (B "usize") [];
      TStd (B "usize") []]);
   (* src/cfg_expr/expr/mod.rs:31 *)
   (B "mod::Predicate", [TRef (TStd (B "str") []);
      TRef (TStd (B "str") []);
      TRef (TStd (B "str") [])]);
   (* src/cfg_expr/expr/mod.rs:39 *)
   (B "mod::InnerPredicate", [TStd (B "Range") [TStd (B "usize") []];
      TStd (B "Option") [TStd (B "Range") [TStd (B "usize") []]]]);
   (* src/cfg_expr/expr/mod.rs:56 *)
   (B "mod::ExprNode", [TCrate (B "mod::Func") [];
      TCrate (B "mod::InnerPredicate") []]);
   (* src/cfg_expr/expr/mod.rs:63 *)
   (B "mod::Expression", [TStd (B "Vec") [TCrate (B "mod::ExprNode") []];
      TStd (B "String") []]);
   (* src/de.rs:37 *)
   (B "de::Config", [TStd (B "BTreeMap") [TStd (B "String") []; TCrate (B "de::StringList") []];
      TCrate (B "de::BuildConfig") [];
      TCrate (B "de::DocConfig") [];
      TStd (B "BTreeMap") [TStd (B "String") []; TCrate (B "de::EnvConfigValue") []];
      TCrate (B "de::FutureIncompatReportConfig") [];
      TCrate (B "de::CargoNewConfig") [];
      TCrate (B "de::HttpConfig") [];
      TCrate (B "de::NetConfig") [];
      TStd (B "BTreeMap") [TStd (B "String") []; TCrate (B "de::RegistriesConfigValue") []];
      TCrate (B "de::RegistryConfig") [];
      TStd (B "BTreeMap") [TStd (B "String") []; TCrate (B "de::TargetConfig") []];
      TCrate (B "de::TermConfig") []]);
   (* src/de.rs:321 *)
   (B "de::BuildConfig", [TStd (B "Option") [TCrate (B "value::Value") [TStd (B "i32") []]];
      TStd (B "Option") [TCrate (B "value::Value") [TStd (B "String") []]];
      TStd (B "Option") [TCrate (B "value::Value") [TStd (B "String") []]];
      TStd (B "Option") [TCrate (B "value::Value") [TStd (B "String") []]];
      TStd (B "Option") [TCrate (B "value::Value") [TStd (B "String") []]];
      TStd (B "Option") [TCrate (B "de::StringOrArray") []];
      TStd (B "Option") [TCrate (B "value::Value") [TStd (B "String") []]];
      TStd (B "Option") [TCrate (B "de::Flags") []];
      TStd (B "Option") [TCrate (B "de::Flags") []];
      TStd (B "Option") [TCrate (B "value::Value") [TStd (B "bool") []]];
      TStd (B "Option") [TCrate (B "value::Value") [TStd (B "String") []]];
      TStd (B "bool") [];
      TStd (B "bool") []]);
   (* src/de.rs:397 *)
   (B "de::TargetConfig", [TStd (B "Option") [TCrate (B "value::Value") [TStd (B "String") []]];
      TStd (B "Option") [TCrate (B "de::PathAndArgs") []];
      TStd (B "Option") [TCrate (B "de::Flags") []];
      TStd (B "Option") [TCrate (B "de::Flags") []]]);
   (* src/de.rs:425 *)
   (B "de::DocConfig", [TStd (B "Option") [TCrate (B "de::PathAndArgs") []]]);
   (* src/de.rs:441 *)
   (B "de::EnvConfigValue", [TCrate (B "value::Value") [TStd (B "String") []];
      TCrate (B "value::Value") [TStd (B "String") []];
      TStd (B "Option") [TCrate (B "value::Value") [TStd (B "bool") []]];
      TStd (B "Option") [TCrate (B "value::Value") [TStd (B "bool") []]]]);
   (* src/de.rs:481 *)
   (B "de::FutureIncompatReportConfig", [TStd (B "Option") [TCrate (B "value::Value") [TCrate (B "de::Frequency") []]]]);
   (* src/de.rs:495 *)
   (B "de::CargoNewConfig", [TStd (B "Option") [TCrate (B "value::Value") [TCrate (B "de::VersionControlSoftware") []]]]);
   (* src/de.rs:506 *)
   (B "de::VersionControlSoftware", []);
   (* src/de.rs:553 *)
   (B "de::HttpConfig", [TStd (B "Option") [TCrate (B "value::Value") [TStd (B "bool") []]];
      TStd (B "Option") [TCrate (B "value::Value") [TStd (B "String") []]];
      TStd (B "Option") [TCrate (B "value::Value") [TStd (B "u32") []]];
      TStd (B "Option") [TCrate (B "value::Value") [TStd (B "String") []]];
      TStd (B "Option") [TCrate (B "value::Value") [TStd (B "bool") []]];
      TStd (B "Option") [TCrate (B "value::Value") [TStd (B "u32") []]];
      TStd (B "Option") [TCrate (B "value::Value") [TStd (B "bool") []]];
      TStd (B "Option") [TCrate (B "value::Value") [TStd (B "String") []]]]);
   (* src/de.rs:615 *)
   (B "de::NetConfig", [TStd (B "Option") [TCrate (B "value::Value") [TStd (B "u32") []]];
      TStd (B "Option") [TCrate (B "value::Value") [TStd (B "bool") []]];
      TStd (B "Option") [TCrate (B "value::Value") [TStd (B "bool") []]]]);
   (* src/de.rs:644 *)
   (B "de::RegistriesConfigValue", [TStd (B "Option") [TCrate (B "value::Value") [TStd (B "String") []]];
      TStd (B "Option") [TCrate (B "value::Value") [TStd (B "String") []]];
      TStd (B "Option") [TCrate (B "value::Value") [TCrate (B "de::RegistriesProtocol") []]]]);
   (* src/de.rs:687 *)
   (B "de::RegistriesProtocol", []);
   (* src/de.rs:714 *)
   (B "de::RegistryConfig", [TStd (B "Option") [TCrate (B "value::Value") [TStd (B "String") []]];
      TStd (B "Option") [TCrate (B "value::Value") [TStd (B "String") []]]]);
   (* src/de.rs:753 *)
   (B "de::TermConfig", [TStd (B "Option") [TCrate (B "value::Value") [TStd (B "bool") []]];
      TStd (B "Option") [TCrate (B "value::Value") [TStd (B "bool") []]];
      TStd (B "Option") [TCrate (B "value::Value") [TCrate (B "de::Color") []]];
      TCrate (B "de::TermProgress") []]);
   (* src/de.rs:777 *)
   (B "de::TermProgress", [TStd (B "Option") [TCrate (B "value::Value") [TCrate (B "de::When") []]];
      TStd (B "Option") [TCrate (B "value::Value") [TStd (B "u32") []]]]);
   (* src/de.rs:793 *)
   (B "de::Color", []);
   (* src/de.rs:834 *)
   (B "de::When", []);
   (* src/de.rs:875 *)
   (B "de::Frequency", []);
   (* src/de.rs:913 *)
   (B "de::Flags", [TStd (B "Vec") [TCrate (B "value::Value") [TStd (B "String") []]];
      TCrate (B "de::StringListDeserializedRepr") []]);
   (* src/de.rs:991 *)
   (B "de::ConfigRelativePath", [TCrate (B "value::Value") [TStd (B "String") []]]);
   (* src/de.rs:1028 *)
   (B "de::PathAndArgs", [TCrate (B "de::ConfigRelativePath") [];
      TStd (B "Vec") [TCrate (B "value::Value") [TStd (B "String") []]];
      TCrate (B "de::StringListDeserializedRepr") []]);
   (* src/de.rs:1109 *)
   (B "de::StringList", [TStd (B "Vec") [TCrate (B "value::Value") [TStd (B "String") []]];
      TCrate (B "de::StringListDeserializedRepr") []]);
   (* src/de.rs:1117 *)
   (B "de::StringListDeserializedRepr", []);
   (* src/de.rs:1184 *)
   (B "de::StringOrArray", [TCrate (B "value::Value") [TStd (B "String") []];
      TStd (B "Vec") [TCrate (B "value::Value") [TStd (B "String") []]]]);
   (* src/easy.rs:33 *)
   (B "easy::Config", [TStd (B "BTreeMap") [TStd (B "String") []; TCrate (B "easy::StringList") []];
      TCrate (B "easy::BuildConfig") [];
      TCrate (B "easy::DocConfig") [];
      TStd (B "BTreeMap") [TStd (B "String") []; TCrate (B "easy::EnvConfigValue") []];
      TCrate (B "easy::FutureIncompatReportConfig") [];
      TCrate (B "easy::CargoNewConfig") [];
      TCrate (B "easy::HttpConfig") [];
      TCrate (B "easy::NetConfig") [];
      TStd (B "BTreeMap") [TStd (B "String") []; TCrate (B "easy::RegistriesConfigValue") []];
      TCrate (B "easy::RegistryConfig") [];
      TStd (B "RefCell") [TStd (B "BTreeMap") [TCrate (B "resolve::TargetTripleBorrow") []; TCrate (B "easy::TargetConfig") []]];
      TStd (B "BTreeMap") [TStd (B "String") []; TCrate (B "de::TargetConfig") []];
      TCrate (B "easy::TermConfig") [];
      TCrate (B "resolve::ResolveContext") []]);
   (* src/easy.rs:437 *)
   (B "easy::BuildConfig", [TStd (B "Option") [TStd (B "i32") []];
      TStd (B "Option") [TStd (B "PathBuf") []];
      TStd (B "Option") [TStd (B "PathBuf") []];
      TStd (B "Option") [TStd (B "PathBuf") []];
      TStd (B "Option") [TStd (B "PathBuf") []];
      TStd (B "Option") [TStd (B "Vec") [TCrate (B "resolve::TargetTriple") []]];
      TStd (B "Option") [TStd (B "PathBuf") []];
      TStd (B "Option") [TCrate (B "easy::Flags") []];
      TStd (B "Option") [TCrate (B "easy::Flags") []];
      TStd (B "Option") [TStd (B "bool") []];
      TStd (B "Option") [TStd (B "PathBuf") []];
      TStd (B "bool") [];
      TStd (B "Option") [TCrate (B "de::Flags") []];
      TStd (B "bool") [];
      TStd (B "Option") [TCrate (B "de::Flags") []]]);
   (* src/easy.rs:590 *)
   (B "easy::TargetConfig", [TStd (B "Option") [TStd (B "PathBuf") []];
      TStd (B "Option") [TCrate (B "easy::PathAndArgs") []];
      TStd (B "Option") [TCrate (B "easy::Flags") []];
      TStd (B "Option") [TCrate (B "easy::Flags") []]]);
   (* src/easy.rs:636 *)
   (B "easy::DocConfig", [TStd (B "Option") [TCrate (B "easy::PathAndArgs") []]]);
   (* src/easy.rs:660 *)
   (B "easy::EnvConfigValue", [TStd (B "OsString") [];
      TStd (B "bool") [];
      TStd (B "bool") []]);
   (* src/easy.rs:729 *)
   (B "easy::FutureIncompatReportConfig", [TStd (B "Option") [TCrate (B "de::Frequency") []]]);
   (* src/easy.rs:750 *)
   (B "easy::CargoNewConfig", [TStd (B "Option") [TCrate (B "de::VersionControlSoftware") []]]);
   (* src/easy.rs:770 *)
   (B "easy::HttpConfig", [TStd (B "Option") [TStd (B "bool") []];
      TStd (B "Option") [TStd (B "String") []];
      TStd (B "Option") [TStd (B "u32") []];
      TStd (B "Option") [TStd (B "String") []];
      TStd (B "Option") [TStd (B "bool") []];
      TStd (B "Option") [TStd (B "u32") []];
      TStd (B "Option") [TStd (B "bool") []];
      TStd (B "Option") [TStd (B "String") []]]);
   (* src/easy.rs:847 *)
   (B "easy::NetConfig", [TStd (B "Option") [TStd (B "u32") []];
      TStd (B "Option") [TStd (B "bool") []];
      TStd (B "Option") [TStd (B "bool") []]]);
   (* src/easy.rs:885 *)
   (B "easy::RegistriesConfigValue", [TStd (B "Option") [TStd (B "String") []];
      TStd (B "Option") [TStd (B "String") []];
      TStd (B "Option") [TCrate (B "de::RegistriesProtocol") []]]);
   (* src/easy.rs:938 *)
   (B "easy::RegistryConfig", [TStd (B "Option") [TStd (B "String") []];
      TStd (B "Option") [TStd (B "String") []]]);
   (* src/easy.rs:983 *)
   (B "easy::TermConfig", [TStd (B "Option") [TStd (B "bool") []];
      TStd (B "Option") [TStd (B "bool") []];
      TStd (B "Option") [TCrate (B "de::Color") []];
      TCrate (B "easy::TermProgressConfig") []]);
   (* src/easy.rs:1017 *)
   (B "easy::TermProgressConfig", [TStd (B "Option") [TCrate (B "de::When") []];
      TStd (B "Option") [TStd (B "u32") []]]);
   (* src/easy.rs:1042 *)
   (B "easy::Flags", [TStd (B "Vec") [TStd (B "String") []]]);
   (* src/easy.rs:1192 *)
   (B "easy::PathAndArgs", [TStd (B "PathBuf") [];
      TStd (B "Vec") [TStd (B "OsString") []]]);
   (* src/easy.rs:1250 *)
   (B "easy::StringList", [TStd (B "Vec") [TStd (B "String") []]]);
   (* src/error.rs:17 *)
   (B "error::Result", [TStd (B "Result") [TParam 0; TParam 1]]);
   (* src/error.rs:21 *)
   (B "error::Error", [TCrate (B "error::ErrorKind") []]);
   (* src/error.rs:28 *)
   (B "error::ErrorKind", [TStd (B "io::Error") [];
      TCrate (B "error::ParseError") [];
      TStd (B "String") [];
      TStd (B "String") [];
      TStd (B "Option") [TStd (B "Box") [TDyn [Send; Sync]]]]);
   (* src/gen/assert_impl.rs:19 *)
   (B "assert_impl::NotSync", [TStd (B "UnsafeCell") [TStd (B "()") []]]);
   (* src/gen/assert_impl.rs:21 *)
   (B "assert_impl::NotSend", [TStd (B "MutexGuard") [TStd (B "()") []]]);
   (* src/gen/assert_impl.rs:23 *)
   (B "assert_impl::NotSendSync", [TStd (B "*const") [TStd (B "()") []]]);
   (* src/gen/assert_impl.rs:25 *)
   (B "assert_impl::NotUnpin", [TStd (B "PhantomPinned") []]);
   (* src/gen/assert_impl.rs:27 *)
   (B "assert_impl::NotUnwindSafe", [TMut (TStd (B "()") [])]);
   (* src/gen/assert_impl.rs:29 *)
   (B "assert_impl::NotRefUnwindSafe", [TStd (B "UnsafeCell") [TStd (B "()") []]]);
   (* src/process.rs:27 *)
   (B "process::ProcessBuilder", [TStd (B "Command") []]);
   (* src/resolve.rs:34 *)
   (B "resolve::ResolveOptions", [TStd (B "Option") [TStd (B "HashMap") [TStd (B "String") []; TStd (B "OsString") []]];
      TStd (B "Option") [TCrate (B "easy::PathAndArgs") []];
      TStd (B "Option") [TStd (B "OsString") []];
      TStd (B "Option") [TStd (B "Option") [TStd (B "PathBuf") []]];
      TStd (B "Option") [TStd (B "String") []]]);
   (* src/resolve.rs:149 *)
   (B "resolve::ResolveContext", [TStd (B "HashMap") [TStd (B "String") []; TStd (B "OsString") []];
      TStd (B "OnceCell") [TCrate (B "easy::PathAndArgs") []];
      TStd (B "OsString") [];
      TStd (B "OnceCell") [TStd (B "Option") [TStd (B "PathBuf") []]];
      TStd (B "OnceCell") [TStd (B "String") []];
      TStd (B "OnceCell") [TCrate (B "resolve::RustcVersion") []];
      TStd (B "OnceCell") [TCrate (B "resolve::CargoVersion") []];
      TStd (B "RefCell") [TCrate (B "resolve::CfgMap") []];
      TStd (B "PathBuf") []]);
   (* src/resolve.rs:296 *)
   (B "resolve::CfgMap", [TStd (B "HashMap") [TCrate (B "resolve::TargetTripleBorrow") []; TCrate (B "resolve::Cfg") []]]);
   (* src/resolve.rs:335 *)
   (B "resolve::Cfg", [TStd (B "HashSet") [TStd (B "String") []];
      TStd (B "HashMap") [TStd (B "String") []; TStd (B "HashSet") [TStd (B "String") []]]]);
   (* src/resolve.rs:387 *)
   (B "resolve::TargetTripleRef", [TStd (B "Cow") [TRef (TStd (B "str") []); TStd (B "String") []];
      TStd (B "Option") [TStd (B "Cow") [TRef (TStd (B "Path") []); TStd (B "PathBuf") []]]]);
   (* src/resolve.rs:392 *)
   (B "resolve::TargetTriple", [TCrate (B "resolve::TargetTripleRef") []]);
   (* src/resolve.rs:421 *)
   (B "resolve::TargetTripleBorrow", [TCrate (B "resolve::TargetTripleRef") []]);
   (* src/resolve.rs:560 *)
   (B "resolve::RustcVersion", [TStd (B "u32") [];
      TStd (B "u32") [];
      TStd (B "Option") [TStd (B "u32") []];
      TStd (B "bool") []]);
   (* src/resolve.rs:568 *)
   (B "resolve::CargoVersion", [TStd (B "u32") [];
      TStd (B "u32") [];
      TStd (B "u32") [];
      TStd (B "bool") []]);
   (* src/value.rs:19 *)
   (B "value::Value", [TParam 0;
      TStd (B "Option") [TCrate (B "value::Definition") []]]);
   (* src/value.rs:57 *)
   (B "value::Definition", [TStd (B "PathBuf") [];
      TStd (B "Cow") [TRef (TStd (B "str") []); TStd (B "String") []];
      TStd (B "Option") [TStd (B "PathBuf") []]]);
   (* src/walk.rs:70 *)
   (B "walk::WalkInner", [TStd (B "Ancestors") [];
      TStd (B "Option") [TParam 0]]);
   (* src/walk.rs:104 *)
   (B "walk::Walk", [TCrate (B "walk::WalkInner") [TStd (B "PathBuf") []]])].

(** src/gen/assert_impl.rs:55-308 *)
Definition assert_file : list assertion :=
  [
mkAssertion true Send (B "de::Config") 0 [];
   mkAssertion true Sync (B "de::Config") 0 [];
   mkAssertion true Unpin (B "de::Config") 0 [];
   mkAssertion true UnwindSafe (B "de::Config") 0 [];
   mkAssertion true RefUnwindSafe (B "de::Config") 0 [];
   mkAssertion true Send (B "de::BuildConfig") 0 [];
   mkAssertion true Sync (B "de::BuildConfig") 0 [];
   mkAssertion true Unpin (B "de::BuildConfig") 0 [];
   mkAssertion true UnwindSafe (B "de::BuildConfig") 0 [];
   mkAssertion true RefUnwindSafe (B "de::BuildConfig") 0 [];
   mkAssertion true Send (B "de::TargetConfig") 0 [];
   mkAssertion true Sync (B "de::TargetConfig") 0 [];
   mkAssertion true Unpin (B "de::TargetConfig") 0 [];
   mkAssertion true UnwindSafe (B "de::TargetConfig") 0 [];
   mkAssertion true RefUnwindSafe (B "de::TargetConfig") 0 [];
   mkAssertion true Send (B "de::DocConfig") 0 [];
   mkAssertion true Sync (B "de::DocConfig") 0 [];
   mkAssertion true Unpin (B "de::DocConfig") 0 [];
   mkAssertion true UnwindSafe (B "de::DocConfig") 0 [];
   mkAssertion true RefUnwindSafe (B "de::DocConfig") 0 [];
   mkAssertion true Send (B "de::EnvConfigValue") 0 [];
   mkAssertion true Sync (B "de::EnvConfigValue") 0 [];
   mkAssertion true Unpin (B "de::EnvConfigValue") 0 [];
   mkAssertion true UnwindSafe (B "de::EnvConfigValue") 0 [];
   mkAssertion true RefUnwindSafe (B "de::EnvConfigValue") 0 [];
   mkAssertion true Send (B "de::FutureIncompatReportConfig") 0 [];
   mkAssertion true Sync (B "de::FutureIncompatReportConfig") 0 [];
   mkAssertion true Unpin (B "de::FutureIncompatReportConfig") 0 [];
   mkAssertion true UnwindSafe (B "de::FutureIncompatReportConfig") 0 [];
   mkAssertion true RefUnwindSafe (B "de::FutureIncompatReportConfig") 0 [];
   mkAssertion true Send (B "de::CargoNewConfig") 0 [];
   mkAssertion true Sync (B "de::CargoNewConfig") 0 [];
   mkAssertion true Unpin (B "de::CargoNewConfig") 0 [];
   mkAssertion true UnwindSafe (B "de::CargoNewConfig") 0 [];
   mkAssertion true RefUnwindSafe (B "de::CargoNewConfig") 0 [];
   mkAssertion true Send (B "de::VersionControlSoftware") 0 [];
   mkAssertion true Sync (B "de::VersionControlSoftware") 0 [];
   mkAssertion true Unpin (B "de::VersionControlSoftware") 0 [];
   mkAssertion true UnwindSafe (B "de::VersionControlSoftware") 0 [];
   mkAssertion true RefUnwindSafe (B "de::VersionControlSoftware") 0 [];
   mkAssertion true Send (B "de::HttpConfig") 0 [];
   mkAssertion true Sync (B "de::HttpConfig") 0 [];
   mkAssertion true Unpin (B "de::HttpConfig") 0 [];
   mkAssertion true UnwindSafe (B "de::HttpConfig") 0 [];
   mkAssertion true RefUnwindSafe (B "de::HttpConfig") 0 [];
   mkAssertion true Send (B "de::NetConfig") 0 [];
   mkAssertion true Sync (B "de::NetConfig") 0 [];
   mkAssertion true Unpin (B "de::NetConfig") 0 [];
   mkAssertion true UnwindSafe (B "de::NetConfig") 0 [];
   mkAssertion true RefUnwindSafe (B "de::NetConfig") 0 [];
   mkAssertion true Send (B "de::RegistriesConfigValue") 0 [];
   mkAssertion true Sync (B "de::RegistriesConfigValue") 0 [];
   mkAssertion true Unpin (B "de::RegistriesConfigValue") 0 [];
   mkAssertion true UnwindSafe (B "de::RegistriesConfigValue") 0 [];
   mkAssertion true RefUnwindSafe (B "de::RegistriesConfigValue") 0 [];
   mkAssertion true Send (B "de::RegistriesProtocol") 0 [];
   mkAssertion true Sync (B "de::RegistriesProtocol") 0 [];
   mkAssertion true Unpin (B "de::RegistriesProtocol") 0 [];
   mkAssertion true UnwindSafe (B "de::RegistriesProtocol") 0 [];
   mkAssertion true RefUnwindSafe (B "de::RegistriesProtocol") 0 [];
   mkAssertion true Send (B "de::RegistryConfig") 0 [];
   mkAssertion true Sync (B "de::RegistryConfig") 0 [];
   mkAssertion true Unpin (B "de::RegistryConfig") 0 [];
   mkAssertion true UnwindSafe (B "de::RegistryConfig") 0 [];
   mkAssertion true RefUnwindSafe (B "de::RegistryConfig") 0 [];
   mkAssertion true Send (B "de::TermConfig") 0 [];
   mkAssertion true Sync (B "de::TermConfig") 0 [];
   mkAssertion true Unpin (B "de::TermConfig") 0 [];
   mkAssertion true UnwindSafe (B "de::TermConfig") 0 [];
   mkAssertion true RefUnwindSafe (B "de::TermConfig") 0 [];
   mkAssertion true Send (B "de::TermProgress") 0 [];
   mkAssertion true Sync (B "de::TermProgress") 0 [];
   mkAssertion true Unpin (B "de::TermProgress") 0 [];
   mkAssertion true UnwindSafe (B "de::TermProgress") 0 [];
   mkAssertion true RefUnwindSafe (B "de::TermProgress") 0 [];
   mkAssertion true Send (B "de::Color") 0 [];
   mkAssertion true Sync (B "de::Color") 0 [];
   mkAssertion true Unpin (B "de::Color") 0 [];
   mkAssertion true UnwindSafe (B "de::Color") 0 [];
   mkAssertion true RefUnwindSafe (B "de::Color") 0 [];
   mkAssertion true Send (B "de::When") 0 [];
   mkAssertion true Sync (B "de::When") 0 [];
   mkAssertion true Unpin (B "de::When") 0 [];
   mkAssertion true UnwindSafe (B "de::When") 0 [];
   mkAssertion true RefUnwindSafe (B "de::When") 0 [];
   mkAssertion true Send (B "de::Frequency") 0 [];
   mkAssertion true Sync (B "de::Frequency") 0 [];
   mkAssertion true Unpin (B "de::Frequency") 0 [];
   mkAssertion true UnwindSafe (B "de::Frequency") 0 [];
   mkAssertion true RefUnwindSafe (B "de::Frequency") 0 [];
   mkAssertion true Send (B "de::Flags") 0 [];
   mkAssertion true Sync (B "de::Flags") 0 [];
   mkAssertion true Unpin (B "de::Flags") 0 [];
   mkAssertion true UnwindSafe (B "de::Flags") 0 [];
   mkAssertion true RefUnwindSafe (B "de::Flags") 0 [];
   mkAssertion true Send (B "de::ConfigRelativePath") 0 [];
   mkAssertion true Sync (B "de::ConfigRelativePath") 0 [];
   mkAssertion true Unpin (B "de::ConfigRelativePath") 0 [];
   mkAssertion true UnwindSafe (B "de::ConfigRelativePath") 0 [];
   mkAssertion true RefUnwindSafe (B "de::ConfigRelativePath") 0 [];
   mkAssertion true Send (B "de::PathAndArgs") 0 [];
   mkAssertion true Sync (B "de::PathAndArgs") 0 [];
   mkAssertion true Unpin (B "de::PathAndArgs") 0 [];
   mkAssertion true UnwindSafe (B "de::PathAndArgs") 0 [];
   mkAssertion true RefUnwindSafe (B "de::PathAndArgs") 0 [];
   mkAssertion true Send (B "de::StringList") 0 [];
   mkAssertion true Sync (B "de::StringList") 0 [];
   mkAssertion true Unpin (B "de::StringList") 0 [];
   mkAssertion true UnwindSafe (B "de::StringList") 0 [];
   mkAssertion true RefUnwindSafe (B "de::StringList") 0 [];
   mkAssertion true Send (B "de::StringOrArray") 0 [];
   mkAssertion true Sync (B "de::StringOrArray") 0 [];
   mkAssertion true Unpin (B "de::StringOrArray") 0 [];
   mkAssertion true UnwindSafe (B "de::StringOrArray") 0 [];
   mkAssertion true RefUnwindSafe (B "de::StringOrArray") 0 [];
   mkAssertion true Send (B "easy::Config") 0 [];
   mkAssertion false Sync (B "easy::Config") 0 [];
   mkAssertion true Unpin (B "easy::Config") 0 [];
   mkAssertion true UnwindSafe (B "easy::Config") 0 [];
   mkAssertion false RefUnwindSafe (B "easy::Config") 0 [];
   mkAssertion true Send (B "easy::BuildConfig") 0 [];
   mkAssertion true Sync (B "easy::BuildConfig") 0 [];
   mkAssertion true Unpin (B "easy::BuildConfig") 0 [];
   mkAssertion true UnwindSafe (B "easy::BuildConfig") 0 [];
   mkAssertion true RefUnwindSafe (B "easy::BuildConfig") 0 [];
   mkAssertion true Send (B "easy::TargetConfig") 0 [];
   mkAssertion true Sync (B "easy::TargetConfig") 0 [];
   mkAssertion true Unpin (B "easy::TargetConfig") 0 [];
   mkAssertion true UnwindSafe (B "easy::TargetConfig") 0 [];
   mkAssertion true RefUnwindSafe (B "easy::TargetConfig") 0 [];
   mkAssertion true Send (B "easy::DocConfig") 0 [];
   mkAssertion true Sync (B "easy::DocConfig") 0 [];
   mkAssertion true Unpin (B "easy::DocConfig") 0 [];
   mkAssertion true UnwindSafe (B "easy::DocConfig") 0 [];
   mkAssertion true RefUnwindSafe (B "easy::DocConfig") 0 [];
   mkAssertion true Send (B "easy::EnvConfigValue") 0 [];
   mkAssertion true Sync (B "easy::EnvConfigValue") 0 [];
   mkAssertion true Unpin (B "easy::EnvConfigValue") 0 [];
   mkAssertion true UnwindSafe (B "easy::EnvConfigValue") 0 [];
   mkAssertion true RefUnwindSafe (B "easy::EnvConfigValue") 0 [];
   mkAssertion true Send (B "easy::FutureIncompatReportConfig") 0 [];
   mkAssertion true Sync (B "easy::FutureIncompatReportConfig") 0 [];
   mkAssertion true Unpin (B "easy::FutureIncompatReportConfig") 0 [];
   mkAssertion true UnwindSafe (B "easy::FutureIncompatReportConfig") 0 [];
   mkAssertion true RefUnwindSafe (B "easy::FutureIncompatReportConfig") 0 [];
   mkAssertion true Send (B "easy::CargoNewConfig") 0 [];
   mkAssertion true Sync (B "easy::CargoNewConfig") 0 [];
   mkAssertion true Unpin (B "easy::CargoNewConfig") 0 [];
   mkAssertion true UnwindSafe (B "easy::CargoNewConfig") 0 [];
   mkAssertion true RefUnwindSafe (B "easy::CargoNewConfig") 0 [];
   mkAssertion true Send (B "easy::HttpConfig") 0 [];
   mkAssertion true Sync (B "easy::HttpConfig") 0 [];
   mkAssertion true Unpin (B "easy::HttpConfig") 0 [];
   mkAssertion true UnwindSafe (B "easy::HttpConfig") 0 [];
   mkAssertion true RefUnwindSafe (B "easy::HttpConfig") 0 [];
   mkAssertion true Send (B "easy::NetConfig") 0 [];
   mkAssertion true Sync (B "easy::NetConfig") 0 [];
   mkAssertion true Unpin (B "easy::NetConfig") 0 [];
   mkAssertion true UnwindSafe (B "easy::NetConfig") 0 [];
   mkAssertion true RefUnwindSafe (B "easy::NetConfig") 0 [];
   mkAssertion true Send (B "easy::RegistriesConfigValue") 0 [];
   mkAssertion true Sync (B "easy::RegistriesConfigValue") 0 [];
   mkAssertion true Unpin (B "easy::RegistriesConfigValue") 0 [];
   mkAssertion true UnwindSafe (B "easy::RegistriesConfigValue") 0 [];
   mkAssertion true RefUnwindSafe (B "easy::RegistriesConfigValue") 0 [];
   mkAssertion true Send (B "easy::RegistryConfig") 0 [];
   mkAssertion true Sync (B "easy::RegistryConfig") 0 [];
   mkAssertion true Unpin (B "easy::RegistryConfig") 0 [];
   mkAssertion true UnwindSafe (B "easy::RegistryConfig") 0 [];
   mkAssertion true RefUnwindSafe (B "easy::RegistryConfig") 0 [];
   mkAssertion true Send (B "easy::TermConfig") 0 [];
   mkAssertion true Sync (B "easy::TermConfig") 0 [];
   mkAssertion true Unpin (B "easy::TermConfig") 0 [];
   mkAssertion true UnwindSafe (B "easy::TermConfig") 0 [];
   mkAssertion true RefUnwindSafe (B "easy::TermConfig") 0 [];
   mkAssertion true Send (B "easy::TermProgressConfig") 0 [];
   mkAssertion true Sync (B "easy::TermProgressConfig") 0 [];
   mkAssertion true Unpin (B "easy::TermProgressConfig") 0 [];
   mkAssertion true UnwindSafe (B "easy::TermProgressConfig") 0 [];
   mkAssertion true RefUnwindSafe (B "easy::TermProgressConfig") 0 [];
   mkAssertion true Send (B "easy::Flags") 0 [];
   mkAssertion true Sync (B "easy::Flags") 0 [];
   mkAssertion true Unpin (B "easy::Flags") 0 [];
   mkAssertion true UnwindSafe (B "easy::Flags") 0 [];
   mkAssertion true RefUnwindSafe (B "easy::Flags") 0 [];
   mkAssertion true Send (B "easy::PathAndArgs") 0 [];
   mkAssertion true Sync (B "easy::PathAndArgs") 0 [];
   mkAssertion true Unpin (B "easy::PathAndArgs") 0 [];
   mkAssertion true UnwindSafe (B "easy::PathAndArgs") 0 [];
   mkAssertion true RefUnwindSafe (B "easy::PathAndArgs") 0 [];
   mkAssertion true Send (B "easy::StringList") 0 [];
   mkAssertion true Sync (B "easy::StringList") 0 [];
   mkAssertion true Unpin (B "easy::StringList") 0 [];
   mkAssertion true UnwindSafe (B "easy::StringList") 0 [];
   mkAssertion true RefUnwindSafe (B "easy::StringList") 0 [];
   mkAssertion true Send (B "error::Error") 0 [];
   mkAssertion true Sync (B "error::Error") 0 [];
   mkAssertion true Unpin (B "error::Error") 0 [];
   mkAssertion false UnwindSafe (B "error::Error") 0 [];
   mkAssertion false RefUnwindSafe (B "error::Error") 0 [];
   mkAssertion true Send (B "resolve::ResolveOptions") 0 [];
   mkAssertion true Sync (B "resolve::ResolveOptions") 0 [];
   mkAssertion true Unpin (B "resolve::ResolveOptions") 0 [];
   mkAssertion true UnwindSafe (B "resolve::ResolveOptions") 0 [];
   mkAssertion true RefUnwindSafe (B "resolve::ResolveOptions") 0 [];
   mkAssertion true Send (B "resolve::ResolveContext") 0 [];
   mkAssertion false Sync (B "resolve::ResolveContext") 0 [];
   mkAssertion true Unpin (B "resolve::ResolveContext") 0 [];
   mkAssertion true UnwindSafe (B "resolve::ResolveContext") 0 [];
   mkAssertion false RefUnwindSafe (B "resolve::ResolveContext") 0 [];
   mkAssertion true Send (B "resolve::TargetTripleRef") 1 [];
   mkAssertion true Sync (B "resolve::TargetTripleRef") 1 [];
   mkAssertion true Unpin (B "resolve::TargetTripleRef") 1 [];
   mkAssertion true UnwindSafe (B "resolve::TargetTripleRef") 1 [];
   mkAssertion true RefUnwindSafe (B "resolve::TargetTripleRef") 1 [];
   mkAssertion true Send (B "resolve::TargetTriple") 0 [];
   mkAssertion true Sync (B "resolve::TargetTriple") 0 [];
   mkAssertion true Unpin (B "resolve::TargetTriple") 0 [];
   mkAssertion true UnwindSafe (B "resolve::TargetTriple") 0 [];
   mkAssertion true RefUnwindSafe (B "resolve::TargetTriple") 0 [];
   mkAssertion true Send (B "resolve::RustcVersion") 0 [];
   mkAssertion true Sync (B "resolve::RustcVersion") 0 [];
   mkAssertion true Unpin (B "resolve::RustcVersion") 0 [];
   mkAssertion true UnwindSafe (B "resolve::RustcVersion") 0 [];
   mkAssertion true RefUnwindSafe (B "resolve::RustcVersion") 0 [];
   mkAssertion true Send (B "resolve::CargoVersion") 0 [];
   mkAssertion true Sync (B "resolve::CargoVersion") 0 [];
   mkAssertion true Unpin (B "resolve::CargoVersion") 0 [];
   mkAssertion true UnwindSafe (B "resolve::CargoVersion") 0 [];
   mkAssertion true RefUnwindSafe (B "resolve::CargoVersion") 0 [];
   mkAssertion true Send (B "value::Value") 0 [UnitType];
   mkAssertion true Send (B "value::Value") 0 [NotSync];
   mkAssertion false Send (B "value::Value") 0 [NotSend];
   mkAssertion true Sync (B "value::Value") 0 [UnitType];
   mkAssertion true Sync (B "value::Value") 0 [NotSend];
   mkAssertion false Sync (B "value::Value") 0 [NotSync];
   mkAssertion true Unpin (B "value::Value") 0 [UnitType];
   mkAssertion false Unpin (B "value::Value") 0 [NotUnpin];
   mkAssertion true UnwindSafe (B "value::Value") 0 [UnitType];
   mkAssertion false UnwindSafe (B "value::Value") 0 [NotUnwindSafe];
   mkAssertion true RefUnwindSafe (B "value::Value") 0 [UnitType];
   mkAssertion false RefUnwindSafe (B "value::Value") 0 [NotRefUnwindSafe];
   mkAssertion true Send (B "value::Definition") 0 [];
   mkAssertion true Sync (B "value::Definition") 0 [];
   mkAssertion true Unpin (B "value::Definition") 0 [];
   mkAssertion true UnwindSafe (B "value::Definition") 0 [];
   mkAssertion true RefUnwindSafe (B "value::Definition") 0 [];
   mkAssertion true Send (B "walk::Walk") 1 [];
   mkAssertion true Sync (B "walk::Walk") 1 [];
   mkAssertion true Unpin (B "walk::Walk") 1 [];
   mkAssertion true UnwindSafe (B "walk::Walk") 1 [];
   mkAssertion true RefUnwindSafe (B "walk::Walk") 1 []].
