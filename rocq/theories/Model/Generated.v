(** The types of src/de.rs and src/easy.rs as the generator sees them, and the generated files
    src/gen/de.rs and src/gen/is_none.rs.  The numbers are the lines.  Of the attributes only
    those named [serde] are given. *)
From Verif.Model Require Import Base Str Codegen.

Definition serde (l : list meta) : attribute := mkAttr (B "serde") (Some l).
Definition skip_if : attribute := serde [MetaNameValue (B "skip_serializing_if")].
Definition plain (n : string) : field := mkField (B n) [].
(** [#[serde(skip_serializing_if = "..")]] *)
Definition optional (n : string) : field := mkField (B n) [skip_if].
(** [#[serde(default)] #[serde(skip_serializing_if = "..")]] *)
Definition defaulted (n : string) : field := mkField (B n) [serde [MetaPath (B "default")]; skip_if].
(** [#[serde(skip)]] *)
Definition skipped (n : string) : field := mkField (B n) [serde [MetaPath (B "skip")]].
Arguments plain n%string_scope.
Arguments optional n%string_scope.
Arguments defaulted n%string_scope.
Arguments skipped n%string_scope.

(** src/de.rs *)
Definition de_items : list item :=
  [ (* 37-115 *)
     Struct true (B "Config")
       (Named [defaulted "alias"; defaulted "build"; defaulted "doc"; defaulted "env";
               defaulted "future_incompat_report"; defaulted "cargo_new"; defaulted "http";
               defaulted "net"; defaulted "registries"; defaulted "registry"; defaulted "target";
               defaulted "term"]);
    (* 321-388 *)
     Struct true (B "BuildConfig")
       (Named [optional "jobs"; optional "rustc"; optional "rustc_wrapper";
               optional "rustc_workspace_wrapper"; optional "rustdoc"; optional "target";
               optional "target_dir"; optional "rustflags"; optional "rustdocflags";
               optional "incremental"; optional "dep_info_basedir";
               skipped "override_target_rustflags"; skipped "override_target_rustdocflags"]);
    (* 397-417 *)
     Struct true (B "TargetConfig")
       (Named [optional "linker"; optional "runner"; optional "rustflags"; optional "rustdocflags"]);
    (* 425-432 *)
     Struct true (B "DocConfig")
       (Named [optional "browser"]);
    (* 441-450 *)
     Enum true (B "EnvConfigValue")
       [(B "Value", Unnamed 1);
        (B "Table", Named [plain "value"; optional "force"; optional "relative"])];
    (* 481-487 *)
     Struct true (B "FutureIncompatReportConfig")
       (Named [optional "frequency"]);
    (* 495-501 *)
     Struct true (B "CargoNewConfig")
       (Named [optional "vcs"]);
    (* 506-518 *)
     Enum true (B "VersionControlSoftware")
       [(B "Git", Unit); (B "Mercurial", Unit); (B "Pijul", Unit); (B "Fossil", Unit);
        (B "None", Unit)];
    (* 553-607 *)
     Struct true (B "HttpConfig")
       (Named [optional "debug"; optional "proxy"; optional "timeout"; optional "cainfo";
               optional "check_revoke"; optional "low_speed_limit"; optional "multiplexing";
               optional "user_agent"]);
    (* 615-636 *)
     Struct true (B "NetConfig")
       (Named [optional "retry"; optional "git_fetch_with_cli"; optional "offline"]);
    (* 644-665 *)
     Struct true (B "RegistriesConfigValue")
       (Named [optional "index"; optional "token"; optional "protocol"]);
    (* 687-694 *)
     Enum true (B "RegistriesProtocol")
       [(B "Git", Unit); (B "Sparse", Unit)];
    (* 714-732 *)
     Struct true (B "RegistryConfig")
       (Named [optional "default"; optional "token"]);
    (* 753-772 *)
     Struct true (B "TermConfig")
       (Named [optional "quiet"; optional "verbose"; optional "color"; defaulted "progress"]);
    (* 777-788 *)
     Struct true (B "TermProgress")
       (Named [optional "when"; optional "width"]);
    (* 793-800 *)
     Enum true (B "Color")
       [(B "Auto", Unit); (B "Always", Unit); (B "Never", Unit)];
    (* 834-841 *)
     Enum true (B "When")
       [(B "Auto", Unit); (B "Always", Unit); (B "Never", Unit)];
    (* 875-881 *)
     Enum true (B "Frequency")
       [(B "Always", Unit); (B "Never", Unit)];
    (* 913-918 *)
     Struct true (B "Flags")
       (Named [plain "flags"; skipped "deserialized_repr"]);
    (* 991-991 *)
     Struct true (B "ConfigRelativePath")
       (Unnamed 1);
    (* 1028-1034 *)
     Struct true (B "PathAndArgs")
       (Named [plain "path"; plain "args"; plain "deserialized_repr"]);
    (* 1091-1094 *)
     Within [Enum false (B "StringOrArray")
       [(B "String", Unnamed 1); (B "Array", Unnamed 1)]];
    (* 1109-1114 *)
     Struct true (B "StringList")
       (Named [plain "list"; plain "deserialized_repr"]);
    (* 1117-1120 *)
     Enum false (B "StringListDeserializedRepr")
       [(B "String", Unit); (B "Array", Unit)];
    (* 1184-1187 *)
     Enum true (B "StringOrArray")
       [(B "String", Unnamed 1); (B "Array", Unnamed 1)] ].

(** src/easy.rs *)
Definition easy_items : list item :=
  [ (* 33-119 *)
     Struct true (B "Config")
       (Named [defaulted "alias"; defaulted "build"; defaulted "doc"; defaulted "env";
               defaulted "future_incompat_report"; defaulted "cargo_new"; defaulted "http";
               defaulted "net"; defaulted "registries"; defaulted "registry";
               mkField (B "target") [serde [MetaPath (B "skip_deserializing")];
               serde [MetaNameValue (B "skip_serializing_if")]];
               mkField (B "de_target") [serde [MetaPath (B "default")];
               serde [MetaPath (B "skip_serializing")]; serde [MetaNameValue (B "rename")]];
               defaulted "term"; skipped "cx"]);
    (* 437-528 *)
     Struct true (B "BuildConfig")
       (Named [optional "jobs"; optional "rustc"; optional "rustc_wrapper";
               optional "rustc_workspace_wrapper"; optional "rustdoc"; optional "target";
               optional "target_dir"; optional "rustflags"; optional "rustdocflags";
               optional "incremental"; optional "dep_info_basedir";
               skipped "override_target_rustflags"; skipped "de_rustflags";
               skipped "override_target_rustdocflags"; skipped "de_rustdocflags"]);
    (* 590-610 *)
     Struct true (B "TargetConfig")
       (Named [optional "linker"; optional "runner"; optional "rustflags"; optional "rustdocflags"]);
    (* 636-643 *)
     Struct true (B "DocConfig")
       (Named [optional "browser"]);
    (* 660-664 *)
     Struct true (B "EnvConfigValue")
       (Named [plain "value"; plain "force"; plain "relative"]);
    (* 699-708 *)
     Within [Enum false (B "EnvRepr")
       [(B "Value", Unnamed 1);
        (B "Table", Named [plain "value"; optional "force"; optional "relative"])]];
    (* 729-735 *)
     Struct true (B "FutureIncompatReportConfig")
       (Named [optional "frequency"]);
    (* 750-756 *)
     Struct true (B "CargoNewConfig")
       (Named [optional "vcs"]);
    (* 770-824 *)
     Struct true (B "HttpConfig")
       (Named [optional "debug"; optional "proxy"; optional "timeout"; optional "cainfo";
               optional "check_revoke"; optional "low_speed_limit"; optional "multiplexing";
               optional "user_agent"]);
    (* 847-868 *)
     Struct true (B "NetConfig")
       (Named [optional "retry"; optional "git_fetch_with_cli"; optional "offline"]);
    (* 885-906 *)
     Struct true (B "RegistriesConfigValue")
       (Named [optional "index"; optional "token"; optional "protocol"]);
    (* 938-956 *)
     Struct true (B "RegistryConfig")
       (Named [optional "default"; optional "token"]);
    (* 983-1002 *)
     Struct true (B "TermConfig")
       (Named [optional "quiet"; optional "verbose"; optional "color"; defaulted "progress"]);
    (* 1017-1028 *)
     Struct true (B "TermProgressConfig")
       (Named [optional "when"; optional "width"]);
    (* 1042-1044 *)
     Struct true (B "Flags")
       (Named [plain "flags"]);
    (* 1192-1195 *)
     Struct true (B "PathAndArgs")
       (Named [plain "path"; plain "args"]);
    (* 1250-1252 *)
     Struct true (B "StringList")
       (Named [plain "list"]) ].

(** src/lib.rs: no types *)
Definition lib_items : list item := [].

(** tools/codegen/src/main.rs:26, 202; 48-53: the module is the name of the file. *)
Definition de_files : list (list str * list item) := [([B "de"], de_items)].
Definition is_none_files : list (list str * list item) :=
  [([], lib_items); ([B "easy"], easy_items); ([B "de"], de_items)].

(** src/gen/de.rs *)
Definition gen_de_file : list impl :=
  [ (* 9-25 *) ImplMerge (B "de::Config")
       [B "alias"; B "build"; B "doc"; B "env"; B "future_incompat_report"; B "cargo_new";
        B "http"; B "net"; B "registries"; B "registry"; B "target"; B "term"];
    (* 26-41 *) ImplSetPath (B "de::Config")
       [B "alias"; B "build"; B "doc"; B "env"; B "future_incompat_report"; B "cargo_new";
        B "http"; B "net"; B "registries"; B "registry"; B "target"; B "term"];
    (* 42-57 *) ImplMerge (B "de::BuildConfig")
       [B "jobs"; B "rustc"; B "rustc_wrapper"; B "rustc_workspace_wrapper"; B "rustdoc";
        B "target"; B "target_dir"; B "rustflags"; B "rustdocflags"; B "incremental";
        B "dep_info_basedir"];
    (* 58-72 *) ImplSetPath (B "de::BuildConfig")
       [B "jobs"; B "rustc"; B "rustc_wrapper"; B "rustc_workspace_wrapper"; B "rustdoc";
        B "target"; B "target_dir"; B "rustflags"; B "rustdocflags"; B "incremental";
        B "dep_info_basedir"];
    (* 73-81 *) ImplMerge (B "de::TargetConfig")
       [B "linker"; B "runner"; B "rustflags"; B "rustdocflags"];
    (* 82-89 *) ImplSetPath (B "de::TargetConfig")
       [B "linker"; B "runner"; B "rustflags"; B "rustdocflags"];
    (* 90-95 *) ImplMerge (B "de::DocConfig")
       [B "browser"];
    (* 96-100 *) ImplSetPath (B "de::DocConfig")
       [B "browser"];
    (* 101-114 *) ImplSetPathMatch (B "de::EnvConfigValue")
       [ArmUnnamed (B "Value");
        ArmNamed (B "Table") [B "value"; B "force"; B "relative"] [B "value"; B "force"; B "relative"]];
    (* 115-120 *) ImplMerge (B "de::FutureIncompatReportConfig")
       [B "frequency"];
    (* 121-125 *) ImplSetPath (B "de::FutureIncompatReportConfig")
       [B "frequency"];
    (* 126-131 *) ImplMerge (B "de::CargoNewConfig")
       [B "vcs"];
    (* 132-136 *) ImplSetPath (B "de::CargoNewConfig")
       [B "vcs"];
    (* 137-149 *) ImplMerge (B "de::HttpConfig")
       [B "debug"; B "proxy"; B "timeout"; B "cainfo"; B "check_revoke"; B "low_speed_limit";
        B "multiplexing"; B "user_agent"];
    (* 150-161 *) ImplSetPath (B "de::HttpConfig")
       [B "debug"; B "proxy"; B "timeout"; B "cainfo"; B "check_revoke"; B "low_speed_limit";
        B "multiplexing"; B "user_agent"];
    (* 162-169 *) ImplMerge (B "de::NetConfig")
       [B "retry"; B "git_fetch_with_cli"; B "offline"];
    (* 170-176 *) ImplSetPath (B "de::NetConfig")
       [B "retry"; B "git_fetch_with_cli"; B "offline"];
    (* 177-184 *) ImplMerge (B "de::RegistriesConfigValue")
       [B "index"; B "token"; B "protocol"];
    (* 185-191 *) ImplSetPath (B "de::RegistriesConfigValue")
       [B "index"; B "token"; B "protocol"];
    (* 192-198 *) ImplMerge (B "de::RegistryConfig")
       [B "default"; B "token"];
    (* 199-204 *) ImplSetPath (B "de::RegistryConfig")
       [B "default"; B "token"];
    (* 205-213 *) ImplMerge (B "de::TermConfig")
       [B "quiet"; B "verbose"; B "color"; B "progress"];
    (* 214-221 *) ImplSetPath (B "de::TermConfig")
       [B "quiet"; B "verbose"; B "color"; B "progress"];
    (* 222-228 *) ImplMerge (B "de::TermProgress")
       [B "when"; B "width"];
    (* 229-234 *) ImplSetPath (B "de::TermProgress")
       [B "when"; B "width"];
    (* 235-239 *) ImplSetPath (B "de::Flags")
       [B "flags"];
    (* 240-244 *) ImplSetPathInner (B "de::ConfigRelativePath");
    (* 245-250 *) ImplSetPath (B "de::PathAndArgs")
       [B "path"; B "args"];
    (* 251-255 *) ImplSetPath (B "de::StringList")
       [B "list"];
    (* 256-267 *) ImplSetPathMatch (B "de::StringOrArray")
       [ArmUnnamed (B "String");
        ArmUnnamed (B "Array")] ].

(** src/gen/is_none.rs *)
Definition gen_is_none_file : list impl :=
  [ (* 7-15 *) ImplIsNone (B "easy::BuildConfig")
       [B "jobs"; B "rustc"; B "rustc_wrapper"; B "rustc_workspace_wrapper"; B "rustdoc";
        B "target"; B "target_dir"; B "rustflags"; B "rustdocflags"; B "incremental";
        B "dep_info_basedir"];
    (* 16-20 *) ImplIsNone (B "easy::DocConfig")
       [B "browser"];
    (* 21-25 *) ImplIsNone (B "easy::FutureIncompatReportConfig")
       [B "frequency"];
    (* 26-30 *) ImplIsNone (B "easy::CargoNewConfig")
       [B "vcs"];
    (* 31-38 *) ImplIsNone (B "easy::HttpConfig")
       [B "debug"; B "proxy"; B "timeout"; B "cainfo"; B "check_revoke"; B "low_speed_limit";
        B "multiplexing"; B "user_agent"];
    (* 39-44 *) ImplIsNone (B "easy::NetConfig")
       [B "retry"; B "git_fetch_with_cli"; B "offline"];
    (* 45-49 *) ImplIsNone (B "easy::RegistryConfig")
       [B "default"; B "token"];
    (* 50-55 *) ImplIsNone (B "easy::TermConfig")
       [B "quiet"; B "verbose"; B "color"; B "progress"];
    (* 56-60 *) ImplIsNone (B "easy::TermProgressConfig")
       [B "when"; B "width"];
    (* 61-69 *) ImplIsNone (B "de::BuildConfig")
       [B "jobs"; B "rustc"; B "rustc_wrapper"; B "rustc_workspace_wrapper"; B "rustdoc";
        B "target"; B "target_dir"; B "rustflags"; B "rustdocflags"; B "incremental";
        B "dep_info_basedir"];
    (* 70-74 *) ImplIsNone (B "de::DocConfig")
       [B "browser"];
    (* 75-79 *) ImplIsNone (B "de::FutureIncompatReportConfig")
       [B "frequency"];
    (* 80-84 *) ImplIsNone (B "de::CargoNewConfig")
       [B "vcs"];
    (* 85-92 *) ImplIsNone (B "de::HttpConfig")
       [B "debug"; B "proxy"; B "timeout"; B "cainfo"; B "check_revoke"; B "low_speed_limit";
        B "multiplexing"; B "user_agent"];
    (* 93-98 *) ImplIsNone (B "de::NetConfig")
       [B "retry"; B "git_fetch_with_cli"; B "offline"];
    (* 99-103 *) ImplIsNone (B "de::RegistryConfig")
       [B "default"; B "token"];
    (* 104-109 *) ImplIsNone (B "de::TermConfig")
       [B "quiet"; B "verbose"; B "color"; B "progress"];
    (* 110-114 *) ImplIsNone (B "de::TermProgress")
       [B "when"; B "width"] ].
