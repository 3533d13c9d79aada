# Formal model of cargo-config2: design

The Rust source is in `/repo` (pinned commit). The model is in `rocq/theories`
(logical name `Verif`), written in Coq/Rocq 8.16.1 against the standard library
only.

## Layout

| directory | contents |
| --- | --- |
| `Model/` | computable definitions only, one file per source file or std facility; each definition cites file and lines |
| `Spec/`  | small independent specifications (no reference to model helpers other than data types) |
| `Proof/` | lemmas and proofs |
| `Props/` | the theorems, one file per area; each is closed by `exact` of a lemma, followed by `Print Assumptions` and by concrete `Example`s that meet the hypotheses |
| `Check/` | the repository's own tests, replayed on the model with the same inputs and expected values |

## Representation choices

* A Rust `str`/`String`/`OsString`/`PathBuf` (Unix) is a `list ascii` of bytes.
  "Is Unicode" is the predicate `utf8_valid`. All string functions used by the
  crate split or trim at ASCII bytes or at Unicode white space; both are modelled
  on bytes (white space as its UTF-8 encodings), which is exact for valid UTF-8.
* `Path` follows the Unix implementation of `std::path` (components, parent,
  join, file_name, file_stem, extension, component-wise equality).
* `BTreeMap` is a key-sorted association list; `HashMap` (the captured
  environment, the cfg cache) is an association list in arbitrary order, and
  theorems quantify over that order.
* `Result` is `res`: `Ok`, `Err` or `Panic`. Every `unwrap`, slice, integer
  overflow and `debug_assert!` that is reachable is an explicit `Panic`.
  The build profile (overflow checks, debug assertions) is a parameter.
* `OnceCell`/`RefCell` caches are passed as state (`Model/Borrow.v` adds the borrow flags). External processes and file
  existence checks are an oracle indexed by time, so the tools may change between
  calls.
* Config files reach the model as TOML value trees. TOML text parsing is not
  modelled.

## Properties

Status words: *proved* (theorem for all inputs), *refuted* (the stated claim is
false of the code; a theorem `…_refuted` gives a witness and the true part is
proved), *n/a*.

| id | modelled | proof method |
| --- | --- | --- |
| C01 | flags encode/decode as byte functions | induction over the list; exact characterisation; refutation witness |
| C02 | `split` on a separator | induction; uniqueness of the decomposition |
| C03 | `split`, `trim` with Unicode white space | induction over strings, trim lemmas |
| C04–C06 | `std::path::Ancestors`, walk iterator as state machine, file existence as a predicate | induction over ancestors; refinement to a list specification |
| C07–C12 | all config structs and the generated merge code; loading as a fold | induction over the list of files, per-key specification |
| C13 | `set_path` and merge | invariant over values |
| C14 | load over an abstract file system | direct / induction over visited files |
| C15–C19 | environment application for every key | per-key functional specification; permutation invariance |
| C20 | `ResolveOptions::env` filter | restriction of the environment commutes with resolution |
| C21–C23 | target resolution | functional specification, induction over target tables |
| C24–C28 | lexer, shunting-yard parser, postfix evaluator, spans | invariant relating parser state to partial trees; induction over trees; the reported mistake is the only one that explains the text |
| C29 | parse of `rustc --print cfg` | induction over lines |
| C30–C32 | path resolution, definitions, panics | case analysis over the path model; refutation witnesses |
| C33 | target triples | path lemmas |
| C34–C36 | state machine of caches over an oracle | invariants over call sequences; refutation witness for C36 |
| C37 | version text parsing, what tools that do not change say | number printing/parsing round trip; the answers by the general lemmas of C81 with the compiler found the Unix way |
| C38, C39 | command composition, target selection | direct |
| C40 | Debug output as a tree; whole runs with tokens replaced | non-interference (two runs); refutation for the resolved configuration's captured environment |
| C41 | enum texts | case analysis |
| C42, C43 | serde value-tree (de)serialization, arrays in place of structs included (read like the table with its names, C43_other_forms) | induction, well-formedness invariant |
| C44 | error values and their conversion to `io::Error` | case analysis, induction over context depth |
| C45 | process outcome handling | direct, trim lemma |
| C46 | environment name mapping | induction |
| C47 | `CARGO_HOME` lookup | case analysis over the path model |
| C48 | error context of loading | induction over visited files |
| C49 | `str::from_utf8` | induction against the encoding of scalar values |
| C50 | target queries over the process oracle | invariants over call sequences |
| C51 | `String::from_utf8_lossy` | induction over maximal ill-formed parts |
| C52 | `Display` of cfg parse errors | direct, from the localisation of C28 |
| C53 | `easy::Config::load_with_options` as a whole, target queries | composition of C04, C07-C11, C15-C22, C30-C33, C47; acceptance as an equivalence |
| C54 | `Serialize` of the resolved configuration | factored through the writer of C42 and read back with the reader of C43; invariant over call sequences |
| C55 | writing and loading again | every value is anchored at an absolute directory, so resolving twice is resolving once; composes C53 and C54 |
| C56 | errors of loading and of variables, `Display` of errors | the outcome of each step told by the variables it consults; equivalence, composed with C48 |
| C57 | failures of queries, `Display` of errors | case analysis of each query along the states of C34-C38; converses from C22 and C37 |
| C58 | the lazy loop of loading over a file system indexed by time | the questions asked are pairwise different, so a file system giving the same answers exists; induction over the directories |
| C59 | `examples/get.rs` (format toml) | induction over trees; the leaves of a written configuration are its settings, by C42 and C43 |
| C60 | `ResolveOptions`, `into_context` and all later queries | two runs side by side: contexts agreeing on what is looked up give equal queries; the builder by induction from the last call |
| C61 | loading and all queries, two runs side by side | what each field and query reads, and that the specification of C53 determines it |
| C62 | `encode`, `encode_space_separated`, then loading and queries | C01/C03 joined to C53 and C55: what a variable says decides, and settled values do not depend on the directory |
| C63 | errors of merging and loading | the first failing part of a merge; the order of keys is total and a report determined, which gives the converse |
| C64 | panics of parsing, loading and all queries | every operation ends in a value, an error or one kind of panic; each kind is tied to a condition and back; for loading and for the absence of panics, also from the files, variables and options alone |
| C65 | Debug views of the configuration as read and as resolved | place by place against a small reading of the tree; injectivity up to token texts |
| C66 | the cells with their borrow flags, and code of the caller in the middle of calls | refinement to the model without flags; induction over the caller's code |
| C67 | assignments to public fields between queries | two-run argument: queries agree on configurations that agree where they look; induction over steps |
| C68 | values made by callers: `From` impls, builder methods, `Command` | documents to words (C43), words to fields and to the settings of a target (C53); induction over calls |
| C69 | arguments of `examples/get.rs`, `lexopt` | a grammar of command lines equal to the parser, by induction over the accepted words |
| C70 | loading and queries with more files | what C53 computes from the documents, compared for `l` and `l ++ far`, `near ++ l` |
| C71 | path operations of std, and the library over them | `Model/Path.v` (closed forms), against the state machine `Model/StdPath.v` |
| C72 | the library's path handling on Windows | directories as volume and names, `Spec/WinSpec.v` |
| C73 | the note of `examples/get.rs` and `shell_escape` | reading of assignments by a shell, `Spec/ShellSpec.v` |
| C74 | JSON written by `serde_json` | a JSON reader, `Spec/JsonSpec.v`; the words of UTF-8 texts are UTF-8, from the documents (C43) through merging to every written text; for resolved configurations through C53, with variables read only if UTF-8 and paths refused or repaired |
| C75 | the code generator, the generated files, in-place merging | which types and fields get code, `Spec/CodegenSpec.v`; what a failure leaves, `Spec/InPlaceSpec.v` |
| C76 | the text of Debug output (strings, trees) and of merge reports | strings and trees against `Spec/DebugTextSpec.v` and `Spec/DebugLayoutSpec.v`; unique readability by induction over trees; reports by scanning from inside and outside strings at once |
| C77 | which types have which auto traits, and the generated assertions of it | reasons for lacking a trait as an inductive relation over the parts of types; a terminating search proved complete and run on the declared types; the generator by induction over items |
| C78 | loading on Windows | files, variables and options as in C53, directories as in C72, `Spec/WinLoadSpec.v` |
| C79 | targets and the compiler on Windows | tables, variables and cfg as in C21 and C53, places as in C78, `Spec/OsTargetSpec.v`, `Spec/WinTargetSpec.v` |
| C80 | the text of generated files | what formatting does as an inductive relation on texts (matched parentheses, words tightened from the left), `Spec/CodegenFileSpec.v`; the loops by invariants; the texts in `src/gen` by computation (`Check/GeneratedText.v`) |
| C81 | cargo, rustc and build targets on Windows | who may have been asked what, until when, with the way a compiler is found as a parameter, `Spec/OsQuerySpec.v`; outputs as in C37, places as in C78 |
| C82 | why loading and queries fail on Windows | the problems of C56 and C57 for the sources and tables of C78 and C79 |
| C83 | when the library panics on Windows | texts without a readable last word as read in C86; values of files in the root of a volume (`Spec/WinPanicSpec.v`) |
| C84 | Debug output on several lines | the adapters of std give the layout by depth; the text tells configurations apart exactly up to tokens; UTF-8 without control characters |
| C85 | Comparing values, showing origins | equality of values is content and kind of origin, of commands also on Windows; equivalences; when equal values mean one path; what the shown origin tells |
| C86 | Any text as a path on Windows | start, root and words of a text, `Spec/WinAnySpec.v`; equality, parents, joining and the search in terms of these; the text of what is joined, `Spec/WinJoinSpec.v`, and of parents, `Spec/WinParentSpec.v` |
| C87 | Loading on Windows from any directory | sources as in C53, paths as read in C86, where a text leads from a directory, `Spec/WinAnyLoadSpec.v` |
| C88 | Targets and the compiler on Windows from any directory | settings as in C57 with the places of C87, programs without a directory, rustc beside any text of cargo, versions and host, `Spec/WinAnyTargetSpec.v` |
| C89 | Cargo and rustc on Windows to the letter | the one compiler by the texts of parent and join, what is run, told, remembered, panics and errors, `Spec/WinExactSpec.v` |
| C90 | Failures on Windows from any directory | the problems of C82 with the readings of C87; a home with room, a list that is not set, `Spec/WinAnyBlameSpec.v` |

## Where the code does not do what one would expect

These are theorems (`…_refuted`) with witnesses checked by computation:

* C01: a flag with the separator byte does not survive encoding.
* C16: the code reading `CARGO_CARGO_NEW_VCS` is never called; registry variables do not map
  dashes to underscores, so they create another registry.
* C23: a target given as `cfg(a/b)` is taken for a path and not rejected.
* C24: several roots are accepted if at most one of them is a predicate.
* C26: with 256 calls among the arguments of a call, an expression is miscounted
  (without overflow checks) or parsing panics (with them).
* C28: the span of a stray non-ASCII character ends inside it; the terms named there
  cannot follow; after a comma the named terms are incomplete.
* C29: a cfg line with an empty value is not seen.
* C32: loading panics for a `CARGO_HOME` of `/`, and for a target path without a
  file name.
* C36: with incomplete `rustc -vV` output, the second version query trips a debug
  assertion.
* C38: a `rustc` given in the options is not used to ask for the version.
* C40: the resolved configuration's `Debug` shows the captured environment, tokens
  included.
* C42: configurations built by hand need not survive serialization.
* C43: sections may be written as arrays.
* C44: a second layer of context hides the kind of an error.
* C51: different names may be shown alike.
* C52: marks are placed by byte count; a missing value at the end has no mark.
* C54: two targets whose names are not Unicode may be written under one name.
* C55: settings of a target with a specification file are written under its path but looked up by triple, so they are
  lost when loaded again; a target path such as `cfg(a/b)` is written as a key that makes every target query fail;
  paths from a relative `CARGO_HOME` stay relative.
* C56: a wrong `CARGO_REGISTRIES_CRATES_IO_PROTOCOL` or a blank `BROWSER` is reported without naming the variable.
* C57: a blank `CARGO_TARGET_<triple>_RUNNER` is reported with neither the variable nor the triple.
* C58: a file removed between being found and being read makes loading fail; one renamed from `config.toml` to
  `config` may be overlooked.
* C59: the example prints tokens; a dot in the name of an `env` entry makes different configurations look alike;
  empty entries are not printed.
* C60: variables given as an option do not include `CARGO_HOME`, which is read from the process.
* C63: the report of a clash in `build` or `doc` does not tell the key; that of a clash in a `target` table shows the
  closer table half merged.
* C66: a writer or serializer that asks the same configuration about a target while it is being written panics, even if
  the target is known.
* C67: flags assigned to `build.rustflags` are written but not used for targets; after an assignment, answers depend on
  what was asked before; `build` tables equal in all public fields may lead to different flags.
* C68: `StringList::from` of one text is not the list of that text: it is split at spaces.
* C69: an option of the example given twice is an error; `--help` after a wrong word is not seen.
* C70: a farther file changes an `env` value by adding `relative`, a linker told by a `cfg(..)` table, the flags of `build` for a target it gives flags, and a browser told by `BROWSER`.
* C72: on Windows, `CARGO_HOME` in another case or in the long form is not recognised as a directory already searched; a file directly in the root of a volume (or below a server without a share) has no root, and values in it that need one panic; so does a specification file directly on a server.
* C78: on Windows, where the case of the names of variables does not matter, variables other than `CARGO_HOME` are only seen in capitals; with `CARGO_HOME` the root of a drive, relative paths in its file panic.
* C73: names of variables are not escaped in the note of `get`, so that of an alias with a dash is read as a command.
* C74: JSON contains tokens in full.
* C85: equal values in two files, or an option and a file given as an option, may stand for different paths; a file may be named like the text shown for a variable.
* C86: on Windows, a word joined to a server without a share becomes the share.
* C80: the generator's formatting of macro calls changes string literals in them, and more if done twice where two spaces follow each other; it takes files in directories, and those whose names end in `lib`, for other modules.
* C62: an empty `CARGO_ENCODED_RUSTFLAGS` is read as one empty flag, so having no flags cannot be handed on.
* C53: specification files of targets and `relative` entries of `env` need a directory two levels above the file (panic
  otherwise), even if the value is an absolute path.

The complete list is `grep -n _refuted rocq/theories/Props/*.v`.

## Trusted base

* The Coq kernel (and `vm_compute` for concrete examples).
* No axioms: `Print Assumptions` of every theorem reports
  "Closed under the global context".
* The hand translation from Rust to Gallina, function by function, as cited in
  the comments (checked against the repository's tests in `Check/RepoTests.v`), and the models of std facilities (`str`, `Path`, `BTreeMap`,
  `HashMap`, integer parsing, UTF-8 checking and lossy decoding).
* For C77, the auto traits of the types of the standard library as listed in
  `Spec/AutoSpec.v`.

## Modelled

All non-test code of `src/`: `cfg_expr/`, `de.rs`, `easy.rs`, `env.rs`,
`error.rs`, `gen/`, `merge.rs`, `process.rs`, `resolve.rs`, `value.rs` and `walk.rs`,
for Unix, `examples/get.rs`, and `gen_de`, `gen_is_none` and `gen_assert_impl` of
`tools/codegen/src/main.rs` with `tools/codegen/src/file.rs`, except as listed below. Each definition in `Model/` cites the lines it
stands for and says where it is simpler than the code.

## Not modelled

* TOML text parsing and printing (`toml_edit`): configurations are value trees, and a
  TOML error is an opaque value (its text, which may quote the file, is not described;
  so C40 says nothing about the texts of TOML errors).
* The texts of single TOML values (`toml`) and of messages (`lexopt`) in `examples/get.rs`. `lexopt` itself, `shell-escape`
  and the writer of `serde_json` are modelled by hand, their code not being part of the repository.
* The parsing (`syn`) and the layout (`prettyplease`) of the code generator, and its warning about `.gitattributes`: the
  generator reads items and writes lists of calls or assertions; the texts in `src/gen` are compared with these up to
  blanks (`Check/GeneratedText.v`). `Model/Generated.v` and
  `Model/CrateTypes.v` were written by scripts from `src/`.
* The `home` crate. Windows is modelled where the library computes with paths, and for loading and queries as a whole
  (`Model/StdPath.v`, `Model/OsPaths.v`, `Model/OsLoad.v`; C72, C78, C79, C81, C82, C83, C86, C87, C88, C89, C90); the rest of the model is for Unix, to which C71 links it.
* Real file-system and process behaviour: both are oracles, about which nothing is
  assumed unless a theorem says so.
* Performance and memory, unstable-feature and test-only code, `Clone` and
  `AsRef`/`Deref` implementations.
* The texts of `io::Error`s. `Debug` is a tree; its text is that of `Model/DebugText.v`
  (`{:?}`) and `Model/PrettyText.v` (`{:#?}`), which do not cover the cells and non-exhaustive structs of the
  resolved configuration.

## Seeded edits

`seeded/LOG.jsonl` has one line per wrong program that was tried. `properties` are those expected to fail before the
edit was tried; it is empty where none were named (edits meant to be equivalent, and the series over small definitions
of messages, judged by the theorems that fail). `failed` is what was observed; `survived` are expected properties none
of whose theorems failed.
