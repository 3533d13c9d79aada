{"id": "C01", "title": "Encoded flags: encode/from_encoded round trip", "statement": "Flags::encode fails exactly when some flag contains the 0x1f separator; otherwise it joins the flags with 0x1f, and Flags::from_encoded of the result gives back the same list of flags for every list a caller can build. (Expected to be false for lists with a leading empty flag and for the empty list: the exact set of lists for which it holds is stated.)", "quantifier": "every list of flags, every flag any string", "why_tests_cant": "flag lists are unbounded and the failing lists differ only by empty strings in special positions; no finite sample settles which lists survive", "anchors": ["src/easy.rs: Flags::encode, encode_internal, from_encoded", "src/de.rs: split_encoded"]}
{"id": "C02", "title": "from_encoded is lossless", "statement": "Flags::from_encoded(s) is the unique list of strings that are free of 0x1f and whose 0x1f-join is s; in particular it never returns an empty list and encoding the result gives s back unless s starts with 0x1f.", "quantifier": "every string s", "why_tests_cant": "all strings, including empty, leading, trailing and repeated separators and non-ASCII text", "anchors": ["src/de.rs: split_encoded, Flags::from_encoded", "src/easy.rs: Flags::from_encoded"]}
{"id": "C03", "title": "Space-separated flags: what is accepted and what is kept", "statement": "Flags::from_space_separated(s) yields only non-empty flags, none containing a space or leading/trailing Unicode white space; Flags::encode_space_separated fails exactly when a flag contains a space; encoding then re-reading returns exactly the flags with outer white space trimmed and empties dropped, hence the same list iff every flag is already trimmed and non-empty; re-reading is idempotent.", "quantifier": "every string and every list of flags", "why_tests_cant": "the set of white-space code points and their positions is unbounded; unit tests only use ASCII blanks", "anchors": ["src/easy.rs: Flags::from_space_separated, encode_space_separated, encode_internal", "src/de.rs: split_space_separated"]}
{"id": "C04", "title": "Config file discovery order", "statement": "Walking from a directory yields, in order, at most one config file per ancestor directory from the directory itself up to the root, then at most one from CARGO_HOME; each is <dir>/.cargo/config if that exists, else <dir>/.cargo/config.toml if that exists; nothing else is yielded and no existing candidate is skipped.", "quantifier": "every start directory, every CARGO_HOME, every set of existing files", "why_tests_cant": "directory depth and the set of existing files are unbounded", "anchors": ["src/walk.rs: Walk, WalkInner::next, config_path"]}
{"id": "C05", "title": "CARGO_HOME is never visited twice", "statement": "If CARGO_HOME names the .cargo directory of one of the walked ancestors (comparing paths by components, so ignoring repeated separators, '.' and trailing slashes) its file is reported only at that ancestor's position; otherwise it is reported last.", "quantifier": "every start directory, every CARGO_HOME path spelling, every set of existing files", "why_tests_cant": "path spellings are unbounded; a duplicate would silently double every array in the merged config", "anchors": ["src/walk.rs: WalkInner::next"]}
{"id": "C06", "title": "The walk iterator terminates and is fused", "statement": "Repeated next() calls reach None after finitely many steps, and once None has been returned every later call returns None.", "quantifier": "every start directory, CARGO_HOME and file set; any number of calls", "why_tests_cant": "unbounded number of calls and directory depth", "anchors": ["src/walk.rs: WalkInner::next"]}
{"id": "C07", "title": "Scalar keys: the closest file wins", "statement": "For every scalar key (numbers, booleans, strings, paths, enums; including entries inside target, registries, alias-free tables, http, net, term, term.progress) the loaded value is the one from the first file in discovery order that defines the key, and it is absent iff no file defines it.", "quantifier": "any number of config files with arbitrary contents, every scalar key", "why_tests_cant": "the number of files and the combinations of defined keys are unbounded", "anchors": ["src/merge.rs: merge_non_container, Option<T>::merge", "src/gen/de.rs: Merge impls", "src/de.rs: Config::_load_with_options"]}
{"id": "C08", "title": "List keys: joined, higher precedence later", "statement": "For every list-valued key (rustflags, rustdocflags, build.target, alias entries) given as arrays, the loaded list is the concatenation of all files' lists from the farthest file to the closest, no element lost, duplicated or reordered; given as plain strings the closest file's list is used unchanged.", "quantifier": "any number of files, any array lengths", "why_tests_cant": "unbounded number of files and elements", "anchors": ["src/merge.rs: Flags::merge, StringList::merge, StringOrArray::merge", "src/de.rs: Config::_load_with_options"]}
{"id": "C09", "title": "Program-with-arguments keys: joined, higher precedence first", "statement": "For runner and doc.browser given as arrays the loaded value is the closest file's program and arguments followed by the words of each farther file in order; given as plain strings the closest file's value is used unchanged.", "quantifier": "any number of files, any array lengths", "why_tests_cant": "unbounded number of files and elements; opposite order from the other list keys", "anchors": ["src/merge.rs: PathAndArgs::merge", "src/de.rs: Config::_load_with_options"]}
{"id": "C10", "title": "Merging fails exactly on string/array (or value/table) mixes", "statement": "Loading several syntactically valid files fails at the merge step iff some list-, program-, or env-valued key is written in two different forms (string vs array, plain value vs table) in two of the files; in every other case merging succeeds.", "quantifier": "any number of files with arbitrary contents", "why_tests_cant": "needs a statement about every key in every pair of files", "anchors": ["src/merge.rs: all impls", "src/gen/de.rs: Merge impls", "src/error.rs: Error"]}
{"id": "C11", "title": "Table keys are the union of the files' keys", "statement": "The set of alias/env/registries/target entry names after loading is exactly the union over all files, and each entry only depends on the same-named entries of the files.", "quantifier": "any number of files, any tables, every key", "why_tests_cant": "unbounded maps", "anchors": ["src/merge.rs: BTreeMap::merge", "src/gen/de.rs: Merge for Config"]}
{"id": "C12", "title": "Merge is a monoid action", "statement": "Merging with an empty config on either side changes nothing; merging three configs gives the same result and the same success/failure whichever pair is merged first; with the force flag set the other operand's scalars win instead.", "quantifier": "all triples of configs", "why_tests_cant": "all inputs; associativity cannot be sampled", "anchors": ["src/merge.rs: Merge", "src/gen/de.rs: Merge impls"]}
{"id": "C13", "title": "Every loaded value remembers the file it came from", "statement": "After loading, each value's recorded definition is the path of one of the visited files, and that file really contains that value at that key; setting the path changes no value.", "quantifier": "any set of files", "why_tests_cant": "all keys in all files; relative path resolution depends on it", "anchors": ["src/value.rs: SetPath", "src/gen/de.rs: SetPath impls", "src/de.rs: Config::_load_file"]}
{"id": "C14", "title": "Loading is all-or-nothing over the visited files", "statement": "Loading succeeds only if every visited file can be read and parsed; with no file the result is the default config; files that are not visited cannot influence the result.", "quantifier": "every file system content and start directory", "why_tests_cant": "quantifies over all file systems", "anchors": ["src/de.rs: Config::_load_with_options, _load_file"]}
{"id": "C15", "title": "Environment overrides do not depend on map iteration order", "statement": "Applying environment overrides gives the same config (or is rejected) regardless of the order in which the environment hash map is iterated.", "quantifier": "every environment, every permutation of its iteration order, every input config", "why_tests_cant": "hash order is randomised per process; tests see one order", "anchors": ["src/env.rs: Config::apply_env"]}
{"id": "C16", "title": "Environment variables override config keys", "statement": "For every documented CARGO_<SECTION>_<KEY> variable that is set, the corresponding key of the resolved config equals the variable's (parsed) value whatever the files say; every key whose variable is unset keeps the files' value. (Expected false for cargo-new.vcs, whose override is never applied.)", "quantifier": "every environment, every config, every key", "why_tests_cant": "some forty variables times arbitrary presence combinations and values", "anchors": ["src/env.rs: ApplyEnv impls"]}
{"id": "C17", "title": "Precedence among alternative build variables", "statement": "RUSTC beats CARGO_BUILD_RUSTC beats build.rustc; likewise RUSTC_WRAPPER, RUSTC_WORKSPACE_WRAPPER, RUSTDOC, CARGO_TARGET_DIR over CARGO_BUILD_TARGET_DIR; an empty wrapper variable disables the wrapper; CARGO_INCREMENTAL set means incremental iff it is '1'.", "quantifier": "every environment and every config", "why_tests_cant": "all combinations of presence, emptiness and value of two variables and a file key", "anchors": ["src/env.rs: BuildConfig::apply_env"]}
{"id": "C18", "title": "rustflags source precedence", "statement": "CARGO_ENCODED_RUSTFLAGS beats RUSTFLAGS, and either suppresses all target and build rustflags; else target-specific sources are used; else CARGO_BUILD_RUSTFLAGS/build.rustflags. The same holds for the rustdoc variants.", "quantifier": "every environment, config and target", "why_tests_cant": "cross product of all sources", "anchors": ["src/env.rs: BuildConfig::apply_env", "src/de.rs: Config::resolve_target", "src/easy.rs: Config::rustflags"]}
{"id": "C19", "title": "BROWSER is only a fallback", "statement": "The BROWSER variable sets doc.browser only if no file defined it; it can never replace a configured browser.", "quantifier": "every environment and config", "why_tests_cant": "all inputs; opposite precedence from the other variables", "anchors": ["src/env.rs: DocConfig::apply_env"]}
{"id": "C20", "title": "Unrelated environment variables have no effect", "statement": "ResolveOptions::env keeps only Unicode-named variables starting with CARGO, RUST or BROWSER; dropping the rest never changes the resolved config: every variable that the resolution reads passes the filter.", "quantifier": "every environment", "why_tests_cant": "all variable names; a single variable read under another prefix would be silently lost", "anchors": ["src/resolve.rs: ResolveOptions::env", "src/env.rs: ApplyEnv impls", "src/de.rs: Config::resolve_target"]}
{"id": "C21", "title": "Linker and runner precedence for a target", "statement": "For a target, linker/runner come from CARGO_TARGET_<TRIPLE>_LINKER/RUNNER if set, else [target.<triple>], else the first matching [target.'cfg(..)'] in key order, else are absent; non-matching cfg tables never contribute.", "quantifier": "every target, config, environment and cfg set", "why_tests_cant": "all configs and targets", "anchors": ["src/de.rs: Config::resolve_target"]}
{"id": "C22", "title": "rustflags accumulation for a target", "statement": "Without RUSTFLAGS-style overrides, the target's rustflags are [target.<triple>].rustflags, then CARGO_TARGET_<TRIPLE>_RUSTFLAGS, then each matching cfg table's rustflags in key order; build.rustflags is used iff none of those sources is present; rustdocflags ignore cfg tables.", "quantifier": "every target, config, environment and cfg set", "why_tests_cant": "unbounded number of cfg tables and flags", "anchors": ["src/de.rs: Config::resolve_target"]}
{"id": "C23", "title": "cfg(...) strings are rejected as target names and bad cfg keys are reported", "statement": "Asking for a target whose name starts with 'cfg(' is always an error; if any [target.'cfg(..)'] key of the config is not a valid cfg expression, every target query fails rather than ignoring it.", "quantifier": "every target name, every config", "why_tests_cant": "all strings", "anchors": ["src/de.rs: Config::resolve_target", "src/resolve.rs: ResolveContext::eval_cfg"]}
{"id": "C24", "title": "cfg expressions: accepted exactly the grammar", "statement": "A cfg expression string (with or without the cfg(..) wrapper) is accepted iff its tokens form comma separated items of key, key = \"value\", all(..), any(..), not(one item), with at most one bare predicate at top level. Documented single-root grammar: a cfg expression has exactly one root (expected false: several function roots are accepted).", "quantifier": "every string", "why_tests_cant": "infinite language; nesting depth unbounded", "anchors": ["src/cfg_expr/expr/parser.rs: Expression::parse", "src/cfg_expr/expr/lexer.rs: Lexer"]}
{"id": "C25", "title": "cfg expressions: evaluation agrees with the boolean meaning", "statement": "For every well-formed expression with fewer than 256 nested function calls per argument list, written with arbitrary white space and redundant commas, evaluation equals the usual meaning: all = conjunction, any = disjunction, not = negation; all() is true and any() is false.", "quantifier": "every expression tree, every assignment of predicates", "why_tests_cant": "unbounded trees; the postfix encoding reorders arguments", "anchors": ["src/cfg_expr/expr/parser.rs: Expression::parse", "src/cfg_expr/expr/mod.rs: Expression::eval"]}
{"id": "C26", "title": "cfg expressions: no size limit on argument lists", "statement": "Evaluation agrees with the boolean meaning for argument lists of any length. (Expected false: with 256 nested calls in one list an 8-bit counter overflows, panicking in debug builds and giving a wrong answer in release builds.)", "quantifier": "every expression tree", "why_tests_cant": "needs inputs larger than any test uses", "anchors": ["src/cfg_expr/expr/parser.rs: FuncAndSpan::nest_level"]}
{"id": "C27", "title": "cfg parsing and evaluation never panic", "statement": "In a release build parsing any string returns Ok or Err without panicking, and evaluating anything that parsed never panics, whatever the nesting; slices of keys and values stay on character boundaries.", "quantifier": "every string, every predicate function", "why_tests_cant": "all strings; the evaluator unwraps a stack", "anchors": ["src/cfg_expr/expr/parser.rs: Expression::parse", "src/cfg_expr/expr/mod.rs: Expression::eval, InnerPredicate::to_pred", "src/cfg_expr/expr/lexer.rs: Lexer::next"]}
{"id": "C28", "title": "cfg parse errors point at the first mistake", "statement": "Every parse error carries the text being parsed and a span start <= end <= length of that text. The text before the span could have been continued to something well formed, and what is under the span is what makes this impossible: a token that cannot follow, a parenthesis without partner, a character or quote of no token, a not() with another number of arguments than one (counted modulo 256 calls), a missing value or parenthesis at the end; otherwise the text is empty or has several root predicates, and all of it is the span. For an unexpected token, the named terms are those that could have followed (except that a closing parenthesis may be named outside calls, and calls and commas are not named after a comma). Conversely each such description of what is wrong is reported; it is wrong in one place only; and a text is either accepted or wrong in one of these ways, never both.", "quantifier": "every string", "why_tests_cant": "all strings", "anchors": ["src/cfg_expr/error.rs: ParseError", "src/cfg_expr/expr/parser.rs: Expression::parse", "src/cfg_expr/expr/lexer.rs: Lexer::next"]}
{"id": "C29", "title": "cfg predicates are answered from rustc's cfg output", "statement": "cfg(name) holds iff rustc's output has a line 'name' (except test, debug_assertions and proc_macro which never hold); cfg(key = \"v\") holds iff the output has a line key=\"v\" (except feature, which never holds). (Expected false for v empty: such lines are dropped.)", "quantifier": "every rustc output, every predicate", "why_tests_cant": "all outputs", "anchors": ["src/resolve.rs: Cfg::parse, CfgMap::eval_cfg"]}
{"id": "C30", "title": "Program paths are resolved relative to their definition", "statement": "A configured program that is a bare name or an absolute path is returned unchanged; a relative path containing a separator is joined to the directory above the .cargo directory of the file defining it, or to the current directory if it comes from an environment variable.", "quantifier": "every value, every definition, every current directory", "why_tests_cant": "all path strings", "anchors": ["src/value.rs: resolve_as_program_path, Definition::root", "src/easy.rs: PathAndArgs::from_unresolved"]}
{"id": "C31", "title": "Config-relative paths are resolved relative to their definition", "statement": "target-dir, dep-info-basedir, and env values marked relative are absolute-or-joined to the definition's root; if the root is absolute the result is absolute; resolved env values are no longer marked relative.", "quantifier": "every value, definition and current directory", "why_tests_cant": "all path strings", "anchors": ["src/value.rs: resolve_as_path", "src/de.rs: EnvConfigValue::resolve", "src/easy.rs: BuildConfig::from_unresolved"]}
{"id": "C32", "title": "Loading never panics", "statement": "Loading a config returns Ok or Err and never panics, for all directories, CARGO_HOME and file contents. (Expected false: CARGO_HOME equal to '/' or empty together with a relative path value, and target names such as 'a/..' panic; holds otherwise.)", "quantifier": "every current directory, CARGO_HOME, file system content and environment", "why_tests_cant": "all inputs; panics hide behind unwraps on unusual paths", "anchors": ["src/value.rs: Definition::root", "src/resolve.rs: TargetTripleRef::new", "src/de.rs: Config::load_with_options", "src/easy.rs: Config::load_with_options"]}
{"id": "C33", "title": "Target triple identity", "statement": "A target given as a custom spec path (contains a separator or ends in .json) keeps the path for the command line and uses the file stem as its triple; two targets compare equal exactly when their command line forms are equal, equal targets have equal triples and hash/order consistently; a plain triple is kept verbatim.", "quantifier": "every target string, definition and directory", "why_tests_cant": "all strings; equality decides cache hits", "anchors": ["src/resolve.rs: TargetTripleRef::new, cli_target, PartialEq, Ord, Hash"]}
{"id": "C34", "title": "Per-target cache is transparent", "statement": "Any sequence of linker/runner/rustflags/rustdocflags/target queries answers each query exactly as a fresh config would; a failed query is not cached; a repeated successful query runs no process.", "quantifier": "every finite sequence of queries, every target, deterministic external tools", "why_tests_cant": "unbounded histories", "anchors": ["src/easy.rs: Config::target, init_target_config", "src/resolve.rs: CfgMap::eval_cfg"]}
{"id": "C35", "title": "Tool information is queried at most once and stays stable", "statement": "Once rustc(), host_triple(), rustc_version() or cargo_version() has returned a value, every later call returns the same value without running a process, even if the tools on disk change meanwhile.", "quantifier": "every interleaving of calls, every (even changing) behaviour of external tools", "why_tests_cant": "unbounded histories and external behaviours", "anchors": ["src/resolve.rs: ResolveContext::rustc, host_triple, rustc_version, cargo_version"]}
{"id": "C36", "title": "Version queries never panic", "statement": "host_triple/rustc_version/cargo_version return Ok or Err for every tool output in every build profile. (Expected false in debug builds: a second call after a partially failed first call trips an internal assertion.)", "quantifier": "every interleaving of calls and every tool behaviour", "why_tests_cant": "needs a failing first call followed by a second call", "anchors": ["src/resolve.rs: ResolveContext::host_triple, rustc_version, cargo_version"]}
{"id": "C37", "title": "Version parsing", "statement": "parse of a 'release: M.m.p[-channel]' line returns exactly those numbers for all 32-bit values, flags nightly iff the channel is 'nightly' or 'dev'; larger numbers and missing minor are rejected; cargo's version additionally requires the patch number. With tools that do not change, rustc_version, cargo_version and host_triple answer exactly what the tools say, after any calls: the host is the option, or what cargo says, or what rustc says where cargo does not say it.", "quantifier": "all numbers, all channel strings, any surrounding lines, all call histories", "why_tests_cant": "all numbers", "anchors": ["src/resolve.rs: parse_version, rustc_version, cargo_version"]}
{"id": "C38", "title": "Compiler command composition", "statement": "The rustc command is [wrapper] [workspace wrapper] rustc <args> in that order, skipping absent ones; for version queries the workspace wrapper is left out; an explicit ResolveOptions::rustc replaces all of it.", "quantifier": "every config and option set", "why_tests_cant": "all presence combinations and argument lists", "anchors": ["src/resolve.rs: ResolveContext::rustc, rustc_for_version", "src/easy.rs: Config::rustc"]}
{"id": "C39", "title": "Build target selection", "statement": "The list of targets is the explicit argument if non-empty, else build.target, else the host triple; the CLI form returns nothing (not the host) in the last case and preserves spec paths.", "quantifier": "every config and argument list", "why_tests_cant": "all lists", "anchors": ["src/easy.rs: Config::build_target_for_config, build_target_for_cli"]}
{"id": "C40", "title": "Secrets do not appear in Debug output", "statement": "The Debug output of registry/registries configs does not depend on token contents, and errors about undecodable token variables do not depend on them either. (Expected false for the Debug output of the resolved top-level config, which prints the captured environment.)", "quantifier": "all pairs of configs/environments differing only in tokens", "why_tests_cant": "non-interference is a two-run property", "anchors": ["src/de.rs: RegistriesConfigValue Debug, RegistryConfig Debug", "src/easy.rs: Debug impls, Config", "src/resolve.rs: ResolveContext, env_redacted"]}
{"id": "C41", "title": "Enum and scalar texts round trip", "statement": "For each enum (color, progress when, frequency, vcs, protocol) parsing the text form of a value gives the value back, any other text is rejected, and the same texts are used for files, environment and serialization.", "quantifier": "every string", "why_tests_cant": "all strings", "anchors": ["src/de.rs: FromStr impls, as_str"]}
{"id": "C42", "title": "Config serialization round trip", "statement": "Serializing a loaded (merged, overridden) unresolved config and deserializing it again gives the same config up to definitions and string/array form of flags; an empty config serializes to an empty table.", "quantifier": "every config reachable by loading", "why_tests_cant": "all configs", "anchors": ["src/de.rs: Serialize/Deserialize impls", "src/gen/is_none.rs: SerdeSkip"]}
{"id": "C43", "title": "Deserialization ignores unknown keys and rejects mistyped known keys", "statement": "Adding keys the crate does not know to a config file never changes the result; a known scalar key with the wrong type makes the file invalid. (Expected false in corner cases: a section also accepts an array of its fields in order.) The keys and their order are those of the declared fields, with hyphens, the skipped ones left out.", "quantifier": "every TOML document", "why_tests_cant": "all documents", "anchors": ["src/de.rs: Deserialize derives"]}
{"id": "C44", "title": "Error kinds survive conversion to io::Error", "statement": "Converting the crate's error to std::io::Error keeps the kind of an io error directly under at most one layer of context and maps a TOML error there to InvalidData. (The claim for any depth of context is expected false: deeper ones become Other.)", "quantifier": "every error value", "why_tests_cant": "unbounded context nesting", "anchors": ["src/error.rs: From<Error> for io::Error, Context"]}
{"id": "C45", "title": "Subprocess output is used only on success and without trailing newlines", "statement": "Output of a tool is used only if it exits successfully and is UTF-8; exactly the trailing CR/LF characters are removed; everything else yields an error naming the command.", "quantifier": "every process outcome", "why_tests_cant": "all byte strings", "anchors": ["src/process.rs: ProcessBuilder::read, run_with_output"]}
{"id": "C46", "title": "Environment names for target variables", "statement": "The variable consulted for a triple is CARGO_TARGET_<T>_<KEY> with T the triple upper-cased with '-' and '.' replaced by '_' and nothing else changed.", "quantifier": "every triple", "why_tests_cant": "all strings", "anchors": ["src/de.rs: target_u_upper, resolve_target"]}
{"id": "C47", "title": "Where CARGO_HOME is", "statement": "The CARGO_HOME directory is the value of the variable if it is set and not empty (as is when absolute, else joined to the current directory), and otherwise .cargo in the home directory; it is absolute whenever the current directory and the home directory are; it is absent only if the variable is unset or empty and there is no home directory.", "quantifier": "every environment value, current directory and home directory", "why_tests_cant": "all path strings", "anchors": ["src/walk.rs: cargo_home_with_cwd"]}
{"id": "C48", "title": "Load errors name the offending files", "statement": "When loading fails because a file cannot be read or parsed, the error names that file; when it fails while merging, the error names the file being merged and the closest file; the first file in discovery order that makes loading fail is the one reported.", "quantifier": "every file system content and start directory", "why_tests_cant": "any number of files with any contents", "anchors": ["src/de.rs: Config::_load_with_options, _load_file", "src/error.rs: Context"]}
{"id": "C49", "title": "UTF-8 validity", "statement": "The bytes accepted as Rust strings (environment values, program output, the text of cfg expressions) are exactly the concatenations of shortest-form encodings of Unicode scalar values: overlong forms, surrogates and values above U+10FFFF are rejected.", "quantifier": "every byte string", "why_tests_cant": "all byte strings", "anchors": ["src/env.rs: VarError::NotUnicode", "src/process.rs: ProcessBuilder::read"]}
{"id": "C50", "title": "Target queries run rustc only when needed", "statement": "A query about a target runs at most one program: rustc asked for the cfg of that target, and only if the configuration has a cfg(..) table and neither the target nor its cfg is known yet; after one success no later query about the target runs anything.", "quantifier": "every configuration, state of the caches, target and outcome of programs", "why_tests_cant": "all call sequences and process outcomes", "anchors": ["src/de.rs: resolve_target", "src/easy.rs: init_target_config", "src/resolve.rs: CfgMap::eval_cfg"]}
{"id": "C51", "title": "Text shown for arbitrary bytes", "statement": "Names that are not UTF-8 are shown (in messages and as --target argument) with every maximal ill-formed part replaced by one U+FFFD; the result is always UTF-8 and equals the name exactly if the name is UTF-8. (Different names may therefore be shown alike.)", "quantifier": "every byte string", "why_tests_cant": "all byte strings", "anchors": ["src/resolve.rs: cli_target_string", "src/process.rs: Display for ProcessBuilder", "src/de.rs: load errors"]}
{"id": "C52", "title": "Messages of cfg parse errors", "statement": "The text of a cfg parse error is the parsed text, a line end, and one more line that has marks in exactly the columns (in bytes) of the span - or only at its first column for what is left open - and ends in a description; different reasons have different descriptions. (For text outside ASCII the marks are not below the characters meant; a value missing at the end is not marked at all.)", "quantifier": "every string", "why_tests_cant": "all strings", "anchors": ["src/cfg_expr/error.rs: Display for ParseError, Display for Reason"]}
{"id": "C53", "title": "The resolved configuration from its sources", "statement": "Every field of a resolved configuration is determined by the files found, the variables kept and the current directory in one stated way: a variable that is set wins, otherwise the closest file that has the key (lists: all files joined), and paths are then taken relative to where they are written; target queries combine the tables of all files likewise. Loading succeeds exactly if all files can be read and agree in shape, the variables consulted can be read and all paths have a directory to be relative to. Files not found and options or variables that do not change these sources change nothing.", "quantifier": "every file system, process environment, set of options and current directory", "why_tests_cant": "any number of files with any contents, all environments", "anchors": ["src/easy.rs: Config::load_with_options, from_unresolved", "src/de.rs: load_with_options, apply_env", "src/resolve.rs: into_context"]}
{"id": "C54", "title": "Writing the resolved configuration", "statement": "A resolved configuration can be written exactly if its paths are Unicode. What is written is a configuration file that says the same as the resolved configuration: every key with its resolved value, lists as arrays, tokens included, and under [target] exactly the targets asked about so far with the settings that were answered. Before any target is asked about no [target] table is written; nothing is written only if nothing is configured; and what is written does not depend on the environment, the directory or the definitions kept inside. (Arguments and names that are not Unicode are replaced, so two targets may get one name.)", "quantifier": "every resolved configuration and sequence of target queries", "why_tests_cant": "all configurations and call sequences", "anchors": ["src/easy.rs: Serialize for Config and its parts", "src/resolve.rs: Serialize for TargetTripleRef", "src/gen/is_none.rs"]}
{"id": "C55", "title": "What was written can be loaded again", "statement": "Loading what was written of a loaded configuration, as the only file and without variables but from any directory, succeeds and gives the same settings; written again it is the same. Every target that was asked about by triple before writing has the same settings when asked about again, all others have the general flags only. This needs the original to be loaded from an absolute directory with an absolute CARGO_HOME, and everything written to be Unicode. (Settings of targets with a specification file are lost, because they are written under the path but looked up by triple; asking about a path beginning with cfg( makes all target queries fail after loading again.)", "quantifier": "every resolved configuration, sequence of target queries and place of the written file", "why_tests_cant": "all configurations, call sequences and directories", "anchors": ["src/easy.rs: Serialize for Config and its parts, Config::load_with_options", "src/de.rs: resolve_target", "src/value.rs: resolve_as_path, resolve_as_program_path"]}
{"id": "C56", "title": "What an error of loading is about", "statement": "Loading fails because of a file or a variable, and the error says which. If the files are accepted, it fails exactly if a variable that is consulted cannot be read; the error is about the first such variable: aliases and registries in the order of the environment, then all others in one fixed order, BROWSER only if no file gives a browser. What it says is determined by the variable and its value: the name in quotes, with the value if it is not Unicode (tokens: [REDACTED]), or with the accepted words and the value found. A file that cannot be read, parsed or merged is quoted in the text. (A wrong CARGO_REGISTRIES_CRATES_IO_PROTOCOL and a blank BROWSER are reported without the name of the variable.)", "quantifier": "every file system, environment, set of options and current directory", "why_tests_cant": "all environments with any number of wrong variables, in every order", "anchors": ["src/de.rs: Config::apply_env", "src/resolve.rs: env, env_redacted, env_parse", "src/error.rs: Display for Error", "src/value.rs: Value::parse"]}
{"id": "C57", "title": "What an error of a query is about", "statement": "A query about a target fails only for one of four reasons, tried in this order: its name begins with cfg(; one of its variables cannot be read, in the order linker, runner, rustflags, rustdocflags (nothing is run and the state is unchanged); a cfg(..) key is not valid; rustc, needed by the first cfg(..) key, fails. Conversely an unreadable variable always stops the query, so does a failing rustc that is needed, and of the keys that are not valid the first is reported, with what is wrong with it. The host fails only after cargo and then rustc were asked in that call and neither told it; the error is the one of rustc. A version fails only after the tool was run, as the last command. Build targets fail only as the host does, all other queries never. The text contains the triple, the variable, the key or the command. (A blank CARGO_TARGET_<triple>_RUNNER is reported with neither the name nor the triple.)", "quantifier": "every configuration, environment, outcome of the programs over time, state reached by queries, and query", "why_tests_cant": "all combinations of wrong variables and failing programs, in every state", "anchors": ["src/de.rs: resolve_target", "src/resolve.rs: rustc_version, cargo_version, host_triple, Cfg::from_rustc", "src/easy.rs: Config::target, linker, runner, rustflags, rustdocflags, build_target_for_config", "src/error.rs: Display for Error"]}
{"id": "C58", "title": "Loading while the files change", "statement": "Files may appear, change and vanish while a configuration is loaded; every existence check and every read sees the file system of its own moment. The result is nevertheless that of a file system that stands still, each of whose answers was true at some time: only config and config.toml in the directories of the search order are looked at, none is checked twice or read twice, a file is read only right after it was found to exist, and there are at most three accesses per directory. If these files stand still, changes elsewhere do not matter. (The result need not be that of any one moment: a file removed between check and read makes loading fail although it would succeed at every moment, and a file renamed from config.toml to config may be overlooked.)", "quantifier": "every course of changes of the file system, current directory and CARGO_HOME", "why_tests_cant": "races with other processes; tests see a file system that stands still", "anchors": ["src/de.rs: load_with_options", "src/walk.rs: config_path, Walk::next", "src/easy.rs: Config::load_with_options"]}
{"id": "C59", "title": "What the get example prints", "statement": "examples/get.rs prints a loaded configuration as lines a.b.c = value: one line for each setting and no other, sorted by key, each value standing for the setting it is printed for. If no key contains a dot, names and values of the lines tell the settings. With merged=no every file found is printed under its name in search order, up to the first that cannot be read or parsed, even if the files cannot be merged; with merged=yes everything is printed or nothing. Afterwards the variables beginning with CARGO_ are listed. (A dot in the name of an env entry makes different configurations look alike, entries without settings are not printed, and tokens are printed, both those in files and those in variables.)", "quantifier": "every configuration, file system, environment and way to print values", "why_tests_cant": "any number of files with any contents", "anchors": ["examples/get.rs: try_main, print_config, print_value", "src/de.rs: Serialize for Config, Config::load_file, Config::load", "src/walk.rs: Walk"]}
{"id": "C60", "title": "What the options decide and what the process decides", "statement": "Each option of ResolveOptions is what its last builder call gave, whatever other calls were made before or after. Loading, every setting, and every later answer and program run depend on the process and the options only through the variables (kept ones, last setting of each), CARGO_HOME, the cargo program (option, else CARGO, else cargo), and the given rustc and host triple. So giving the variables and CARGO_HOME isolates from the process entirely, giving a default explicitly changes nothing, and other variables and their order do not matter. cargo() tells that program; a given host triple or rustc is the answer in every state, and nothing is run for it. (Giving the variables alone does not isolate: CARGO_HOME is still read from the process, even if it is among the variables given.)", "quantifier": "every two processes, sets of options, sequence of builder calls, file system, current directory, outcome of the programs, and sequence of queries", "why_tests_cant": "pairs of processes and all later call sequences; tests run in one process whose variables cannot be varied safely", "anchors": ["src/resolve.rs: ResolveOptions, into_context, ResolveContext::cargo_home, host_triple, rustc", "src/walk.rs: cargo_home_with_cwd", "src/easy.rs: Config::load_with_options, cargo"]}
{"id": "C61", "title": "Each setting depends on its own keys and variables only", "statement": "Two runs in the same directory that both succeed agree on a setting whenever they agree on what the files, taken together, say of that key and on the variables of that key, whatever else differs: other keys, other variables, options, number of files. Likewise for the answers: rustc and the versions depend on build.rustc, build.rustc-wrapper, build.rustc-workspace-wrapper and the cargo program; the settings of a target besides on its own table, the cfg(..) tables, its four variables and the flags for all targets; then answers, programs run and everything remembered agree, in every state and for every sequence of such calls. So a file not mentioning a key does not matter for it wherever it is, what is behind a file setting a single value does not matter for it, and no file matters for a value whose variable is set.", "quantifier": "every two runs (file systems, processes, options), key, target, outcome of the programs, state and sequence of queries", "why_tests_cant": "pairs of runs differing in arbitrary other settings; a wrong variable name, a swapped field or a leak from one table to another shows only for particular combinations", "anchors": ["src/de.rs: Config, resolve_target, apply_env via src/env.rs", "src/easy.rs: Config::from_unresolved, init_target_config, build_target_for_config", "src/resolve.rs: ResolveContext", "src/merge.rs"]}
{"id": "C62", "title": "Settings handed on by variables arrive unchanged", "statement": "What one run found can be handed on to another process by its variables, whatever files, directory and other variables that one has. A single value of a run from an absolute directory and CARGO_HOME, written into the first variable of its key in a form that reads as the value, is the value there (relative paths were made absolute by the first run). Flags written by encode into CARGO_ENCODED_RUSTFLAGS (or RUSTDOCFLAGS) are the flags of the build and the answer for every target in every state, for exactly the lists that do not begin with an empty flag; flags written by encode_space_separated into RUSTFLAGS, if the other is unset, for exactly the lists of trimmed words. A linker and a runner written into the variables of a target, and a target written into CARGO_BUILD_TARGET, are the answers. (No flags at all do not arrive: an empty CARGO_ENCODED_RUSTFLAGS is read as one empty flag.)", "quantifier": "every two runs, key, value, list of flags, target, outcome of the programs and sequence of earlier queries", "why_tests_cant": "pairs of processes with arbitrary flags and files; tests encode or decode separately", "anchors": ["src/easy.rs: Flags::encode, encode_space_separated, Config::rustflags, linker, runner", "src/env.rs: ApplyEnv for Config", "src/de.rs: resolve_target, Flags::from_encoded, split_encoded", "src/value.rs: resolve_as_path, resolve_as_program_path"]}
{"id": "C63", "title": "What is said about a key written in two ways", "statement": "If two files write a key in two ways (string and array, value and table), the error is determined: it is about the first such key in the order alias (by name), build.target, build.rustflags, build.rustdocflags, doc.browser, env (by name), target (by name; within a table runner, rustflags, rustdocflags), at the first file in search order that clashes with those before it. It says what was expected (the way of the closer files) and what was found, names both files, and for alias, env and target the entry, showing both entries, the closer one of a target with the keys before the clash already joined. Conversely a merge or a load fails with an error only in this way, or because that file cannot be read or parsed. (For build and doc nothing in the report tells the key.)", "quantifier": "every two configurations, merge direction, file system, current directory and CARGO_HOME", "why_tests_cant": "any number of clashes in any combination of keys and files", "anchors": ["src/merge.rs", "src/gen/de.rs: Merge impls", "src/de.rs: _load_with_options, StringOrArray::kind, EnvConfigValue::kind", "src/error.rs: with_context"]}
{"id": "C64", "title": "When the library panics", "statement": "The library panics in exactly these cases. Parsing an expression: with overflow checks, when one call has 256 arguments that are calls. Loading: when a path, program, target or relative env value is written in a file whose directory has no parent, or build.target has a path without a name in UTF-8. A query about a target: the name given has no such name (then nothing is run or changed); with overflow checks, a cfg(..) key that the work gets to has too many calls; or the linker or runner has no meaning as a program. Host and versions: with debug assertions, when a version known already is told again in the search for a host that is not known. build_target_for_config: a nameless argument, or as the host query, or a nameless host. rustc, cargo and build_target_for_cli never panic. So without overflow checks and debug assertions, with CARGO_HOME below a root and names that are names, no query of a loaded configuration panics, in any state and whatever the programs print.", "quantifier": "every text, file system, process, configuration, state reached by queries, outcome of the programs, and build profile", "why_tests_cant": "absence of panics over all inputs; the panics there are need 256 arguments, files in /, or a second call after a failed first one", "anchors": ["src/cfg_expr/expr/parser.rs: Expression::parse", "src/value.rs: root, root_opt", "src/resolve.rs: TargetTriple::new, host_triple, rustc_version, cargo_version", "src/easy.rs: Config::from_unresolved, init_target_config, build_target_for_config", "src/de.rs: resolve_target"]}
{"id": "C65", "title": "Debug output loses nothing but tokens", "statement": "The Debug view of a configuration shows every key that is set at its place (fields with _ for -), and nothing there if it is not set: a value with its origin, a list or program word by word with the origins and the way it was written, an env entry as value or table; of a token only that it is set and its origin. Two configurations have the same view exactly if they are the same up to the text of tokens. The same for the resolved configuration, whose view also shows the captured variables, the given cargo, CARGO_HOME and directory, and everything remembered (rustc, host, versions, cfg, targets): equal views exactly if all these are equal, up to the text of token fields. So the entries shown in the report of a failed merge determine the entries.", "quantifier": "every two configurations, resolved configurations and states", "why_tests_cant": "a field left out, shown twice or under another name shows only for configurations differing in it", "anchors": ["src/de.rs: derive(Debug) for Config and its parts", "src/easy.rs: derive(Debug) for Config and its parts", "src/value.rs: Value, Definition", "src/resolve.rs: ResolveContext, TargetTriple, Cfg", "src/de.rs, src/easy.rs: Debug for RegistriesConfigValue, RegistryConfig"]}
{"id": "C66", "title": "Calling the configuration from inside a call", "statement": "Conversions of arguments, iterators, writers and serializers are code of the caller that runs in the middle of a call and may call the same configuration again. Conversions and iterators may make any calls, at any depth, may look at how these end, and may panic: no cell is found borrowed, and the whole comes to what the queries come to one after another, the last being the one asked; while the programs answer the same, such code does not influence the answer about a target. However a call ends, including by panics at any depth, the cells are borrowed afterwards as before. Writers and serializers may ask anything that is not about a target. (While the settings of targets are written, every query about a target panics, known or not; while the answers of rustc are written, one about a target not yet known may.)", "quantifier": "every configuration, state, build profile, outcome of the programs, and code of the caller (any tree of calls depending on the results seen, nested to any depth)", "why_tests_cant": "all programs that could run in the middle; a guard held for one statement too long shows only when the caller's code calls back", "anchors": ["src/easy.rs: Config::target, linker, runner, rustflags, rustdocflags, build_target_for_config, init_target_config, ref_cell_bree_map_is_empty", "src/resolve.rs: ResolveContext::eval_cfg, CfgMap::eval_cfg, rustc", "RefCell, OnceCell"]}
{"id": "C67", "title": "Changing a loaded configuration", "statement": "The tables and most fields of a resolved configuration can be assigned to between calls. Queries look only at build.rustc, build.rustc-wrapper, build.rustc-workspace-wrapper, build.target and the hidden flags of build (and each only at some of these): any sequence of assignments and calls in which no assignment changes what a later call looks at has the answers, the runs of programs and the remembered state of the calls alone. So assigning build.rustflags or build.rustdocflags has no effect on any query. What was answered about a target, the compiler, the host or a version stays, whatever is assigned (even build as a whole) or asked in between. Default targets are those assigned last; a compiler or wrapper assigned before the first question is used.", "quantifier": "every configuration, state, build profile, world, and sequence of calls and assignments of any values", "why_tests_cant": "all interleavings of assignments and queries; a cell filled too early or a field read live shows only for some orders", "anchors": ["src/easy.rs: Config, BuildConfig (public and private fields), init_target_config, build_target_for_config, build_target_for_cli", "src/resolve.rs: ResolveContext::rustc, rustc_for_version, host_triple, rustc_version, cargo_version, eval_cfg"]}
{"id": "C68", "title": "Values made in code are those read from files and variables", "statement": "A list or program made by a caller is the same value as one loaded from the like text. If the closest document that has an alias writes it as text s, the alias is StringList::from(s); if all documents that have it write arrays, it is StringList::from of all of them together, the closest last; CARGO_ALIAS_<name>=s gives StringList::from(s). The same for the flags of build with Flags::from_space_separated and Flags::from, and from_encoded for the CARGO_ENCODED_ variables. A browser in the documents is PathAndArgs::new of its first word, taken relative to the closest document that has the key, with args of the rest (closest first). The same holds for the runner of a target, unless CARGO_TARGET_<triple>_RUNNER is set, whose first word is then relative to the current directory; the flags in target.<triple> are those from the like text, to which for rustc only flags of cfg tables are added. Any calls of arg and args give the path and all arguments in the order of the calls, and these are the words of the Command and of what is written; every value can be made in this way. (One text is not the list of that text: it is split at spaces.)", "quantifier": "every file system, environment, options, directory, alias name, text, array and sequence of builder calls", "why_tests_cant": "all texts and arrays over any number of files; two implementations of splitting, one for code and one for files, could differ on rare texts", "anchors": ["src/easy.rs: Flags, StringList (From impls), PathAndArgs::new, arg, args, Command::from", "src/de.rs: StringList, Flags, PathAndArgs (Deserialize, from_string), split_space_separated, split_encoded", "src/env.rs: ApplyEnv for Config, BuildConfig"]}
{"id": "C69", "title": "The command line of examples/get.rs", "statement": "The words are read as options, --format toml|json and --merged yes|no, each at most once, in any order, and as one word (--format=json) or two. The program runs if and only if nothing else is left but perhaps --; it prints help or the version if -h, --help, -V or --version (also with more letters or a value attached) comes before anything is wrong; else the first word that is wrong decides which error is reported and with which text (missing value, refused value, value that is not text, unexpected option or argument), and no file is read. With accepted words it prints what was chosen: the merged configuration as lines or as json, or each file as lines; json without merging is an error. (An option given twice is an error even if equal; --help after a wrong word is not seen.)", "quantifier": "every list of words, including words that are not UTF-8, every file system and environment", "why_tests_cant": "unboundedly many command lines, and combinations of options, values and mistakes", "anchors": ["examples/get.rs: Args::parse, Format, Merged, try_main, main"]}
{"id": "C70", "title": "What one more file can change", "statement": "Let files farther away than all others be added (in a parent directory or CARGO_HOME), the rest being the same. Every value that was there stays. Every list keeps its words as the last ones, every runner and browser told by files keeps its program and its arguments as the first ones, every entry of a table stays. An env entry keeps its force if it was forced or a file told, and its value if a file told relative or no added file does. The linker of a target stays if a variable or the table of that target tells it. Conversely, of files closer than all others only keys they contain are changed, and a list of arrays keeps its words as the first ones. (Not so for env values whose relative is told only by the added file, linkers from cfg tables, the flags of build once the target has its own, and a browser from the variable BROWSER.)", "quantifier": "every file system, environment, options, directory, any number of files with any contents before and after, every key", "why_tests_cant": "all pairs of sets of files; an order of merging that is wrong for one key shows only when both sides have that key", "anchors": ["src/merge.rs", "src/de.rs: Merge impls, Config::_load_with_options", "src/easy.rs: from_unresolved, init_target_config", "src/walk.rs"]}
{"id": "C71", "title": "The path operations are those of std, byte by byte (Unix)", "statement": "The short forms of parent, ancestors, components, comparison, join, pop, file name, stem and extension, in terms of which all statements about paths are proved, compute the same as the byte-wise algorithms of std (the Components state machine run from the front and from the back, with its trimming) on every text. The walk over configuration files, the place of CARGO_HOME, the resolution of paths and programs, of env values, of target specifications and of rustc beside cargo therefore compute the same when run over the algorithms of std.", "quantifier": "every text as path, every file system, directory, CARGO_HOME, value and definition", "why_tests_cant": "all texts with any arrangement of separators and dots; two algorithms that differ on one odd spelling", "anchors": ["src/walk.rs: config_path, cargo_home_with_cwd, WalkInner", "src/value.rs: resolve_as_program_path, resolve_as_path, Definition::root, root_opt", "src/de.rs: EnvConfigValue::resolve", "src/resolve.rs: is_spec_path, resolve_spec_path, TargetTripleRef::new, rustc_path", "std::path"]}
{"id": "C72", "title": "Paths on Windows", "statement": "With the path algorithms of std for Windows: from a directory given by names on a drive, a share or a drive in the long form, one goes up one name at a time to the root, and the files reported are those in the .cargo of each, config before config.toml, then that of CARGO_HOME unless it is the .cargo of one of them in any spelling (drive letter in either case, separators of either kind, repeated or with dots). Going up ends for every text. Paths in such a file are relative to the directory holding its .cargo: a program without separators of either kind stays, one on a volume or relative to a drive stays, another relative one is put behind the directory (rewritten with backslashes in the long form), and one starting with a separator keeps only the volume. Likewise CARGO_HOME against the current directory, and target specifications. rustc is taken beside cargo with the suffix .exe if there. (Not so: names differing only in case, or the long form of the same directory, are taken as different; a file found directly in the root of a volume has no directory, and values in it that need one panic.)", "quantifier": "every text as path where said, every letter, server, share, list of names, file system, program text and definition", "why_tests_cant": "all spellings of Windows paths, which the tests run on Unix never see", "anchors": ["src/walk.rs: config_path, cargo_home_with_cwd, WalkInner", "src/value.rs: resolve_as_program_path, Definition::root", "src/resolve.rs: is_spec_path, resolve_spec_path, TargetTripleRef::new, rustc_path", "std::path, std::sys::path::windows"]}
{"id": "C73", "title": "The note of examples/get.rs is a shell script", "statement": "After its heading, the note on stderr is a script of assignments: a POSIX shell reads from it exactly the variables of the environment that begin with CARGO_ and are text, in order and with their values, whatever characters (quotes, spaces, dollar signs, line ends) the values have, provided that their names can be set in a shell. So two environments with the same note have the same such variables. A value is written as it is if and only if it is not empty and of letters, digits and -_=/,.+ only. If the program ends well, it has written this to stderr, or nothing for help and version. (A name that is not an identifier, like CARGO_ALIAS_my-alias, is written as it is and read as a command.)", "quantifier": "every environment, every value (any bytes), every command line and file system", "why_tests_cant": "all texts with any arrangement of quotes; an escape forgotten for one character shows only with that character", "anchors": ["examples/get.rs: try_main (note)", "shell_escape::unix::escape"]}
{"id": "C74", "title": "Configurations as JSON", "statement": "The JSON written for a configuration (by --format json, or for a resolved configuration by any caller using serde_json) is one line without control characters, is read by a JSON reader as exactly the tree that is written as TOML, with every setting at its place and no key twice in an object, and is UTF-8 if the texts are, as those of every loaded configuration are if the texts in the visited files are, and those of every resolved one, whatever the options, after any queries (names and values of variables and paths need not be). No text that is read as the same value (numbers without exponents) is shorter. Texts are equal only for equal trees, and reading the tree again gives the configuration but for where values are from and the form of flags. (Tokens are written in full.)", "quantifier": "every configuration (loaded or not where said), every text in it including quotes, backslashes and control characters, every number", "why_tests_cant": "unboundedly many trees and texts; a separator or an escape that is wrong for one nesting or byte", "anchors": ["examples/get.rs: print_config (json)", "src/de.rs: Serialize impls", "src/easy.rs: Serialize impls", "serde_json::to_string"]}
{"id": "C75", "title": "The generated code", "statement": "For every source, the generator writes exactly: Merge for the public structs with named fields (but the four excluded), SetPath for these, for public structs with one unnamed field and for public enums all of whose variants have fields, and is_none for the public structs with named fields (but the thirteen excluded); each a call for every field not marked serde(skip) (for the first two: nor holding the form of the text), in the order of declaration. It stops exactly if there is a public type it has no code for or an excluded type that does not exist. src/gen/de.rs and src/gen/is_none.rs are what it writes for the sources as they are. Run statement by statement on the configuration in place, the calls compile, every one of them being to a type with such a method, and merging, setting the path and testing for absence come to what they are modelled as. A merge that fails leaves the fields before the failing one merged and those after it as they were.", "quantifier": "every list of source files (nested modules, attributes, variants); every pair of configurations, force, path", "why_tests_cant": "all sources a maintainer may write; partial results of a failed merge", "anchors": ["tools/codegen/src/main.rs: gen_de, gen_is_none, serde_skip, ItemVisitor", "src/gen/de.rs", "src/gen/is_none.rs", "src/merge.rs", "src/value.rs: SetPath"]}
{"id": "C76", "title": "The text of Debug output", "statement": "In the text of Debug output each character of a string is written by a short name, as it is, or by its number, and each byte that is not part of a character by its value, so that the string and its end can be told whatever follows; everything else is laid out as documented for the builders of std::fmt. Two configurations have the same text if and only if they are the same up to the text of tokens; equal texts of flags or of programs mean equal flags or programs. The report of a failed merge can be read in one way only: it gives the key and both entries, even if the key contains quotes, backticks or the words of the report. The text is one line of UTF-8 without control characters, whatever bytes paths consist of; a report is so if and only if its key is.", "quantifier": "every configuration, every pair of entries and keys, every byte string, every set of printable characters", "why_tests_cant": "all texts with any arrangement of quotes and bytes; ambiguity is a property of pairs of texts", "anchors": ["src/merge.rs: Merge for BTreeMap (message)", "src/error.rs: Display", "src/de.rs: Debug impls", "src/value.rs: Debug impls", "src/easy.rs: Flags, PathAndArgs Debug", "std: fmt::builders, str::lossy, char::escape_debug_ext"]}
{"id": "C77", "title": "Threads and panics", "statement": "With the standard library's rules for Send, Sync, Unpin, UnwindSafe and RefUnwindSafe, every public type without parameters has all five, but that resolved configurations and the resolve context may not be shared (Sync, RefUnwindSafe) and errors are not unwind safe; Value<T> has what T has. The only reasons are the caches (OnceCell, RefCell) in the former and the I/O errors and arbitrary causes in the latter. For every source, the generator asserts exactly this of its public types, each of them, with type parameters probed by arguments having and lacking the trait, and gives up exactly on a public type with constant parameters or an exception for a type that is not there. src/gen/assert_impl.rs is what it writes for the sources as they are, and all of its assertions are true.", "quantifier": "every public type, type argument, trait and reason; every list of source files for the generator", "why_tests_cant": "absence of a reason over all the parts of all types; every type argument; all sources a maintainer may write", "anchors": ["tools/codegen/src/main.rs: gen_assert_impl, ItemVisitor", "src/gen/assert_impl.rs", "src/easy.rs: Config", "src/resolve.rs: ResolveContext", "src/error.rs: Error", "src/value.rs: Value"]}
{"id": "C78", "title": "Loading on Windows", "statement": "On Windows, the configuration files are those of the current directory and the directories above it and then that of CARGO_HOME, unless already read; CARGO_HOME is the option, or the variable of the process in whatever case it is written, or .cargo in the home directory. Every setting of the resolved configuration is the one that the files and the variables determine: scalars by precedence, lists joined, and paths on the drive or server and in the directory they are relative to (programs without a separator by name, paths with a volume as they are, paths from the root on the volume of the directory, others below it). Loading succeeds if tables and values have the same shapes everywhere, the variables can be read and every path is of such a form, and only if the first two hold.", "quantifier": "every file system, process environment, current directory and options; every setting", "why_tests_cant": "all directory trees, drives and servers; on the systems tests run on there are no drives", "anchors": ["src/easy.rs: Config::load_with_options, from_unresolved", "src/de.rs: Config::load_with_options", "src/walk.rs", "src/value.rs: Value::resolve_as_path, resolve_as_program_path", "src/resolve.rs: TargetTripleRef::new, ResolveContext::cargo_home"]}
{"id": "C79", "title": "Targets and the compiler on Windows", "statement": "On Windows, the linker, runner, rustflags and rustdocflags of a target are those that the tables of the files and the variables determine, however many calls were made before: the variable, the table of the triple, then the cfg(..) tables true of what the compiler printed, with programs on the drive and in the directory they are relative to. A query has an answer if the variables are readable, the cfg keys valid, the compiler answers, and the programs have a place. A target specification listed in build.target, given again by its resolved path, is the same target. The compiler is the one of the options or of build.rustc, or rustc.exe in the directory of cargo if it is there when asked, or else rustc by name, called by the wrappers in order.", "quantifier": "every file system, process environment, current directory, options, sequence of calls and target; every place of cargo", "why_tests_cant": "all sequences of calls with all outputs of programs; on the systems tests run on neither drives nor .exe exist", "anchors": ["src/easy.rs: Config::linker, runner, rustflags, rustdocflags, rustc", "src/de.rs: Config::resolve_target", "src/resolve.rs: rustc_path, ResolveContext::rustc, TargetTripleRef::new", "src/value.rs: resolve_as_program_path"]}
{"id": "C80", "title": "The text of generated files", "statement": "The generator's own formatting of macro calls ends and does not fail for every text of less than 2^31 bytes, and gives exactly: the text outside of macro calls as it is, and in each call, which ends at the parenthesis matching its first, `crate ::`, ` < ` and ` >` without their spaces, read from the left. Only spaces go; formatting twice is formatting once if no two spaces follow each other (and not otherwise). A file written has the header and the contents, no other file changes, and nothing is written if it is so already. The files read are those listed by git that exist, in order, for assertions without those of programs; the module of a file in the source directory itself is right unless its name ends in lib (and it is wrong for files in directories below).", "quantifier": "every text, every state of the disk, every list of files and root", "why_tests_cant": "all arrangements of parentheses and spaces; termination of nested loops whose text shrinks as they go", "anchors": ["tools/codegen/src/file.rs: header, format_macros, write_raw, git_ls_files", "tools/codegen/src/main.rs: gen_assert_impl (choice of files, modules)", "src/gen/assert_impl.rs, de.rs, is_none.rs (texts)"]}
{"id": "C81", "title": "Cargo, rustc and build targets on Windows", "statement": "On Windows, in any state that calls can reach, every program that was run is cargo (of the options, CARGO or by name) asked for its version, rustc (as configured, or rustc.exe beside cargo if it was there when looked for, or by name) behind its wrapper asked for its version, or the rustc of rustc() asked for the cfg of a target. The versions and the host are what such a program has printed; the host is the option, or what cargo says, or what rustc says where cargo does not. With tools that do not change and without debug assertions, a version or host is given if and only if it is printed so. What was answered once is answered again without running anything; failures about targets leave nothing behind. Versions and host panic only with debug assertions, when a version is known and the host is not, and not if the tools do not change and tell both. The targets to build for are the arguments, or those of build.target each as its text stands for, or the host. An error tells which of the tools failed or was unclear, and when it was run.", "quantifier": "every file system, environment, options, sequence of calls, world of programs changing over time, and place of cargo", "why_tests_cant": "all sequences of calls over all outputs of programs; on the systems tests run on there are neither drives nor .exe", "anchors": ["src/easy.rs: Config::build_target_for_config, build_target_for_cli, rustc_version, cargo_version, host_triple", "src/resolve.rs: ResolveContext::rustc, rustc_for_version, rustc_version, cargo_version, host_triple, rustc_path"]}
{"id": "C82", "title": "Why loading and queries fail on Windows", "statement": "On Windows, loading fails only for a file that cannot be read, parsed or merged, all those before it being fine, or, the files being fine, for a variable that cannot be read: one of an alias or a registry, or else the first in a fixed order. A query about a target fails only for one of four reasons, tried in this order: the text of the triple begins with cfg(; a variable of the target cannot be read (the first of linker, runner, rustflags, rustdocflags; nothing is run then); a cfg key of the tables is no valid expression, all those before it being valid; or the compiler, asked for the first cfg key, fails. Each is reported by the error for it; an unreadable variable, a name beginning with cfg( and a failing compiler always are, and so is the first key that is no valid expression (with CARGO_HOME below a root). Build targets fail only as the host does and only without arguments and configured targets; the compiler, cargo and the command line never fail.", "quantifier": "every file system, environment, options, state and target; every outcome of reading a file and of running a program", "why_tests_cant": "all combinations of several problems at once, of which one must be reported", "anchors": ["src/de.rs: Config::load_with_options, resolve_target", "src/easy.rs: Config::load_with_options, init_target_config, build_target_for_config", "src/resolve.rs: ResolveContext::eval_cfg, target_cfg", "src/env.rs: ApplyEnv for TargetConfig"]}
{"id": "C83", "title": "When the library panics on Windows", "statement": "On Windows, loading panics if and only if the files have the same shapes, the variables are readable, and some value has no meaning: a program with a separator, a path, a specification file or a relative variable that is set in a configuration file in the root of a volume (CARGO_HOME is that root) and is not absolute, or a target in build.target that is taken for a specification file but has no readable name. So with CARGO_HOME below a root loading succeeds for all programs and paths. A query about a target panics at once, with nothing run, for a text that is such a target, and every other text is a target; otherwise a query about a target panics only with overflow checks, for a cfg key nested too deep, or for a linker or a runner with a separator that is set in the root of a volume and is not absolute; so without overflow checks and with CARGO_HOME below a root never. The targets to build for panic only for such a text, or where the host is asked and panics or is such a text; the compiler, cargo and the targets for the command line never. In a build without checks, therefore, no query panics for proper targets.", "quantifier": "every file system, environment, options, state, query and world of programs, every text", "why_tests_cant": "absence of panics over all texts and sequences of calls; on the systems tests run on there are no drives", "anchors": ["src/value.rs: resolve_as_path, resolve_as_program_path, Definition::root, root_opt", "src/resolve.rs: TargetTripleRef::new, is_spec_path", "src/easy.rs: Config::load_with_options, from_unresolved, init_target_config, build_target_for_config", "src/de.rs: Config::resolve_target"]}
{"id": "C84", "title": "Debug output on several lines", "statement": "The text of {:#?}, as dbg! prints it, has each entry on lines of its own, four spaces deeper than what it is in and followed by a comma, whatever the depth and whatever bytes the values consist of, although the indentation is put in by adapters that know nothing of the depth. Two configurations have the same text exactly if they are the same up to the texts of their tokens, so that it shows no token and hides nothing else, and exactly if they have the same text on one line; so do flags and commands. The text is UTF-8 without control characters other than the ends of lines.", "quantifier": "every configuration, flags and command, every choice of printable characters", "why_tests_cant": "all texts in all places: a newline or bracket in a value must not be taken for one of the layout; that no token is shown", "anchors": ["src/de.rs: derive(Debug), impl Debug for RegistriesConfigValue, RegistryConfig", "src/easy.rs: derive(Debug) for Flags, PathAndArgs", "src/value.rs: derive(Debug)"]}
{"id": "C85", "title": "Comparing values, and showing where they come from", "statement": "Two definitions are equal exactly if they are of one kind (file, variable, command line). Two values are equal exactly if their contents are and they have no definition or definitions of one kind, whatever the files; a string never equals an array, and arrays are compared one by one. Resolved flags and lists are equal exactly if they are the same; commands if their programs are one path, component by component (on Unix and on Windows), and their arguments the same. All are equivalence relations. Equal values stand for one path and one program if they start from the same directory, so always if they do not stand in files; not so for two files, nor for an option and a file given as one, although the comparison is said to separate what is interpreted differently. The text shown for a definition is the path, the quoted name of the variable or a fixed text for the option, and tells them apart if files have absolute names that are text, but not otherwise.", "quantifier": "every value, definition, list and command", "why_tests_cant": "equivalence laws and the link from equality to meaning over all texts and all places", "anchors": ["src/value.rs: Value, PartialEq for Definition, Display for Definition", "src/de.rs: ConfigRelativePath, StringOrArray", "src/easy.rs: Flags, StringList, PathAndArgs"]}
{"id": "C86", "title": "Any text as a path on Windows", "statement": "Every text is read as a path in exactly one way: where it starts (a drive, a share, a device, or one of these in the long form, or nowhere), whether from a root, and the words that follow. Two paths are equal exactly if they are read alike. A path is absolute exactly if it starts somewhere and, at a drive, from its root; its parent is without the last word (to the letter: what is in front of all words if there is one, otherwise the shortest beginning with all words but the last), and those above it without one word more each; its file name is the last word, unless that is dots. Joined to a path, one that starts somewhere replaces it, one from a root keeps the start, any other adds its words, and in the long form dots are resolved; the very text of the result is determined by these: it stays as written but in the long form, where the words after the volume are written anew. The files searched are config and config.toml in .cargo of the current directory and those above, and then of CARGO_HOME unless that is read as one of these directories, wherever the current directory is.", "quantifier": "every text, as current directory, CARGO_HOME or path", "why_tests_cant": "all texts, of which a test has few: drives without a root, devices, the long form, mixed separators, dots; tests do not run on Windows", "anchors": ["src/walk.rs: Walk, WalkInner, config_path, cargo_home_with_cwd", "src/value.rs: resolve_as_path, resolve_as_program_path", "std: std::path, std::sys::path::windows"]}
{"id": "C87", "title": "Loading on Windows from any directory", "statement": "On Windows, with the current directory any path in a volume (drive with or without a root, share, device, long form), however written: the files read are those C86 names; if one cannot be read loading is an error; otherwise loading succeeds exactly if the files agree in form, the variables are readable, and no value lacks a meaning (a relative path in a file with fewer than two words, a target without a name), and panics exactly if only the last fails. When it succeeds every value is what the sources say, and every path leads from the directory above that of its file, or the current directory for a variable, to what is read as that place: kept if in a volume, from the root of the volume if it begins with a separator, otherwise below, with dots resolved in the long form. Where a text leads is determined up to equality of paths. On a file system that does not tell spellings of a path apart, the spelling of the current directory matters for nothing but the spelling of paths: the outcome is of the same kind and the values are alike.", "quantifier": "every file system, environment and options, every current directory in a volume, every spelling of it", "why_tests_cant": "all spellings and kinds of paths at once with all values; tests do not run on Windows", "anchors": ["src/easy.rs: Config::load_with_options, from_unresolved", "src/de.rs: Config::load_with_options", "src/walk.rs: Walk, config_path, cargo_home_with_cwd", "src/value.rs: resolve_as_path, resolve_as_program_path, Definition::root", "src/resolve.rs: TargetTripleRef::new"]}
{"id": "C88", "title": "Targets and the compiler on Windows from any directory", "statement": "On Windows, with the current directory any path in a volume, however written, and after any sequence of calls: the linker, the runner, rustflags and rustdocflags of a target are what the variables, the tables of the files and the cfg tables that the compiler's own answer makes true say, with programs placed as in C87. A query about a target panics only with overflow checks, for a cfg key nested too deep, or if the linker or runner so chosen is relative to a directory that is not there, and if the chosen one is such there is no answer; with valid cfg keys, readable variables and an answer of the compiler where it is needed nothing else can happen: an answer, or that panic. Without a configured compiler it is rustc.exe in the directory of cargo, whatever the text of cargo, if there, otherwise rustc by name; every program run is cargo, that compiler, or rustc as answered; versions and host are what those programs said.", "quantifier": "every file system, environment, options, world of programs, state and target; every current directory in a volume and every text of cargo", "why_tests_cant": "all spellings and kinds of paths at once with all tables, targets and calls; tests do not run on Windows", "anchors": ["src/de.rs: Config::resolve_target", "src/easy.rs: init_target_config, linker, runner, rustflags, rustdocflags", "src/resolve.rs: ResolveContext::rustc, rustc_path, eval_cfg, target_cfg, host_triple", "src/value.rs: resolve_as_program_path"]}
{"id": "C89", "title": "Cargo and rustc on Windows to the letter", "statement": "On Windows, from any directory and for any text of cargo (of the options, of CARGO or the name), at every moment there is exactly one compiler: the configured one, or the text that rustc.exe joined to the parent of cargo (to cargo itself if it has none) gives if that is there, or else rustc; and it is the place C88 names where joining does not change the start. rustc() answers with it behind the wrappers; every program run is cargo or that compiler asked for its version or rustc() asked for the cfg of a target; versions and host are what these printed. With tools that do not change and without debug assertions a version or host is given if and only if it is printed so, and the calls made before do not matter. Versions and host panic only with debug assertions, when a version is known and the host is not, and not if the tools do not change and tell both; their errors are of the program that was run last and say why it told nothing.", "quantifier": "every file system, environment, options, current directory, text of cargo, sequence of calls and world of programs changing over time", "why_tests_cant": "all texts of cargo over all sequences of calls and outputs of programs; tests do not run on Windows", "anchors": ["src/resolve.rs: rustc_path, ResolveContext::rustc, rustc_for_version, rustc_version, cargo_version, host_triple", "src/easy.rs: Config::rustc, rustc_version, cargo_version, host_triple", "std: std::path::PathBuf::pop, push"]}
{"id": "C90", "title": "Failures on Windows from any directory", "statement": "On Windows, with the current directory any path in a volume, however written: loading fails exactly as C82 says, with the first file that stops it, or the first variable that cannot be read; with CARGO_HOME below a root only a target without a name makes it panic. After it, a query about a target fails only for a name beginning with cfg(, for a variable that cannot be read, for the first invalid key, or for a failing compiler, and each of these is reported in that order. The targets to build for are those of the configuration, each where its text leads, without anything being run, the host if there are none; they fail if and only if the host does, and panic if and only if the host does or an argument, or the host, is a path without a name. With CARGO_HOME below a root, no checks and targets that are such, nothing panics.", "quantifier": "every file system, environment, options, world of programs, state and query; every current directory in a volume", "why_tests_cant": "all failures at once with all spellings and kinds of paths; tests do not run on Windows", "anchors": ["src/de.rs: Config::resolve_target", "src/easy.rs: load_with_options, init_target_config, build_target_for_config, build_target_for_cli", "src/env.rs", "src/resolve.rs: TargetTriple::new, spec_path, eval_cfg", "src/value.rs: Definition::root"]}
