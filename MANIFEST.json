{
 "claims": [
  {
   "property": "C01",
   "status": "proved",
   "theorems": [
    "C01_encode_ok_iff",
    "C01_encode_message",
    "C01_encode_never_panics",
    "C01_encode_is_join",
    "C01_encode_in_general",
    "C01_roundtrip_iff",
    "C01_roundtrip_refuted"
   ],
   "note": "The plain round trip is false; C01_roundtrip_iff gives the exact set of lists, C01_roundtrip_refuted the witness (leading empty flag)."
  },
  {
   "property": "C02",
   "status": "proved",
   "theorems": [
    "C02_from_encoded_unique",
    "C02_encode_from_encoded_iff"
   ],
   "note": ""
  },
  {
   "property": "C03",
   "status": "proved",
   "theorems": [
    "C03_words_are_clean",
    "C03_from_space_separated",
    "C03_encode_ok_iff",
    "C03_encode_message",
    "C03_encode_never_panics",
    "C03_encode_then_read",
    "C03_same_list_iff",
    "C03_rereading_is_idempotent",
    "C03_trimming_is_a_function"
   ],
   "note": ""
  },
  {
   "property": "C04",
   "status": "proved",
   "theorems": [
    "C04_discovery_order",
    "C04_search_order_exists",
    "C04_search_order_unique",
    "C04_files_unique",
    "C04_above_absolute",
    "C04_above_any"
   ],
   "note": ""
  },
  {
   "property": "C05",
   "status": "proved",
   "theorems": [
    "C05_home_seen",
    "C05_home_last",
    "C05_spellings"
   ],
   "note": ""
  },
  {
   "property": "C06",
   "status": "proved",
   "theorems": [
    "C06_fused",
    "C06_terminates",
    "C06_calls"
   ],
   "note": ""
  },
  {
   "property": "C07",
   "status": "proved",
   "theorems": [
    "C07_closest_file_wins",
    "C07_first_defined"
   ],
   "note": ""
  },
  {
   "property": "C08",
   "status": "proved",
   "theorems": [
    "C08_lists_joined"
   ],
   "note": ""
  },
  {
   "property": "C09",
   "status": "proved",
   "theorems": [
    "C09_programs_joined"
   ],
   "note": ""
  },
  {
   "property": "C10",
   "status": "proved",
   "theorems": [
    "C10_load_ok",
    "C10_merge_ok",
    "C10_merge_conflict"
   ],
   "note": ""
  },
  {
   "property": "C11",
   "status": "proved",
   "theorems": [
    "C11_entries_union",
    "C11_entry_local",
    "C11_tables_in_order",
    "C11_keys_determine",
    "C11_loaded_plain"
   ],
   "note": ""
  },
  {
   "property": "C12",
   "status": "proved",
   "theorems": [
    "C12_empty_right",
    "C12_empty_left",
    "C12_associative",
    "C12_scalars"
   ],
   "note": ""
  },
  {
   "property": "C13",
   "status": "proved",
   "theorems": [
    "C13_scalar_origin",
    "C13_list_origin",
    "C13_program_origin",
    "C13_set_path"
   ],
   "note": ""
  },
  {
   "property": "C14",
   "status": "proved",
   "theorems": [
    "C14_visited_unique",
    "C14_visited_exists",
    "C14_all_or_nothing",
    "C14_no_file",
    "C14_default_empty",
    "C14_unvisited_irrelevant",
    "C14_no_panic"
   ],
   "note": ""
  },
  {
   "property": "C15",
   "status": "proved",
   "theorems": [
    "C15_order_irrelevant"
   ],
   "note": "Same config or rejected either way; which of several bad variables is reported depends on the order (C15_error_depends_on_order)."
  },
  {
   "property": "C16",
   "status": "proved",
   "theorems": [
    "C16_scalars",
    "C16_lists",
    "C16_programs",
    "C16_entries",
    "C16_untouched",
    "C16_tables_in_order",
    "C16_accepted_iff",
    "C16_never_panics",
    "C16_signed",
    "C16_unsigned",
    "C16_words",
    "C16_vcs_refuted",
    "C16_registry_name_refuted"
   ],
   "note": "Full description of apply_env key by key. The property as worded is false for cargo-new.vcs (C16_vcs_refuted) and for registry names containing '-' (C16_registry_name_refuted)."
  },
  {
   "property": "C17",
   "status": "proved",
   "theorems": [
    "C17_two_variables",
    "C17_incremental"
   ],
   "note": ""
  },
  {
   "property": "C18",
   "status": "proved",
   "theorems": [
    "C18_rustflags_variables",
    "C18_rustdocflags_variables",
    "C18_variables_win",
    "C18_doc_variables_win",
    "C18_target_beats_build",
    "C18_build_last"
   ],
   "note": "Variables in Props/Env.v, answers to queries in Props/Target.v."
  },
  {
   "property": "C19",
   "status": "proved",
   "theorems": [
    "C19_configured_browser_stays",
    "C19_browser_fallback",
    "C19_browser_ignored"
   ],
   "note": ""
  },
  {
   "property": "C20",
   "status": "proved",
   "theorems": [
    "C20_filter_keeps",
    "C20_filter_unique",
    "C20_filter_transparent",
    "C20_load_transparent"
   ],
   "note": "apply_env in Props/Env.v; whole load and every sequence of queries in C20_load_transparent."
  },
  {
   "property": "C21",
   "status": "proved",
   "theorems": [
    "C21_linker",
    "C21_runner",
    "C21_truth_unique",
    "C21_success",
    "C21_failure"
   ],
   "note": "For every sequence of earlier queries and every behaviour of rustc; keys with 256 or more calls in one list are outside (C26)."
  },
  {
   "property": "C22",
   "status": "proved",
   "theorems": [
    "C22_rustflags",
    "C22_rustdocflags",
    "C22_target"
   ],
   "note": ""
  },
  {
   "property": "C23",
   "status": "proved",
   "theorems": [
    "C23_cfg_name",
    "C23_cfg_text",
    "C23_bad_key",
    "C23_any_text_refuted"
   ],
   "note": "The name is the triple; a text with a path separator may begin with cfg( and is accepted (C23_any_text_refuted)."
  },
  {
   "property": "C24",
   "status": "proved",
   "theorems": [
    "C24_accepts_release",
    "C24_sound",
    "C24_accepts",
    "C24_unambiguous",
    "C24_one_text",
    "C24_every_tree",
    "C24_single_root_refuted"
   ],
   "note": "Exact grammar, any profile below 256 calls per list, and with counting modulo 256 otherwise. The single-root claim is false (C24_single_root_refuted)."
  },
  {
   "property": "C25",
   "status": "proved",
   "theorems": [
    "C25_meaning",
    "C25_every_tree",
    "C25_unknown",
    "C25_unknown_unique"
   ],
   "note": "Boolean and three-valued evaluation. With several roots the last one is the result."
  },
  {
   "property": "C26",
   "status": "proved",
   "theorems": [
    "C26_no_limit_refuted",
    "C26_debug_refuted"
   ],
   "note": "The property is false; both refutations have a witness with 256 calls in one list."
  },
  {
   "property": "C27",
   "status": "proved",
   "theorems": [
    "C27_parse",
    "C27_release",
    "C27_eval"
   ],
   "note": ""
  },
  {
   "property": "C28",
   "status": "proved",
   "theorems": [
    "C28_errors",
    "C28_explained",
    "C28_told",
    "C28_told_release",
    "C28_first",
    "C28_either",
    "C28_boundary_refuted",
    "C28_stray_names_refuted",
    "C28_comma_names_refuted"
   ],
   "note": "C28_explained locates the first mistake; C28_told: conversely every mistake described is reported; C28_first: there is one such place; C28_either: a text is accepted or explained, never both. Refuted: the span respects character boundaries; terms named at a stray character can follow; all terms that can follow a comma are named."
  },
  {
   "property": "C29",
   "status": "proved",
   "theorems": [
    "C29_predicates",
    "C29_empty_never",
    "C29_empty_value_refuted"
   ],
   "note": "Exact for non-empty values; false for empty ones (C29_empty_value_refuted, C29_empty_never)."
  },
  {
   "property": "C30",
   "status": "proved",
   "theorems": [
    "C30_program",
    "C30_unique",
    "C30_build_programs",
    "C30_browser",
    "C30_target",
    "C30_root_of_project_file",
    "C30_root_of_any_file",
    "C30_root_of_home_file"
   ],
   "note": ""
  },
  {
   "property": "C31",
   "status": "proved",
   "theorems": [
    "C31_path",
    "C31_unique",
    "C31_build_paths",
    "C31_env_values",
    "C31_absolute",
    "C31_absolute_file"
   ],
   "note": ""
  },
  {
   "property": "C32",
   "status": "proved",
   "theorems": [
    "C32_panic_cause",
    "C32_unresolved_never",
    "C32_nameless_target",
    "C32_rootless_home",
    "C32_home_refuted",
    "C32_target_refuted"
   ],
   "note": "The two causes of a panic are characterised; the unrestricted claim is false (C32_home_refuted: cargo home at the filesystem root; C32_target_refuted: a target path without a file name)."
  },
  {
   "property": "C33",
   "status": "proved",
   "theorems": [
    "C33_shape",
    "C33_spec_like",
    "C33_stem",
    "C33_text_kept",
    "C33_configured_targets",
    "C33_equality",
    "C33_equal_targets",
    "C33_order_equality",
    "C33_order_antisymmetric",
    "C33_order_transitive",
    "C33_hash"
   ],
   "note": ""
  },
  {
   "property": "C34",
   "status": "proved",
   "theorems": [
    "C34_transparent",
    "C34_all_queries",
    "C34_failed_not_cached",
    "C34_repeat"
   ],
   "note": "Queries about a target in every reachable state, any unchanging world. Other queries: same answer or the assertion of C36. C34_repeat and C34_failed_not_cached hold in changing worlds, too."
  },
  {
   "property": "C35",
   "status": "proved",
   "theorems": [
    "C35_stable",
    "C35_no_process"
   ],
   "note": ""
  },
  {
   "property": "C36",
   "status": "proved",
   "theorems": [
    "C36_release",
    "C36_cause",
    "C36_first_call",
    "C36_complete_output",
    "C36_debug_refuted"
   ],
   "note": "Holds without debug assertions, on first calls, and with tools that tell host and version together; false otherwise in debug builds (C36_debug_refuted). C36_cause is the exact condition on the state."
  },
  {
   "property": "C37",
   "status": "proved",
   "theorems": [
    "C37_rustc_text",
    "C37_cargo_text",
    "C37_host_text",
    "C37_unique",
    "C37_rustc_answer",
    "C37_cargo_answer",
    "C37_host_answer",
    "C37_cargo_always",
    "C37_rustc_always",
    "C37_host_always"
   ],
   "note": "Text level: iff with an independent grammar. Answers in every reachable state come from what was printed; C37_cargo_always, C37_rustc_always and C37_host_always are the converses for unchanging tools."
  },
  {
   "property": "C38",
   "status": "proved",
   "theorems": [
    "C38_rustc",
    "C38_programs",
    "C38_explicit",
    "C38_explicit_version_refuted"
   ],
   "note": "The explicit option replaces rustc() but not the command for the version (C38_explicit_version_refuted)."
  },
  {
   "property": "C39",
   "status": "proved",
   "theorems": [
    "C39_arguments",
    "C39_configured",
    "C39_host",
    "C39_cli_arguments",
    "C39_text_kept"
   ],
   "note": ""
  },
  {
   "property": "C40",
   "status": "proved",
   "theorems": [
    "C40_debug",
    "C40_debug_registries",
    "C40_debug_registry",
    "C40_easy_debug_registries",
    "C40_easy_debug_registry",
    "C40_easy_debug",
    "C40_only_tokens",
    "C40_loading",
    "C40_environment",
    "C40_two_runs",
    "C40_queries",
    "C40_call_sequences",
    "C40_not_text",
    "C40_easy_debug_refuted"
   ],
   "note": "Non-interference: configurations, and whole runs (files, variables, options), that differ only in tokens give the same Debug output of every registry part and of the unresolved config, the same errors, the same answers, programs run and caches. Refuted for Debug of the resolved top-level config, which prints the captured variables. The text of TOML errors is not modelled."
  },
  {
   "property": "C41",
   "status": "proved",
   "theorems": [
    "C41_color",
    "C41_when",
    "C41_frequency",
    "C41_vcs",
    "C41_protocol",
    "C41_round_trip",
    "C41_file_forms"
   ],
   "note": "One table of texts per enumeration, used by FromStr, as_str, files and serialization. Files also accept a one-key table (C41_file_forms)."
  },
  {
   "property": "C42",
   "status": "proved",
   "theorems": [
    "C42_round_trip",
    "C42_loaded",
    "C42_empty",
    "C42_any_config_refuted"
   ],
   "note": "For every storable config; C42_loaded shows loaded and overridden configs are storable. C42_any_config_refuted: false for hand-built ones. On value trees: TOML text itself is not modelled."
  },
  {
   "property": "C43",
   "status": "proved",
   "theorems": [
    "C43_declared",
    "C43_documented",
    "C43_unknown_keys_ignored",
    "C43_adding_unknown_keys",
    "C43_scalars",
    "C43_lists",
    "C43_programs",
    "C43_entries",
    "C43_accepted_iff",
    "C43_mistyped",
    "C43_plain",
    "C43_only_documented_forms_refuted",
    "C43_other_forms",
    "C43_tables_unchanged",
    "C43_any_document",
    "C43_any_values"
   ],
   "note": "Every documented key described by place and acceptable values; C43_only_documented_forms_refuted: sections written as arrays (and dates) are accepted as well; C43_other_forms and C43_any_document/C43_any_values say exactly what those mean and when they are accepted. On value trees: TOML text itself is not modelled. C43_declared: the layout is that of the declarations in src/de.rs as transcribed by scripts (that the structs are renamed to kebab-case is read off their attributes by hand)."
  },
  {
   "property": "C44",
   "status": "proved",
   "theorems": [
    "C44_directly",
    "C44_loading",
    "C44_loading_with_options",
    "C44_queries",
    "C44_contents",
    "C44_any_error_refuted"
   ],
   "note": "Proved for every error with at most one layer of context and for every error that loading and the queries return; C44_any_error_refuted for deeper nesting."
  },
  {
   "property": "C45",
   "status": "proved",
   "theorems": [
    "C45_output",
    "C45_failure",
    "C45_total",
    "C45_names_command"
   ],
   "note": ""
  },
  {
   "property": "C46",
   "status": "proved",
   "theorems": [
    "C46_name",
    "C46_only_these",
    "C46_linker",
    "C46_shared"
   ],
   "note": ""
  },
  {
   "property": "C47",
   "status": "proved",
   "theorems": [
    "C47_cargo_home",
    "C47_cargo_home_absolute"
   ],
   "note": ""
  },
  {
   "property": "C48",
   "status": "proved",
   "theorems": [
    "C48_error_names_file"
   ],
   "note": ""
  },
  {
   "property": "C49",
   "status": "proved",
   "theorems": [
    "C49_utf8"
   ],
   "note": ""
  },
  {
   "property": "C50",
   "status": "proved",
   "theorems": [
    "C50_programs",
    "C50_once"
   ],
   "note": ""
  },
  {
   "property": "C51",
   "status": "proved",
   "theorems": [
    "C51_lossy",
    "C51_text",
    "C51_same",
    "C51_injective_refuted"
   ],
   "note": "Describes std's String::from_utf8_lossy as modelled in Str.v."
  },
  {
   "property": "C52",
   "status": "proved",
   "theorems": [
    "C52_message",
    "C52_reasons",
    "C52_columns_refuted",
    "C52_unmarked_refuted"
   ],
   "note": "Refuted: marks are below the characters meant when the text is not ASCII; something is always marked."
  },
  {
   "property": "C53",
   "status": "proved",
   "theorems": [
    "C53_sources_unique",
    "C53_accepted",
    "C53_values",
    "C53_lists",
    "C53_browser",
    "C53_env",
    "C53_entries",
    "C53_target",
    "C53_tables",
    "C53_tables_unique",
    "C53_only_sources",
    "C53_complete",
    "C53_well_formed"
   ],
   "note": "End to end: composes the search order, merging, environment and path resolution; all fields of the resolved configuration are covered (C53_complete)."
  },
  {
   "property": "C54",
   "status": "proved",
   "theorems": [
    "C54_written_iff",
    "C54_read_back",
    "C54_loaded",
    "C54_names",
    "C54_asked",
    "C54_not_asked",
    "C54_empty",
    "C54_only_settings",
    "C54_always_told_apart_refuted"
   ],
   "note": "What is written is read back with the reader of C43. Refuted: targets are always told apart by the written name (names that are not Unicode)."
  },
  {
   "property": "C55",
   "status": "proved",
   "theorems": [
    "C55_settled",
    "C55_target_settled",
    "C55_reload",
    "C55_rewritten",
    "C55_targets",
    "C55_other_targets",
    "C55_spec_targets_refuted",
    "C55_cfg_names_refuted",
    "C55_relative_home_refuted"
   ],
   "note": "Composes C53 and C54. Refuted: for targets with a specification file, for target paths beginning with cfg( and for a relative CARGO_HOME. TOML text itself is not modelled."
  },
  {
   "property": "C56",
   "status": "proved",
   "theorems": [
    "C56_variable",
    "C56_one_variable",
    "C56_one_complaint",
    "C56_load",
    "C56_load_in_turn",
    "C56_directory",
    "C56_no_directory",
    "C56_variable_named",
    "C56_file_named",
    "C56_always_named_refuted"
   ],
   "note": "Equivalence for the variables; composed with C48 for whole loads. Refuted: the variable is always named (protocol of crates.io, BROWSER). Texts of the operating system and of TOML errors are not modelled."
  },
  {
   "property": "C57",
   "status": "proved",
   "theorems": [
    "C57_key",
    "C57_target",
    "C57_variable",
    "C57_one_complaint",
    "C57_rustc",
    "C57_host",
    "C57_rustc_version",
    "C57_cargo_version",
    "C57_build_target",
    "C57_never",
    "C57_target_named",
    "C57_tool_named",
    "C57_always_named_refuted"
   ],
   "note": "All failures of queries about targets, with both converses (the one for rustc assumes that arithmetic overflow is not checked, as parsing the key may otherwise panic, see C27), and all failures of the other queries. Refuted: the subject is always named (blank RUNNER)."
  },
  {
   "property": "C58",
   "status": "proved",
   "theorems": [
    "C58_snapshot",
    "C58_answers_decide",
    "C58_once",
    "C58_only_config_files",
    "C58_few",
    "C58_read_after_check",
    "C58_settled",
    "C58_easy",
    "C58_one_moment_refuted",
    "C58_file_always_there_refuted"
   ],
   "note": "Loading over a time-indexed file system, one moment per system call. Refuted: the result is that of one moment (removal between check and read; renaming config.toml to config)."
  },
  {
   "property": "C59",
   "status": "proved",
   "theorems": [
    "C59_printed",
    "C59_listing_unique",
    "C59_only_settings",
    "C59_scalars_printed",
    "C59_lists_printed",
    "C59_programs_printed",
    "C59_lines_decide",
    "C59_each_file",
    "C59_merged",
    "C59_note",
    "C59_tells_apart_refuted",
    "C59_entries_printed_refuted",
    "C59_tokens_hidden_refuted"
   ],
   "note": "The toml format; how values are shown and variables are escaped is a parameter. Arguments and the JSON format are not modelled. Refuted: different configurations are printed differently, all entries are printed, tokens are hidden."
  },
  {
   "property": "C60",
   "status": "proved",
   "theorems": [
    "C60_builder",
    "C60_last_unique",
    "C60_same_start",
    "C60_isolated",
    "C60_env_isolates_refuted",
    "C60_default_env",
    "C60_default_home",
    "C60_default_cargo",
    "C60_relevant",
    "C60_cargo",
    "C60_host",
    "C60_rustc"
   ],
   "note": "Two runs compared for all later call sequences; which of several errors comes first may depend on the order of the environment (C15). Refuted: giving the variables isolates from the process (CARGO_HOME)."
  },
  {
   "property": "C61",
   "status": "proved",
   "theorems": [
    "C61_value",
    "C61_list",
    "C61_browser",
    "C61_env",
    "C61_query",
    "C61_queries",
    "C61_silent_file",
    "C61_silent_file_list",
    "C61_shadowed",
    "C61_variable_wins"
   ],
   "note": "Agreement is asked of the merged value of the key over all files and of its variables; both runs have the same current directory and both succeed."
  },
  {
   "property": "C62",
   "status": "proved",
   "theorems": [
    "C62_value",
    "C62_between",
    "C62_encoded",
    "C62_spaced",
    "C62_linker",
    "C62_runner",
    "C62_target",
    "C62_no_flags_refuted"
   ],
   "note": "About answers that are given; whether a query is answered is C21/C57. Refuted: handing on an empty list of flags by CARGO_ENCODED_RUSTFLAGS."
  },
  {
   "property": "C63",
   "status": "proved",
   "theorems": [
    "C63_merge",
    "C63_first_key",
    "C63_one_report",
    "C63_load",
    "C63_text",
    "C63_key_told_refuted"
   ],
   "note": "Debug output is kept as a tree, not as text. Refuted: that the report tells the clashing key."
  },
  {
   "property": "C64",
   "status": "proved",
   "theorems": [
    "C64_parse",
    "C64_load",
    "C64_argument",
    "C64_argument_fine",
    "C64_overflow",
    "C64_program",
    "C64_program_decides",
    "C64_host",
    "C64_rustc_version",
    "C64_cargo_version",
    "C64_build_target",
    "C64_never",
    "C64_safe",
    "C64_load_sources",
    "C64_safe_sources"
   ],
   "note": "For the linker and runner of a target the panic is tied to some decision of the cfg(..) keys that the printed texts justify. C64_load_sources and C64_safe_sources say the same of loading and queries from the files, variables and options alone. Windows is C83."
  },
  {
   "property": "C65",
   "status": "proved",
   "theorems": [
    "C65_scalar",
    "C65_list",
    "C65_program",
    "C65_env",
    "C65_complete",
    "C65_entry",
    "C65_table",
    "C65_easy_scalar",
    "C65_easy_lists",
    "C65_easy_complete"
   ],
   "note": "Debug output is kept as a tree of names, texts and numbers, not as text. The entries of target tables are covered by the comparison of views, not place by place, in the resolved configuration."
  },
  {
   "property": "C66",
   "status": "proved",
   "theorems": [
    "C66_query",
    "C66_released",
    "C66_in_turn",
    "C66_reached",
    "C66_answer",
    "C66_modest",
    "C66_written",
    "C66_known",
    "C66_writer_refuted"
   ],
   "note": "The code of the caller is a tree of calls branching on their results. Conversions by the library of names given as text come after those by the caller. Refuted: that writers and serializers may ask about targets."
  },
  {
   "property": "C67",
   "status": "proved",
   "theorems": [
    "C67_undisturbed",
    "C67_flags_no_effect",
    "C67_target_kept",
    "C67_tool_kept",
    "C67_default_target",
    "C67_compiler",
    "C67_assigned_flags_refuted",
    "C67_order_refuted",
    "C67_equal_build_refuted"
   ],
   "note": "Tables without private fields are assigned as a whole. Refuted: that flags assigned to build.rustflags reach targets, that answers do not depend on what was asked before an assignment, and that build tables equal in all public fields are interchangeable."
  },
  {
   "property": "C68",
   "status": "proved",
   "theorems": [
    "C68_alias",
    "C68_flags",
    "C68_alias_variable",
    "C68_flags_variable",
    "C68_browser",
    "C68_builder",
    "C68_all",
    "C68_text_as_array_refuted",
    "C68_runner",
    "C68_runner_variable",
    "C68_target_rustdocflags",
    "C68_target_rustflags"
   ],
   "note": "Owned and borrowed texts, vectors, slices and arrays are one list. Refuted: that one text is the list of that text."
  },
  {
   "property": "C69",
   "status": "proved",
   "theorems": [
    "C69_parse",
    "C69_accepted",
    "C69_help",
    "C69_version",
    "C69_no_unexpected_value",
    "C69_order",
    "C69_run",
    "C69_not_run",
    "C69_no_words",
    "C69_repeated_refuted",
    "C69_help_always_refuted"
   ],
   "note": "lexopt 0.3 is modelled by hand, as its code is not in the repository; the texts of its messages are not modelled, and the json text is a parameter. Refuted: that an option may be repeated, and that --help always prints help."
  },
  {
   "property": "C70",
   "status": "proved",
   "theorems": [
    "C70_value",
    "C70_list",
    "C70_browser",
    "C70_entry",
    "C70_env",
    "C70_linker",
    "C70_runner",
    "C70_closer_value",
    "C70_closer_list",
    "C70_env_refuted",
    "C70_cfg_linker_refuted",
    "C70_build_flags_refuted",
    "C70_browser_refuted"
   ],
   "note": "Refuted: the four cases in parentheses."
  },
  {
   "property": "C71",
   "status": "proved",
   "theorems": [
    "C71_parent",
    "C71_ancestors",
    "C71_components",
    "C71_components_back",
    "C71_equal",
    "C71_absolute",
    "C71_join",
    "C71_pop",
    "C71_file_name",
    "C71_walk",
    "C71_cargo_home",
    "C71_values",
    "C71_env",
    "C71_triple",
    "C71_rustc",
    "C71_load",
    "C71_query"
   ],
   "note": "Model/StdPath.v is a hand translation of the Components machine of std (not part of the repository), generic in the system; the unix instance equals Model/Path.v on every text, and Model/OsPaths.v (the library over the machine) equals the rest of the model. C71_load and C71_query lift this to loading and to every query (Model/OsLoad.v)."
  },
  {
   "property": "C72",
   "status": "proved",
   "theorems": [
    "C72_above",
    "C72_parent",
    "C72_ends",
    "C72_walk",
    "C72_home_seen",
    "C72_home_last",
    "C72_spellings",
    "C72_cargo_home",
    "C72_cargo_home_default",
    "C72_root",
    "C72_program_name",
    "C72_program_volume",
    "C72_program_drive",
    "C72_program_relative",
    "C72_program_long",
    "C72_program_rooted",
    "C72_spec",
    "C72_rustc",
    "C72_case_refuted",
    "C72_long_refuted",
    "C72_root_refuted",
    "C72_server_refuted",
    "C72_spec_refuted"
   ],
   "note": "Windows paths are bytes (WTF-8); parse_prefix and the Components machine are hand translations of std. Names are without colons. Refuted: that spellings in another case or in the long form are recognised as CARGO_HOME, that every found file has a root, that every specification path can be used."
  },
  {
   "property": "C73",
   "status": "proved",
   "theorems": [
    "C73_value",
    "C73_value_unique",
    "C73_readings_agree",
    "C73_unchanged",
    "C73_script",
    "C73_decides",
    "C73_main",
    "C73_names_refuted"
   ],
   "note": "shell_escape 0.1 (Unix) is modelled by hand, as its code is not in the repository. The shell is specified as far as assignments with plain, escaped and single-quoted characters go. Refuted: that every listed variable can be set by its line."
  },
  {
   "property": "C74",
   "status": "proved",
   "theorems": [
    "C74_reads",
    "C74_resolved",
    "C74_alike",
    "C74_decides",
    "C74_round_trip",
    "C74_places",
    "C74_scalars",
    "C74_lists",
    "C74_keys",
    "C74_one_line",
    "C74_utf8",
    "C74_shortest",
    "C74_resolved_shortest",
    "C74_main",
    "C74_tokens_hidden_refuted",
    "C74_loaded_utf8",
    "C74_main_utf8",
    "C74_resolved_utf8",
    "C74_asked_utf8",
    "C74_built_utf8"
   ],
   "note": "serde_json's compact writer is modelled by hand, as its code is not in the repository. The reader of the specification refuses fractions, exponents and escapes beyond ASCII, which are not written. Refuted: that tokens are hidden."
  },
  {
   "property": "C75",
   "status": "proved",
   "theorems": [
    "C75_de",
    "C75_is_none",
    "C75_de_fails",
    "C75_is_none_fails",
    "C75_current",
    "C75_fields",
    "C75_merge",
    "C75_left",
    "C75_members",
    "C75_set_path",
    "C75_tests"
   ],
   "note": "The generator is modelled on parsed items (what it looks at of them) and on the calls written, not on tokens; macro items are left out. The declarations and the generated files were transcribed by a script. C75_members: the fields over which the statements run are those of the structs: assigning to one gives it the value and touches no other."
  },
  {
   "property": "C76",
   "status": "proved",
   "theorems": [
    "C76_string",
    "C76_string_read",
    "C76_tree",
    "C76_config",
    "C76_flags",
    "C76_command",
    "C76_report",
    "C76_config_line",
    "C76_report_line"
   ],
   "note": "std's Debug rendering ({:?}) is modelled by hand, since it is not part of the repository; which characters beyond ASCII are printable and whether a single quote in a path is escaped (it depends on the version of std) are left open and quantified over. {:#?} and the text of the resolved configuration as a whole (cells, non-exhaustive structs) are not covered."
  },
  {
   "property": "C77",
   "status": "proved",
   "theorems": [
    "C77_types",
    "C77_value",
    "C77_shared",
    "C77_error",
    "C77_assertions",
    "C77_fails",
    "C77_current",
    "C77_accepted"
   ],
   "note": "Which auto traits the types of the standard library have is taken from its documentation (Spec/AutoSpec.v); a type not listed there counts as lacking all of them. The parts of the crate's types were transcribed by a script. The generator is modelled on parsed items, as in C75."
  },
  {
   "property": "C78",
   "status": "proved",
   "theorems": [
    "C78_sources_unique",
    "C78_files",
    "C78_accepted",
    "C78_required",
    "C78_values",
    "C78_lists",
    "C78_browser",
    "C78_env",
    "C78_entries",
    "C78_case_refuted",
    "C78_root_refuted"
   ],
   "note": "Model/OsLoad.v is the loading code over Model/OsPaths.v; its unix instance equals the rest of the model (C71_load). Directories are a volume (drive, share, long drive) and names, CARGO_HOME is spelled out in full (other spellings: C72). Names of variables are compared in ASCII only. Refuted: that other variables than CARGO_HOME are found in whatever case they are written, and that files in the root of a drive can have relative paths (panic)."
  },
  {
   "property": "C79",
   "status": "proved",
   "theorems": [
    "C79_tables",
    "C79_target",
    "C79_success",
    "C79_own_target",
    "C79_rustc"
   ],
   "note": "Places are given by a volume (drive, server share, verbatim or not) and names; for relative paths with `.` or `..` in them the text is proved, its meaning on disk is not modelled. cfg_available is in terms of the answer to rustc(), as in C21."
  },
  {
   "property": "C80",
   "status": "proved",
   "theorems": [
    "C80_total",
    "C80_format",
    "C80_spaces",
    "C80_again",
    "C80_again_refuted",
    "C80_literal_refuted",
    "C80_header",
    "C80_write",
    "C80_write_ok",
    "C80_listed",
    "C80_programs",
    "C80_module",
    "C80_module_lib",
    "C80_module_refuted"
   ],
   "note": "The layout by prettyplease is not modelled; Check/GeneratedText.v compares the texts of src/gen with what the modelled generator writes up to blanks. Claims that do not hold (idempotence with two spaces, literals in macro calls left alone, modules of files in directories) are refuted by witnesses."
  },
  {
   "property": "C81",
   "status": "proved",
   "theorems": [
    "C81_programs",
    "C81_cargo",
    "C81_rustc_version",
    "C81_cargo_version",
    "C81_host",
    "C81_rustc_always",
    "C81_cargo_always",
    "C81_host_always",
    "C81_stable",
    "C81_target_stable",
    "C81_target_failed",
    "C81_as_new",
    "C81_target_as_new",
    "C81_panic",
    "C81_no_panic",
    "C81_host_error",
    "C81_rustc_version_error",
    "C81_cargo_version_error",
    "C81_arguments",
    "C81_configured",
    "C81_unconfigured",
    "C81_host_triple",
    "C81_cli_arguments"
   ],
   "note": "Proved for any system and then for Windows; the lemmas are those of C34-C39 and C57 with the way the compiler is found as a parameter. Where no compiler is configured, cargo must be a name or a name in a directory. The statements about calls made twice need no hypotheses about loading."
  },
  {
   "property": "C82",
   "status": "proved",
   "theorems": [
    "C82_load",
    "C82_load_in_turn",
    "C82_target",
    "C82_variable",
    "C82_rustc",
    "C82_build_target",
    "C82_never",
    "C82_cfg_name",
    "C82_key"
   ],
   "note": "The kinds of problems are those of C57; keys of tables in the files must be UTF-8, as TOML ensures."
  },
  {
   "property": "C83",
   "status": "proved",
   "theorems": [
    "C83_load",
    "C83_load_fine",
    "C83_argument",
    "C83_argument_fine",
    "C83_target_panic",
    "C83_target",
    "C83_build_target",
    "C83_never",
    "C83_safe"
   ],
   "note": "Panics of the versions and the host are in C81; with overflow checks those of cfg keys are in C64. The current directory and CARGO_HOME are as in C78."
  },
  {
   "property": "C84",
   "status": "proved",
   "theorems": [
    "C84_layout",
    "C84_config_layout",
    "C84_config",
    "C84_same",
    "C84_flags",
    "C84_command",
    "C84_lines"
   ],
   "note": "For the configuration as read (de) and for flags and commands; the cells of the resolved configuration are not covered. The code that lays out is that of std, written by hand."
  },
  {
   "property": "C85",
   "status": "proved",
   "theorems": [
    "C85_definition",
    "C85_value",
    "C85_relative_path",
    "C85_string_or_array",
    "C85_flags",
    "C85_list",
    "C85_command",
    "C85_equivalences",
    "C85_same_start",
    "C85_same_path",
    "C85_same_path_refuted",
    "C85_options_refuted",
    "C85_display",
    "C85_display_tells",
    "C85_display_refuted",
    "C85_unix_command",
    "C85_windows_command",
    "C85_windows_equivalence"
   ],
   "note": "The comparisons are those derived by the compiler, written by hand; paths as on Unix, commands also as on Windows (C85_windows_command). That equal values mean the same path is refuted for values in files (C85_same_path_refuted, C85_options_refuted)."
  },
  {
   "property": "C86",
   "status": "proved",
   "theorems": [
    "C86_read",
    "C86_equal",
    "C86_absolute",
    "C86_parent",
    "C86_above",
    "C86_file_name",
    "C86_join_volume",
    "C86_join_root",
    "C86_join",
    "C86_join_empty",
    "C86_join_long",
    "C86_config_path",
    "C86_walk",
    "C86_cargo_home",
    "C86_join_refuted",
    "C86_join_text",
    "C86_parent_text"
   ],
   "note": "Joining is for bases whose start is complete: to a device without a name, a long share without one, \\\\?\\UNC or two separators what is added can become part of the start (C86_join_refuted). parse_prefix and the Components machine are hand translations of std."
  },
  {
   "property": "C87",
   "status": "proved",
   "theorems": [
    "C87_load",
    "C87_located",
    "C87_spelling"
   ],
   "note": "The volume of the current directory must have a name (Spec sturdy: not \\\\.\\ , \\\\?\\UNC or a long share without one, where C86_join_refuted applies); values are placed if CARGO_HOME, where given, is in such a volume. Names of variables are compared in ASCII only. Which error is reported is C82."
  },
  {
   "property": "C88",
   "status": "proved",
   "theorems": [
    "C88_target",
    "C88_rustc",
    "C88_programs",
    "C88_rustc_version",
    "C88_host",
    "C88_cargo_version"
   ],
   "note": "The volume of the current directory must have a name, as in C87, and so must that of CARGO_HOME for the settings. Keys of tables are UTF-8 text, as TOML has it. For the compiler the text of cargo must not be one to which joining adds to the start (Spec WinAnySpec.solid)."
  },
  {
   "property": "C89",
   "status": "proved",
   "theorems": [
    "C89_compiler",
    "C89_beside",
    "C89_rustc",
    "C89_programs",
    "C89_rustc_version",
    "C89_cargo_version",
    "C89_host",
    "C89_rustc_always",
    "C89_cargo_always",
    "C89_host_always",
    "C89_as_new",
    "C89_target_as_new",
    "C89_panic",
    "C89_no_panic",
    "C89_host_error",
    "C89_rustc_version_error",
    "C89_cargo_version_error"
   ],
   "note": "The file system the compiler is looked for in may change between calls and is part of the world of programs. PathBuf::pop and push are hand translations of std; their texts are specified in Spec/WinParentSpec.v and Spec/WinJoinSpec.v."
  },
  {
   "property": "C90",
   "status": "proved",
   "theorems": [
    "C90_load",
    "C90_target",
    "C90_build_target",
    "C90_load_fine",
    "C90_safe",
    "C90_key"
   ],
   "note": "The volume of the current directory must have a name, as in C87. Keys of tables are UTF-8 text, as TOML has it. The positive results about keys and panics ask for CARGO_HOME to be below a root (Spec WinAnyBlameSpec.roomy); with others C87 and C88 say what happens."
  }
 ]
}