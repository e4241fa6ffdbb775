{
 "claims": [
  {
   "property": "C01",
   "status": "proved",
   "theorems": [
    "C01_classification",
    "C01_any_text",
    "C01_order_irrelevant",
    "C01_never_panics"
   ],
   "note": "Exact classification, order independence and absence of panics, for every table and name. Exclusion wins over every inclusion of the same API, also over a longer one. C01_any_text says it for the text of a name."
  },
  {
   "property": "C02",
   "status": "proved",
   "theorems": [
    "C02_inheritance",
    "C02_entries",
    "C02_isolation"
   ],
   "note": "For packages of the crate index. Packages outside the index are covered by the isolation theorem only."
  },
  {
   "property": "C03",
   "status": "proved",
   "theorems": [
    "C03_sandbox"
   ],
   "note": "Kind, network and the directory lists."
  },
  {
   "property": "C04",
   "status": "proved",
   "theorems": [
    "C04_validation",
    "C04_loaded"
   ],
   "note": ""
  },
  {
   "property": "C05",
   "status": "partial",
   "theorems": [
    "C05_own_sections",
    "C05_from_sections_refuted",
    "C05_global_sandbox_refuted"
   ],
   "note": "Proved for the sections pkg.X, pkg.X.build and pkg.X.test. Refuted for pkg.X.from.build / from.test and for the global [sandbox] and [rustc.sandbox] sections, whose relative directories stay relative."
  },
  {
   "property": "C06",
   "status": "partial",
   "theorems": [
    "C06_upgrade_1_to_2",
    "C06_upgrade_2_to_3_partial",
    "C06_upgrade_2_to_3_refuted",
    "C06_upgrades_reach_newest",
    "C06_document"
   ],
   "note": "Version 1 to 2 preserves everything. Version 2 to 3 preserves everything except the permission to use extern, which the edit revokes: refuted with a witness, and the exact condition is given by the partial theorem."
  },
  {
   "property": "C07",
   "status": "proved",
   "theorems": [
    "C07_import_std",
    "C07_import_std_errors",
    "C07_crate_imports",
    "C07_crate_import_errors"
   ],
   "note": "The list of built-in definitions and the exported definitions are arbitrary tables."
  },
  {
   "property": "C08",
   "status": "proved",
   "theorems": [
    "C08_never_dropped"
   ],
   "note": "For every state reachable by loads, usages and recorded source paths."
  },
  {
   "property": "C09",
   "status": "proved",
   "theorems": [
    "C09_unused_exact",
    "C09_reported"
   ],
   "note": "One configuration file, loaded any number of times. Also exact for unused sections and unused sandbox settings."
  },
  {
   "property": "C10",
   "status": "proved",
   "theorems": [
    "C10_grants_in_force",
    "C10_new_grants_take_effect"
   ],
   "note": ""
  },
  {
   "property": "C11",
   "status": "partial",
   "theorems": [
    "C11_never_reported",
    "C11_explicit_build_scripts_refuted"
   ],
   "note": "Refuted, and indeed never true: once any configuration is loaded no indexed package with a build script is reported, since loading adds an entry for its build selector."
  },
  {
   "property": "C12",
   "status": "proved",
   "theorems": [
    "C12_conservation",
    "C12_completion",
    "C12_clean_means_checked",
    "C12_unused_refuses"
   ],
   "note": "Scanning object files is an arbitrary function. The case of a crate that links more than once is C49."
  },
  {
   "property": "C13",
   "status": "proved",
   "theorems": [
    "C13_outcomes"
   ],
   "note": "Clients that submit once each, which is how fix_problems uses its channel."
  },
  {
   "property": "C14",
   "status": "proved",
   "theorems": [
    "C14_dedup",
    "C14_step",
    "C14_iteration"
   ],
   "note": ""
  },
  {
   "property": "C15",
   "status": "proved",
   "theorems": [
    "C15_crashes",
    "C15_usages"
   ],
   "note": ""
  },
  {
   "property": "C16",
   "status": "proved",
   "theorems": [
    "C16_terminates",
    "C16_legacy",
    "C16_parts_unique"
   ],
   "note": "The exact condition for legacy symbols; that it is not always met is C54."
  },
  {
   "property": "C17",
   "status": "proved",
   "theorems": [
    "C17_ascii_no_panic",
    "C17_debug_no_panic"
   ],
   "note": "Symbols outside ASCII are C55."
  },
  {
   "property": "C18",
   "status": "proved",
   "theorems": [
    "C18_legacy",
    "C18_v0",
    "C18_debug",
    "C18_unique"
   ],
   "note": "Legacy paths with escapes, v0 paths of crates, types, values and macros, and debug names. Other v0 productions (generics, impls, back references) are modelled but not specified here. C56, C57 and C58 give the exceptions."
  },
  {
   "property": "C19",
   "status": "proved",
   "theorems": [
    "C19_terminates",
    "C19_parts",
    "C19_names",
    "C19_total",
    "C19_runs",
    "C19_nothing_lost",
    "C19_crate_and_module",
    "C19_not_text"
   ],
   "note": "Exact for every token stream described by names_in, which covers all streams without qualified paths and qualified paths whose arguments contain no further ones. The exceptions are C59 and C60. Qualified paths that are never closed are not covered."
  },
  {
   "property": "C20",
   "status": "proved",
   "theorems": [
    "C20_unsafe",
    "C20_extern",
    "C20_all_but_the_end",
    "C20_not_text"
   ],
   "note": "For every lexer that cuts the text into non-empty pieces. The lexer itself is an external crate and not modelled. A final token is C62."
  },
  {
   "property": "C21",
   "status": "proved",
   "theorems": [
    "C21_positions"
   ],
   "note": "Columns are counted in bytes."
  },
  {
   "property": "C22",
   "status": "proved",
   "theorems": [
    "C22_exact",
    "C22_lines_unique",
    "C22_other_outcomes"
   ],
   "note": "Lines as the standard library splits them. Output that is not valid UTF-8 is a single error."
  },
  {
   "property": "C23",
   "status": "proved",
   "theorems": [
    "C23_suggestions",
    "C23_fix_works"
   ],
   "note": "For every instruction that can be reported. The exact set of suggestions is given."
  },
  {
   "property": "C24",
   "status": "proved",
   "theorems": [
    "C24_recorded_variables"
   ],
   "note": "Package names contain no \"[\" (cargo forbids it). Versions without pre-release parts. No I/O errors."
  },
  {
   "property": "C25",
   "status": "proved",
   "theorems": [
    "C25_round_trip",
    "C25_round_trip_escaped",
    "C25_deps_file",
    "C25_no_deps_file",
    "C25_missing_value",
    "C25_every_call",
    "C25_sources"
   ],
   "note": "That rustc escapes spaces and nothing else is taken from its source and trusted. Names with a backslash are C63, repeated --emit options C64."
  },
  {
   "property": "C26",
   "status": "proved",
   "theorems": [
    "C26_atomic",
    "C26_finished",
    "C26_readers",
    "C26_again",
    "C26_others"
   ],
   "note": "System calls are atomic steps on names and files; symbolic links, hard links to the temporary file and loss of buffered data at a power failure are not modelled."
  },
  {
   "property": "C27",
   "status": "proved",
   "theorems": [
    "C27_round_trip",
    "C27_cut",
    "C27_one_reading"
   ],
   "note": "The JSON encoder and decoder are any pair that round-trips."
  },
  {
   "property": "C28",
   "status": "proved",
   "theorems": [
    "C28_package_id",
    "C28_tokens",
    "C28_rustc_kind",
    "C28_linker_kind"
   ],
   "note": "Package names without commas. For crates called build_script_* that are compiled as tests, see C68."
  },
  {
   "property": "C29",
   "status": "proved",
   "theorems": [
    "C29_package_for_path",
    "C29_none"
   ],
   "note": "Directories are lists of components."
  },
  {
   "property": "C30",
   "status": "proved",
   "theorems": [
    "C30_transitive",
    "C30_lib_names"
   ],
   "note": "The format of the output of cargo tree is an assumption (IndexSpec.listing)."
  },
  {
   "property": "C31",
   "status": "proved",
   "theorems": [
    "C31_binary",
    "C31_rustc"
   ],
   "note": "The model runs bwrap on the computed arguments; environment of the result is characterised exactly, for build scripts, tests and rustc."
  },
  {
   "property": "C32",
   "status": "proved",
   "theorems": [
    "C32_binary_reads",
    "C32_binary_writes",
    "C32_binary_granted",
    "C32_rustc_reads",
    "C32_rustc_granted",
    "C32_network",
    "C32_off"
   ],
   "note": "Reads, writes, grants, network and the absence of a sandbox, for build scripts, tests and rustc, in a model of what bwrap does with its arguments (no symbolic links; absolute paths)."
  },
  {
   "property": "C33",
   "status": "proved",
   "theorems": [
    "C33_arguments",
    "C33_linker"
   ],
   "note": "The split of the command line into options is a specification of its own; the two other ways to write options are C76 and C77."
  },
  {
   "property": "C34",
   "status": "proved",
   "theorems": [
    "C34_success",
    "C34_failure",
    "C34_retry",
    "C34_reports"
   ],
   "note": "For every sequence of configurations, results of rustc, file systems and answers. Assumes that the lexer divides every text into pieces."
  },
  {
   "property": "C35",
   "status": "proved",
   "theorems": [
    "C35_sandboxed",
    "C35_instructions"
   ],
   "note": "For every sequence of configurations, results and answers; C35_instructions combines it with the check of build scripts and the main loop."
  },
  {
   "property": "C36",
   "status": "proved",
   "theorems": [
    "C36_exact",
    "C36_fixes"
   ],
   "note": "At the level of documents, see DESIGN.md for the round trip through the text of the file."
  },
  {
   "property": "C37",
   "status": "proved",
   "theorems": [
    "C37_add_to_array"
   ],
   "note": ""
  },
  {
   "property": "C38",
   "status": "proved",
   "theorems": [
    "C38_build_script"
   ],
   "note": "For build scripts; for tests see C79."
  },
  {
   "property": "C39",
   "status": "proved",
   "theorems": [
    "C39_answers",
    "C39_printed",
    "C39_no_panic"
   ],
   "note": "The interface and the store are one transition system (submissions and turns in any order). The exit code is C94, automatic fixes are C93."
  },
  {
   "property": "C40",
   "status": "proved",
   "theorems": [
    "C40_shortened",
    "C40_changes"
   ],
   "note": ""
  },
  {
   "property": "C41",
   "status": "proved",
   "theorems": [
    "C41_packages",
    "C41_by_permission",
    "C41_counts"
   ],
   "note": "Which permissions are effective is C02. Procedural macros with confusing API names are C108, JSON is C104, C105 and C107."
  },
  {
   "property": "C42",
   "status": "proved",
   "theorems": [
    "C42_followed",
    "C42_binary"
   ],
   "note": "The reader of object files is not modelled; an object file is its symbol table and its sections."
  },
  {
   "property": "C43",
   "status": "proved",
   "theorems": [
    "C43_exports"
   ],
   "note": "Dependence on the order of symbols is C119."
  },
  {
   "property": "C44",
   "status": "proved",
   "theorems": [
    "C44_genuine",
    "C44_found",
    "C44_shown",
    "C44_recorded"
   ],
   "note": "Recursion without callers is C120, longest chains are C121. The debug information is an input."
  },
  {
   "property": "C45",
   "status": "proved",
   "theorems": [
    "C45_symbols",
    "C45_agreed"
   ],
   "note": "Entries have at most one attribute of a kind and distinct offsets. Enumerations and unions are C126, local variables C128, skipped units C130. The decoding of DWARF is not modelled."
  },
  {
   "property": "C46",
   "status": "partial",
   "theorems": [
    "C46_pass_env_refuted",
    "C46_extra_args_refuted"
   ],
   "note": "Refuted on both counts: pass_env is never inherited, and extra_args are sorted and deduplicated even when only one section has any."
  },
  {
   "property": "C47",
   "status": "partial",
   "theorems": [
    "C47_misspelt_import_refuted"
   ],
   "note": "Refuted: the misspelt import is silently ignored."
  },
  {
   "property": "C48",
   "status": "partial",
   "theorems": [
    "C48_deleted_entry_refuted"
   ],
   "note": "Refuted: entries removed from the file stay in the unused set."
  },
  {
   "property": "C49",
   "status": "partial",
   "theorems": [
    "C49_every_invocation_scanned_refuted"
   ],
   "note": "Refuted: with two linker invocations of one crate the second can be judged from the cached scan of the first."
  },
  {
   "property": "C50",
   "status": "partial",
   "theorems": [
    "C50_revocation_refuted"
   ],
   "note": "Refuted: grants only accumulate during a run."
  },
  {
   "property": "C51",
   "status": "partial",
   "theorems": [
    "C51_replace_never_crashes_refuted"
   ],
   "note": "Refuted: a follow-up that is the same problem as the replaced one panics. No edit currently offered produces one."
  },
  {
   "property": "C52",
   "status": "partial",
   "theorems": [
    "C52_all_directives_checked_refuted"
   ],
   "note": "Refuted: a line with leading white space is an instruction to cargo but is not checked. How cargo reads lines is taken from its documentation and source, which are not in the repository."
  },
  {
   "property": "C53",
   "status": "partial",
   "theorems": [
    "C53_both_spellings_recorded_refuted"
   ],
   "note": "Refuted: the cargo::rustc-env= form is not recorded."
  },
  {
   "property": "C54",
   "status": "partial",
   "theorems": [
    "C54_always_terminates_refuted"
   ],
   "note": "Refuted: an escape that is not closed yields empty texts forever."
  },
  {
   "property": "C55",
   "status": "partial",
   "theorems": [
    "C55_no_panic_refuted"
   ],
   "note": "Refuted with a witness for each of the two mangling schemes."
  },
  {
   "property": "C56",
   "status": "partial",
   "theorems": [
    "C56_underscores_kept_refuted"
   ],
   "note": "Refuted: the underscore is dropped."
  },
  {
   "property": "C57",
   "status": "partial",
   "theorems": [
    "C57_punycode_refuted"
   ],
   "note": "Refuted: the marker u becomes a text of its own."
  },
  {
   "property": "C58",
   "status": "partial",
   "theorems": [
    "C58_closure_paths_refuted"
   ],
   "note": "Refuted: no token is found at all."
  },
  {
   "property": "C59",
   "status": "partial",
   "theorems": [
    "C59_paths_kept_refuted"
   ],
   "note": "Refuted: the arguments are glued to the name of the method."
  },
  {
   "property": "C60",
   "status": "partial",
   "theorems": [
    "C60_no_text_lost_refuted"
   ],
   "note": "Refuted: a text of the inner type is dropped."
  },
  {
   "property": "C61",
   "status": "partial",
   "theorems": [
    "C61_v0_arguments_refuted"
   ],
   "note": "Refuted: one name for everything."
  },
  {
   "property": "C62",
   "status": "partial",
   "theorems": [
    "C62_last_token_refuted"
   ],
   "note": "Refuted: not reported if the file has an even number of tokens. Such a file cannot compile, so nothing is lost in practice."
  },
  {
   "property": "C63",
   "status": "partial",
   "theorems": [
    "C63_backslash_refuted",
    "C63_source_skipped_refuted"
   ],
   "note": "Refuted: the backslash is taken for an escape, the changed name does not resolve and the file is skipped silently."
  },
  {
   "property": "C64",
   "status": "partial",
   "theorems": [
    "C64_several_emits_refuted"
   ],
   "note": "Refuted: only the last --emit option counts; without dep-info in it no source is scanned and there is no error."
  },
  {
   "property": "C65",
   "status": "proved",
   "theorems": [
    "C65_link_inputs",
    "C65_output",
    "C65_objects_scanned"
   ],
   "note": "Paths that end in a slash, or in a slash and a dot, are left out."
  },
  {
   "property": "C66",
   "status": "partial",
   "theorems": [
    "C66_two_writers_refuted",
    "C66_same_stem_refuted"
   ],
   "note": "Refuted: both use the same temporary name."
  },
  {
   "property": "C67",
   "status": "partial",
   "theorems": [
    "C67_tmp_extension_refuted"
   ],
   "note": "Refuted: the file itself is truncated first."
  },
  {
   "property": "C68",
   "status": "partial",
   "theorems": [
    "C68_build_script_name_refuted"
   ],
   "note": "Refuted: the name decides. A library called build_script_utils is wrapped as a build script; its tests are wrapped as tests and linked as a build script."
  },
  {
   "property": "C69",
   "status": "partial",
   "theorems": [
    "C69_failed_cargo_tree_refuted"
   ],
   "note": "Refuted: the exit status of cargo tree is not looked at."
  },
  {
   "property": "C70",
   "status": "partial",
   "theorems": [
    "C70_registry_token_refuted"
   ],
   "note": "Refuted: CARGO_REGISTRY_TOKEN begins with CARGO and is passed."
  },
  {
   "property": "C71",
   "status": "partial",
   "theorems": [
    "C71_run_refuted",
    "C71_build_directory_refuted",
    "C71_workspace_refuted"
   ],
   "note": "Refuted by three witnesses: below /run without network; below the directory of the executed program; for rustc in the workspace."
  },
  {
   "property": "C72",
   "status": "partial",
   "theorems": [
    "C72_rustdoc_refuted"
   ],
   "note": "Refuted: RUSTDOC has none of the passed prefixes."
  },
  {
   "property": "C73",
   "status": "proved",
   "theorems": [
    "C73_continue",
    "C73_give_up"
   ],
   "note": "For every sequence of turns."
  },
  {
   "property": "C74",
   "status": "partial",
   "theorems": [
    "C74_arguments_refuted"
   ],
   "note": "Refuted: proxy_binary calls args twice when there is no sandbox."
  },
  {
   "property": "C75",
   "status": "partial",
   "theorems": [
    "C75_unchecked_refuted"
   ],
   "note": "Refuted: without a sandbox no request is sent."
  },
  {
   "property": "C76",
   "status": "partial",
   "theorems": [
    "C76_stray_value_refuted"
   ],
   "note": "Refuted by a witness."
  },
  {
   "property": "C77",
   "status": "partial",
   "theorems": [
    "C77_joined_linker_refuted"
   ],
   "note": "Refuted by a witness."
  },
  {
   "property": "C78",
   "status": "partial",
   "theorems": [
    "C78_own_lint_refuted"
   ],
   "note": "Refuted by a witness in which the permission is present throughout."
  },
  {
   "property": "C79",
   "status": "partial",
   "theorems": [
    "C79_tests_refuted"
   ],
   "note": "Refuted by a witness in which both offered fixes leave the sandbox of the test unchanged."
  },
  {
   "property": "C80",
   "status": "partial",
   "theorems": [
    "C80_already_there_refuted"
   ],
   "note": "Refuted by a witness."
  },
  {
   "property": "C81",
   "status": "proved",
   "theorems": [
    "C81_unsafe",
    "C81_extern",
    "C81_proc_macro",
    "C81_instructions"
   ],
   "note": ""
  },
  {
   "property": "C82",
   "status": "partial",
   "theorems": [
    "C82_extern_refuted"
   ],
   "note": "Refuted by a witness with a file of version 2."
  },
  {
   "property": "C83",
   "status": "partial",
   "theorems": [
    "C83_inline_refuted"
   ],
   "note": "Refuted by a witness; see C84 for what holds."
  },
  {
   "property": "C84",
   "status": "proved",
   "theorems": [
    "C84_edits_apply"
   ],
   "note": ""
  },
  {
   "property": "C85",
   "status": "partial",
   "theorems": [
    "C85_imported_refuted"
   ],
   "note": "Refuted by a witness; see C90 for what holds."
  },
  {
   "property": "C86",
   "status": "proved",
   "theorems": [
    "C86_remove_apis",
    "C86_remove_section"
   ],
   "note": ""
  },
  {
   "property": "C87",
   "status": "proved",
   "theorems": [
    "C87_import",
    "C87_ignore",
    "C87_inline"
   ],
   "note": ""
  },
  {
   "property": "C88",
   "status": "proved",
   "theorems": [
    "C88_built_in"
   ],
   "note": ""
  },
  {
   "property": "C89",
   "status": "partial",
   "theorems": [
    "C89_older_version_refuted"
   ],
   "note": "Refuted by a witness with two versions of a package."
  },
  {
   "property": "C90",
   "status": "proved",
   "theorems": [
    "C90_definitions"
   ],
   "note": ""
  },
  {
   "property": "C91",
   "status": "proved",
   "theorems": [
    "C91_no_unknown_keys"
   ],
   "note": ""
  },
  {
   "property": "C92",
   "status": "proved",
   "theorems": [
    "C92_settings"
   ],
   "note": "The settings build_flags, features and profile are only checked for their type (they are not part of the model of the configuration)."
  },
  {
   "property": "C93",
   "status": "proved",
   "theorems": [
    "C93_auto_accept"
   ],
   "note": "Fixes and edits are parameters of the theorem."
  },
  {
   "property": "C94",
   "status": "proved",
   "theorems": [
    "C94_success",
    "C94_stages"
   ],
   "note": "The results of the stages are inputs; the store is the one of C13/C14. That a stage that gives up was told so by the store is a hypothesis."
  },
  {
   "property": "C95",
   "status": "partial",
   "theorems": [
    "C95_clean_refuted"
   ],
   "note": "Refuted: the exit status of cargo clean is not looked at."
  },
  {
   "property": "C96",
   "status": "proved",
   "theorems": [
    "C96_one_check",
    "C96_error"
   ],
   "note": ""
  },
  {
   "property": "C97",
   "status": "partial",
   "theorems": [
    "C97_warnings_refuted"
   ],
   "note": "Refuted: a possible exported API is a warning, so the handler is told to continue, checks again and finds the same warning."
  },
  {
   "property": "C98",
   "status": "partial",
   "theorems": [
    "C98_hang_refuted"
   ],
   "note": "Refuted: if an edit fails (package given as inline table) the interface ends and the client waits for ever."
  },
  {
   "property": "C99",
   "status": "partial",
   "theorems": [
    "C99_before_saving_refuted",
    "C99_never_saved_refuted"
   ],
   "note": "Refuted: problems are resolved while the fixes are applied, the file is written afterwards, or not at all if a later fix fails."
  },
  {
   "property": "C100",
   "status": "partial",
   "theorems": [
    "C100_closed_input_refuted"
   ],
   "note": "Refuted: at the end of the input the interface asks again for ever."
  },
  {
   "property": "C101",
   "status": "proved",
   "theorems": [
    "C101_shown",
    "C101_changes"
   ],
   "note": "The edit script computed by the diff library is an input."
  },
  {
   "property": "C102",
   "status": "partial",
   "theorems": [
    "C102_header_refuted"
   ],
   "note": "Refuted: the header that ends the lines shown after a change is forgotten, so a change in the next section appears to be in the section before."
  },
  {
   "property": "C103",
   "status": "proved",
   "theorems": [
    "C103_shown"
   ],
   "note": "The edit script computed by the diff library is an input."
  },
  {
   "property": "C104",
   "status": "partial",
   "theorems": [
    "C104_json_refuted",
    "C104_name_refuted"
   ],
   "note": "Refuted: they are stored under the name of the procedural macros and overwritten by these."
  },
  {
   "property": "C105",
   "status": "partial",
   "theorems": [
    "C105_counts_refuted"
   ],
   "note": "Refuted: the lists of permissions are printed instead."
  },
  {
   "property": "C106",
   "status": "partial",
   "theorems": [
    "C106_no_permissions_refuted"
   ],
   "note": "Refuted: permissions of tests and of code used from build scripts and tests are not looked at."
  },
  {
   "property": "C107",
   "status": "proved",
   "theorems": [
    "C107_sections",
    "C107_json"
   ],
   "note": ""
  },
  {
   "property": "C108",
   "status": "partial",
   "theorems": [
    "C108_names_refuted",
    "C108_hidden_refuted"
   ],
   "note": "Refuted in both directions for APIs whose names start with proc_macro; C41 has the true part."
  },
  {
   "property": "C109",
   "status": "proved",
   "theorems": [
    "C109_charged",
    "C109_no_error"
   ],
   "note": "Symbols with two debug names are C116."
  },
  {
   "property": "C110",
   "status": "proved",
   "theorems": [
    "C110_places"
   ],
   "note": "The scope of one binary; combinations of binaries are C112."
  },
  {
   "property": "C111",
   "status": "proved",
   "theorems": [
    "C111_references",
    "C111_one_name"
   ],
   "note": "Code without debug information is C117, shims are C118. What the debug information says about addresses is an input."
  },
  {
   "property": "C112",
   "status": "proved",
   "theorems": [
    "C112_checked"
   ],
   "note": "Uses hidden behind excused ones are C113. Selectors of linked binaries are assumed to be distinct, as in C12."
  },
  {
   "property": "C113",
   "status": "partial",
   "theorems": [
    "C113_refuted"
   ],
   "note": "Refuted: only the shortest target at a place is kept, and dropped if excused."
  },
  {
   "property": "C114",
   "status": "partial",
   "theorems": [
    "C114_refuted"
   ],
   "note": "Refuted: a function whose type arguments mention the API is exempt."
  },
  {
   "property": "C115",
   "status": "partial",
   "theorems": [
    "C115_refuted"
   ],
   "note": "Refuted for package names with hyphens; C109 has the true part."
  },
  {
   "property": "C116",
   "status": "partial",
   "theorems": [
    "C116_refuted"
   ],
   "note": "Refuted if a symbol has two debug names; C109 has the true part."
  },
  {
   "property": "C117",
   "status": "partial",
   "theorems": [
    "C117_refuted"
   ],
   "note": "Refuted: sections whose first symbol has no debug information are skipped; C111 has the true part."
  },
  {
   "property": "C118",
   "status": "partial",
   "theorems": [
    "C118_refuted"
   ],
   "note": "Refuted: shims are followed within one object file only."
  },
  {
   "property": "C119",
   "status": "partial",
   "theorems": [
    "C119_refuted"
   ],
   "note": "Refuted: a pair counts as seen before the crate is compared; C43 has the true part."
  },
  {
   "property": "C120",
   "status": "partial",
   "theorems": [
    "C120_refuted"
   ],
   "note": "Refuted: recursion without another caller gives an empty backtrace; C44 has the true part."
  },
  {
   "property": "C121",
   "status": "partial",
   "theorems": [
    "C121_refuted"
   ],
   "note": "Refuted: visited addresses are shared between chains; C44 has the true part."
  },
  {
   "property": "C122",
   "status": "proved",
   "theorems": [
    "C122_inlined"
   ],
   "note": "References into other units are C125, address ranges C124, functions named by their declaration only C129. The decoding of DWARF is not modelled."
  },
  {
   "property": "C123",
   "status": "proved",
   "theorems": [
    "C123_readable"
   ],
   "note": "Errors of the DWARF decoder are not modelled."
  },
  {
   "property": "C124",
   "status": "partial",
   "theorems": [
    "C124_refuted"
   ],
   "note": "Refuted: an inlined function with address ranges has no start address and is left out; C122 has the true part."
  },
  {
   "property": "C125",
   "status": "partial",
   "theorems": [
    "C125_refuted"
   ],
   "note": "Refuted: the namespaces of the referring unit are used for the offset in the other unit; C122 has the true part."
  },
  {
   "property": "C126",
   "status": "partial",
   "theorems": [
    "C126_refuted"
   ],
   "note": "Refuted: only namespaces and structures count; C45 has the true part."
  },
  {
   "property": "C127",
   "status": "partial",
   "theorems": [
    "C127_refuted"
   ],
   "note": "Refuted: the start is the address of the inlined code itself."
  },
  {
   "property": "C128",
   "status": "partial",
   "theorems": [
    "C128_refuted"
   ],
   "note": "Refuted: a variable without linkage name describes the symbol of its name; C45 has the true part."
  },
  {
   "property": "C129",
   "status": "partial",
   "theorems": [
    "C129_refuted"
   ],
   "note": "Refuted: the declaration of the function around is not looked up, so the call is dropped; C122 has the true part."
  },
  {
   "property": "C130",
   "status": "partial",
   "theorems": [
    "C130_refuted"
   ],
   "note": "Refuted: everything in /rust and /cargo/registry counts as the standard library."
  },
  {
   "property": "C131",
   "status": "proved",
   "theorems": [
    "C131_written_was_shown",
    "C131_confirmed_is_written"
   ],
   "note": "Both directions, for screens that are up to date; C140 shows why that is needed."
  },
  {
   "property": "C132",
   "status": "proved",
   "theorems": [
    "C132_asked"
   ],
   "note": "For every step of every run."
  },
  {
   "property": "C133",
   "status": "proved",
   "theorems": [
    "C133_failed",
    "C133_closed"
   ],
   "note": "Failure changes nothing; success closes exactly the settled problems. A missing configuration file is replaced by other problems instead and is excluded."
  },
  {
   "property": "C134",
   "status": "proved",
   "theorems": [
    "C134_accepted"
   ],
   "note": "Both at the prompt and when problems arrive. When a fix fails see C141."
  },
  {
   "property": "C135",
   "status": "proved",
   "theorems": [
    "C135_nothing",
    "C135_everybody"
   ],
   "note": "For runs in which auto-accept was not agreed to; C142 has the rest."
  },
  {
   "property": "C136",
   "status": "proved",
   "theorems": [
    "C136_crash"
   ],
   "note": "No hang, and crashes only by an arrow key in an empty list, which is possible: C143."
  },
  {
   "property": "C137",
   "status": "proved",
   "theorems": [
    "C137_entered"
   ],
   "note": "About the pending comment and the remembered ones."
  },
  {
   "property": "C138",
   "status": "proved",
   "theorems": [
    "C138_stays"
   ],
   "note": "For every step but keys; keys at a shown error are included."
  },
  {
   "property": "C139",
   "status": "proved",
   "theorems": [
    "C139_highlighted",
    "C139_arrows",
    "C139_fixes_opened",
    "C139_usages_opened",
    "C139_frames_opened"
   ],
   "note": "All four lists, moving and opening; for backtraces, as long as the usage is still listed."
  },
  {
   "property": "C140",
   "status": "partial",
   "theorems": [
    "C140_refuted"
   ],
   "note": "Refuted: usages merged into the selected problem after drawing change the list of fixes, and the key applies another one. C131 has the true part."
  },
  {
   "property": "C141",
   "status": "partial",
   "theorems": [
    "C141_refuted"
   ],
   "note": "Refuted: problems are closed one by one before the file is written, so their clients continue although a later fix fails."
  },
  {
   "property": "C142",
   "status": "partial",
   "theorems": [
    "C142_refuted"
   ],
   "note": "Refuted: new problems are still accepted automatically after quitting. C135 has the true part."
  },
  {
   "property": "C143",
   "status": "partial",
   "theorems": [
    "C143_refuted"
   ],
   "note": "Refuted: a remainder by zero when the last problem has been fixed. C136 has the true part."
  },
  {
   "property": "C144",
   "status": "partial",
   "theorems": [
    "C144_refuted"
   ],
   "note": "Refuted: leaving the list of fixes with Esc keeps the comment. C137 has the true part."
  },
  {
   "property": "C145",
   "status": "partial",
   "theorems": [
    "C145_refuted"
   ],
   "note": "Refuted: the cursor is an index and closed problems before it shift the list. C138 has the true part."
  },
  {
   "property": "C146",
   "status": "proved",
   "theorems": [
    "C146_common"
   ],
   "note": "The order in which paths of the same text would be listed is not claimed."
  },
  {
   "property": "C147",
   "status": "proved",
   "theorems": [
    "C147_offered",
    "C147_excluded"
   ],
   "note": "An iff for when the fix is offered and the exact change of classification. Premises: the API is not imported (C85 shows what happens then) and no component has a colon."
  },
  {
   "property": "C148",
   "status": "proved",
   "theorems": [
    "C148_offered",
    "C148_included"
   ],
   "note": "Likewise for inclusion. C149 shows that the set of added names can be empty."
  },
  {
   "property": "C149",
   "status": "partial",
   "theorems": [
    "C149_included_refuted"
   ],
   "note": "Refuted: with \"foo\" excluded, including \"foo::bar\" is offered and changes the classification of no name, since an exclusion wins over a longer inclusion."
  },
  {
   "property": "C150",
   "status": "partial",
   "theorems": [
    "C150_excluded_refuted"
   ],
   "note": "Refuted: a trait method has two names. Excluding the path of the type is offered although the usage was reported by the path of the trait, which stays in the API."
  },
  {
   "property": "C151",
   "status": "partial",
   "theorems": [
    "C151_unchanged_refuted"
   ],
   "note": "Refuted: the path is offered although it is excluded already; applying the fix leaves the file as it is."
  },
  {
   "property": "C152",
   "status": "proved",
   "theorems": [
    "C152_executable",
    "C152_apart",
    "C152_other",
    "C152_code"
   ],
   "note": "Files are a map from paths to contents; copying and writing succeed if the file is there and the names are UTF-8."
  },
  {
   "property": "C153",
   "status": "proved",
   "theorems": [
    "C153_run"
   ],
   "note": "The part of bash needed for the script is specified separately (quotes, expansion of variables and arguments, if with a file test). C158 shows what happens without the premise, C164 that the package is that of the caller."
  },
  {
   "property": "C154",
   "status": "proved",
   "theorems": [
    "C154_rustc",
    "C154_never_top",
    "C154_linker"
   ],
   "note": "Premise for the linker: its first argument is neither proxy-bin nor a path to rustc; the exception of C28 and C68 for tests of crates named like build scripts."
  },
  {
   "property": "C155",
   "status": "proved",
   "theorems": [
    "C155_options",
    "C155_words",
    "C155_variables",
    "C155_clean",
    "C155_settings"
   ],
   "note": "C159 shows what happens with two dashes, C160 that the target is not cleaned."
  },
  {
   "property": "C156",
   "status": "proved",
   "theorems": [
    "C156_result",
    "C156_told",
    "C156_killed"
   ],
   "note": "So far: C161 shows that a request may fail later."
  },
  {
   "property": "C157",
   "status": "proved",
   "theorems": [
    "C157_order",
    "C157_progress"
   ],
   "note": "C163 shows what a silent client does."
  },
  {
   "property": "C158",
   "status": "partial",
   "theorems": [
    "C158_refuted"
   ],
   "note": "Refuted: with a dollar sign in the path, the script runs another program. C153 has the true part."
  },
  {
   "property": "C159",
   "status": "partial",
   "theorems": [
    "C159_refuted"
   ],
   "note": "Refuted: they are appended after two dashes, so that cargo hands them to the test program. C155 has the true part."
  },
  {
   "property": "C160",
   "status": "partial",
   "theorems": [
    "C160_refuted"
   ],
   "note": "Refuted: the target is not given to cargo clean. C155 has the true part (the profile)."
  },
  {
   "property": "C161",
   "status": "partial",
   "theorems": [
    "C161_refuted"
   ],
   "note": "Refuted: the answer is written before the error is sent to the loop; cargo may exit with 0 in between, and the loop looks for the exit first. C156 has the true part."
  },
  {
   "property": "C162",
   "status": "partial",
   "theorems": [
    "C162_refuted"
   ],
   "note": "Refuted: something that is not a request ends the loop with an error while cargo runs on."
  },
  {
   "property": "C163",
   "status": "partial",
   "theorems": [
    "C163_refuted"
   ],
   "note": "Refuted: the loop reads from the connection itself, so a client that connects and sends nothing stops it for good. C157 has the true part."
  },
  {
   "property": "C164",
   "status": "partial",
   "theorems": [
    "C164_refuted"
   ],
   "note": "Refuted: the script contains only the kind; the package is taken from the environment of the process that runs it. C153 has the true part."
  },
  {
   "property": "C165",
   "status": "proved",
   "theorems": [
    "C165_shown",
    "C165_soon"
   ],
   "note": "Waiting for a key always follows drawing the state of that moment; progress within 2*events+3 own steps."
  },
  {
   "property": "C166",
   "status": "proved",
   "theorems": [
    "C166_uses",
    "C166_entry",
    "C166_files",
    "C166_places"
   ],
   "note": "C166_uses is the correspondence between lines and uses, C166_entry that a line determines the use, C166_files the headings, C166_places unsafe code and extern declarations."
  },
  {
   "property": "C167",
   "status": "proved",
   "theorems": [
    "C167_headline"
   ],
   "note": "Names are plain (letters, digits, - _ + : and dots in versions); for off-tree uses the section does not count, see C171."
  },
  {
   "property": "C168",
   "status": "proved",
   "theorems": [
    "C168_uses",
    "C168_places"
   ],
   "note": "C168_uses and C168_places."
  },
  {
   "property": "C169",
   "status": "proved",
   "theorems": [
    "C169_source",
    "C169_target"
   ],
   "note": "C169_source describes the shown lines, C169_target that the place itself is among them."
  },
  {
   "property": "C170",
   "status": "partial",
   "theorems": [
    "C170_refuted"
   ],
   "note": "Refuted: line 2147483647 makes the logarithm of a negative number crash the interface (release arithmetic; debug builds crash on the overflow itself)."
  },
  {
   "property": "C171",
   "status": "partial",
   "theorems": [
    "C171_refuted"
   ],
   "note": "Refuted: the detailed text leaves the section out, so a missing permission of the package and one for its code in build scripts of others have the same text."
  },
  {
   "property": "C172",
   "status": "proved",
   "theorems": [
    "C172_nearest_manifest"
   ],
   "note": "Path::exists is an oracle on paths; directories are lists of components."
  },
  {
   "property": "C173",
   "status": "proved",
   "theorems": [
    "C173_std_apis"
   ],
   "note": "The specification lists the modules; the misspelt std::unix::process of the source is part of it, see C178."
  },
  {
   "property": "C174",
   "status": "proved",
   "theorems": [
    "C174_number_applies",
    "C174_difference",
    "C174_other_lines",
    "C174_file_changes"
   ],
   "note": "Lines of ASCII characters; C174_file_changes is about whole prompts. For a file that cannot be read see C182."
  },
  {
   "property": "C175",
   "status": "proved",
   "theorems": [
    "C175_initial_configuration"
   ],
   "note": "From the typed lines to the classification of names under the written and loaded file. Names typed twice: see C179."
  },
  {
   "property": "C176",
   "status": "proved",
   "theorems": [
    "C176_replayed_in_order"
   ],
   "note": "The codec is any pair that round-trips, the handler any function. More than 1000 requests: see C183."
  },
  {
   "property": "C177",
   "status": "proved",
   "theorems": [
    "C177_offered"
   ],
   "note": "After loading with any built-ins and exports."
  },
  {
   "property": "C178",
   "status": "partial",
   "theorems": [
    "C178_unix_process_refuted"
   ],
   "note": "Refuted: the definition has std::unix::process, so std::os::unix::process::parent_id belongs to no API although all are imported."
  },
  {
   "property": "C179",
   "status": "partial",
   "theorems": [
    "C179_retyped_refuted"
   ],
   "note": "Refuted: \"fs,nte\" and then \"fs,net\" leaves fs unrestricted, since naming it again removes it."
  },
  {
   "property": "C180",
   "status": "partial",
   "theorems": [
    "C180_closed_input_refuted"
   ],
   "note": "Refuted: the error is met with todo!(), a panic of the interface."
  },
  {
   "property": "C181",
   "status": "partial",
   "theorems": [
    "C181_failing_fix_refuted"
   ],
   "note": "Refuted: with the packages in an inline table, or a file that is not TOML at that moment, the interface ends with an error and the problem is never answered."
  },
  {
   "property": "C182",
   "status": "partial",
   "theorems": [
    "C182_unreadable_refuted"
   ],
   "note": "Refuted: a file that cannot be read is taken to be empty and overwritten."
  },
  {
   "property": "C183",
   "status": "partial",
   "theorems": [
    "C183_many_requests_refuted"
   ],
   "note": "Refuted: with 1001 requests the one numbered 1000 is handled after the one numbered 100."
  },
  {
   "property": "C184",
   "status": "partial",
   "theorems": [
    "C184_last_run_refuted"
   ],
   "note": "Refuted: requests of earlier runs stay in the directory and are replayed as well."
  },
  {
   "property": "C185",
   "status": "proved",
   "theorems": [
    "C185_exactly_the_macros"
   ],
   "note": "Through loading of the file; packages of the index are an input."
  },
  {
   "property": "C186",
   "status": "proved",
   "theorems": [
    "C186_exactly_the_unsettled",
    "C186_fixes"
   ],
   "note": "What a scan finds is an input here (C43); the package is part of the dependency tree."
  },
  {
   "property": "C187",
   "status": "proved",
   "theorems": [
    "C187_who_compiled_it"
   ],
   "note": "By induction on histories of linker calls, completed rustc calls and reloads."
  },
  {
   "property": "C188",
   "status": "proved",
   "theorems": [
    "C188_own_then_common"
   ],
   "note": "All versions that load; relative paths in this section stay as they are."
  },
  {
   "property": "C189",
   "status": "proved",
   "theorems": [
    "C189_announced",
    "C189_fixes"
   ],
   "note": "Both fixes; what the sandbox of rustc becomes is C06 and C188."
  },
  {
   "property": "C190",
   "status": "proved",
   "theorems": [
    "C190_menu"
   ],
   "note": "For all problems, configurations and names; the paths and settings that fixes_for_problem takes from elsewhere are arbitrary."
  },
  {
   "property": "C191",
   "status": "proved",
   "theorems": [
    "C191_alone"
   ],
   "note": "For plain names (ReportSpec.plain); the exceptions are listed by needs_problem."
  },
  {
   "property": "C192",
   "status": "partial",
   "theorems": [
    "C192_version_refuted"
   ],
   "note": "Refuted: C192_version_refuted has two versions of a package; the fix titled for the first one ends the problems of the second one as well."
  },
  {
   "property": "C193",
   "status": "partial",
   "theorems": [
    "C193_ignore_refuted"
   ],
   "note": "Refuted: C193_ignore_refuted has a package with two exported APIs; after ignoring one neither is offered."
  },
  {
   "property": "C194",
   "status": "proved",
   "theorems": [
    "C194_faithful",
    "C194_distinct"
   ],
   "note": "For every pair of printer and parser that round-trips on JSON values."
  },
  {
   "property": "C195",
   "status": "proved",
   "theorems": [
    "C195_agree",
    "C195_fresh",
    "C195_failed",
    "C195_ends",
    "C195_reload"
   ],
   "note": "By invariants over all event sequences; writing the flattened file is one step (C26 is about its parts). C195_reload: a thread that finds the lock free can reload."
  },
  {
   "property": "C196",
   "status": "proved",
   "theorems": [
    "C196_saved",
    "C196_unsafe",
    "C196_extern"
   ],
   "note": "C196_saved holds for every document; with C81 for the offered fixes. Sandboxes of build scripts are C38 with C196_saved."
  },
  {
   "property": "C197",
   "status": "proved",
   "theorems": [
    "C197_judged",
    "C197_unreadable"
   ],
   "note": "Composed of C65 (arguments, paths), C111 (references) and C112 (judgement) through the model of archives. Uses hidden behind excused ones are C113."
  },
  {
   "property": "C198",
   "status": "partial",
   "theorems": [
    "C198_refuted"
   ],
   "note": "Refuted: C198_refuted has /w/../t as target directory; the same program with /t has a problem."
  },
  {
   "property": "C199",
   "status": "partial",
   "theorems": [
    "C199_refuted"
   ],
   "note": "Refuted: C199_refuted has a library whose only header cannot be read."
  },
  {
   "property": "C200",
   "status": "partial",
   "theorems": [
    "C200_refuted"
   ],
   "note": "Refuted: C200_refuted, for every amount of memory below 2^64-1 bytes. Messages of possible length are C27."
  },
  {
   "property": "C201",
   "status": "proved",
   "theorems": [
    "C201_shown",
    "C201_sandbox"
   ],
   "note": "With the part of bash in LaunchSpec.v; characters above ASCII are taken to be printable."
  },
  {
   "property": "C202",
   "status": "partial",
   "theorems": [
    "C202_another_command_refuted",
    "C202_other_arguments_refuted"
   ],
   "note": "Refuted: C202_another_command_refuted has a description with semicolons, C202_other_arguments_refuted a dollar sign and a line end."
  },
  {
   "property": "C203",
   "status": "proved",
   "theorems": [
    "C203_passed_on",
    "C203_ends"
   ],
   "note": "By an invariant over all event sequences; errors of reading and writing are left out."
  },
  {
   "property": "C204",
   "status": "partial",
   "theorems": [
    "C204_refuted"
   ],
   "note": "Refuted: C204_refuted has a line of 65 characters and a line of the other channel."
  },
  {
   "property": "C205",
   "status": "proved",
   "theorems": [
    "C205_success",
    "C205_inlined",
    "C205_checked"
   ],
   "note": "Composed of C94, C12, C111, C112 and C197. That a failed analysis makes the build fail is C156 and a premise here. Runs with a sub-command are left out: they do not ask for unused permissions (see C208). Inlined calls are C205_inlined, composed with C206."
  },
  {
   "property": "C206",
   "status": "proved",
   "theorems": [
    "C206_inlined"
   ],
   "note": "What the debug information lists is the input (C122). Judged means the same as in C112 and C197."
  },
  {
   "property": "C207",
   "status": "proved",
   "theorems": [
    "C207_compiled"
   ],
   "note": "Composed of C94, C156, C157, C34 and the claims about the flattened configuration. What the parts have to do with each other (cargo succeeds only if its compilers do; an answer was written by the thread that served the request; processes find the configuration last written) is the premise `belongs`."
  },
  {
   "property": "C208",
   "status": "proved",
   "theorems": [
    "C208_linked",
    "C208_inlined"
   ],
   "note": "Composed of C207, C12, C111, C112, C197 and C206. The premise `checks` says that the thread of a request repeats the check until there are no problems, and that the linker call comes before the completion of its compiler."
  },
  {
   "property": "C209",
   "status": "proved",
   "theorems": [
    "C209_initial",
    "C209_refused"
   ],
   "note": "Composed of C175 and the model of the probing. bwrap is asked again when the choice is applied; the second answer only has to exist."
  },
  {
   "property": "C210",
   "status": "partial",
   "theorems": [
    "C210_refuted"
   ],
   "note": "Refuted: the exit status of bwrap --version is not looked at when a sandbox is selected."
  },
  {
   "property": "C211",
   "status": "proved",
   "theorems": [
    "C211_compiler",
    "C211_sysroot"
   ],
   "note": "White space is that of ASCII. That an answer naming a missing file stops the run is C213; the claim about the compiler is an equivalence for runs that start the build."
  },
  {
   "property": "C212",
   "status": "partial",
   "theorems": [
    "C212_refuted"
   ],
   "note": "Refuted: rustup is asked in the directory in which cackle was started, not in that given by --path."
  },
  {
   "property": "C213",
   "status": "partial",
   "theorems": [
    "C213_refuted"
   ],
   "note": "Refuted: the run panics."
  },
  {
   "property": "C214",
   "status": "partial",
   "theorems": [
    "C214_refuted"
   ],
   "note": "Refuted: the exit status of rustc is not looked at; if it fails without output the sysroot is the empty path, every absolute path begins with it, and no debug information is read from any unit."
  },
  {
   "property": "C215",
   "status": "proved",
   "theorems": [
    "C215_allowed"
   ],
   "note": "C215_allowed. The meaning of the text is an inductive relation (says) over the complete text; the binaries are those of CollectSpec.scope_in. That the version in the text is not that of the permission is C192 (refuted)."
  },
  {
   "property": "C216",
   "status": "proved",
   "theorems": [
    "C216_copied",
    "C216_imported"
   ],
   "note": "C216_copied, C216_imported: loading the same document under two sets of built-in definitions."
  },
  {
   "property": "C217",
   "status": "proved",
   "theorems": [
    "C217_copied"
   ],
   "note": "C217_copied: for names that are not of the form package::api, which imports define."
  },
  {
   "property": "C218",
   "status": "partial",
   "theorems": [
    "C218_refuted"
   ],
   "note": "Refuted: C218_refuted, a package with two exported APIs."
  },
  {
   "property": "C219",
   "status": "proved",
   "theorems": [
    "C219_compiler",
    "C219_default"
   ],
   "note": "C219_compiler, C219_default. The profile of development and the settings of a profile are those of cargo, which is not modelled."
  },
  {
   "property": "C220",
   "status": "partial",
   "theorems": [
    "C220_refuted"
   ],
   "note": "Refuted: C220_refuted, the same objects linked with and without symbols. That rustc strips the symbols is part of the trusted base."
  },
  {
   "property": "C221",
   "status": "partial",
   "theorems": [
    "C221_refuted"
   ],
   "note": "Refuted: C221_refuted, the profile release. C219_compiler still holds for it."
  },
  {
   "property": "C222",
   "status": "partial",
   "theorems": [
    "C222_refuted"
   ],
   "note": "Refuted: C222_refuted, for the default profile and for a selected one."
  },
  {
   "property": "C223",
   "status": "proved",
   "theorems": [
    "C223_announced",
    "C223_truthful",
    "C223_errors"
   ],
   "note": "C223_announced, C223_truthful, C223_errors. C223_truthful builds on C94."
  },
  {
   "property": "C224",
   "status": "partial",
   "theorems": [
    "C224_refuted"
   ],
   "note": "Refuted: C224_refuted, a warning about a package that is not used."
  },
  {
   "property": "C225",
   "status": "proved",
   "theorems": [
    "C225_interface"
   ],
   "note": "C225_interface."
  },
  {
   "property": "C226",
   "status": "partial",
   "theorems": [
    "C226_refuted"
   ],
   "note": "Refuted: C226_refuted, for every run on a terminal in which no key is pressed. C93 has the true part (without a terminal)."
  },
  {
   "property": "C227",
   "status": "proved",
   "theorems": [
    "C227_same"
   ],
   "note": "C227_same. C228 and C229 show that the premise is needed."
  },
  {
   "property": "C228",
   "status": "partial",
   "theorems": [
    "C228_refuted"
   ],
   "note": "Refuted: C228_refuted. C227 has the true part."
  },
  {
   "property": "C229",
   "status": "partial",
   "theorems": [
    "C229_refuted"
   ],
   "note": "Refuted: C229_refuted. C227 has the true part."
  },
  {
   "property": "C230",
   "status": "proved",
   "theorems": [
    "C230_unchanged"
   ],
   "note": "The variables are listed in the statement. Lines with leading blanks are excluded because of C52; how cargo applies the variables is an assumption on cargo."
  },
  {
   "property": "C231",
   "status": "partial",
   "theorems": [
    "C231_identity_refuted"
   ],
   "note": "Refuted: with the rule cargo:rustc-env=* a build script sets CARGO_PKG_NAME to another package, and the unsafe code of its own package is accepted under the permissions of the other. C230 is the part that holds."
  },
  {
   "property": "C232",
   "status": "partial",
   "theorems": [
    "C232_configuration_refuted"
   ],
   "note": "Refuted: it sets CACKLE_CONFIG_PATH to a file of its own. C230 is the part that holds."
  },
  {
   "property": "C233",
   "status": "partial",
   "theorems": [
    "C233_compiler_refuted"
   ],
   "note": "Refuted: it sets CACKLE_RUSTC_PATH to a program of its own. C230 is the part that holds."
  },
  {
   "property": "C234",
   "status": "partial",
   "theorems": [
    "C234_sandbox_refuted"
   ],
   "note": "Refuted: it sets CACKLE_TARGET_DIR to a directory of the user, which is then writable in the sandbox of rustc. C230 is the part that holds."
  },
  {
   "property": "C235",
   "status": "proved",
   "theorems": [
    "C235_rejected"
   ],
   "note": ""
  },
  {
   "property": "C236",
   "status": "partial",
   "theorems": [
    "C236_long_commands_refuted"
   ],
   "note": "Refuted: the wrapper does not read response files, takes the call for a mistake and fails. C235 is the safe side of it."
  },
  {
   "property": "C237",
   "status": "partial",
   "theorems": [
    "C237_objects_refuted"
   ],
   "note": "Refuted: with the output named outside the response file the call is accepted and the objects in the file are not recorded, so not scanned. C65 is what holds without response files."
  },
  {
   "property": "C238",
   "status": "proved",
   "theorems": [],
   "note": ""
  },
  {
   "property": "C239",
   "status": "proved",
   "theorems": [
    "C239_sandboxed"
   ],
   "note": ""
  },
  {
   "property": "C240",
   "status": "proved",
   "theorems": [
    "C240_help"
   ],
   "note": ""
  },
  {
   "property": "C241",
   "status": "proved",
   "theorems": [
    "C241_unlisted"
   ],
   "note": ""
  },
  {
   "property": "C242",
   "status": "proved",
   "theorems": [
    "C242_escape"
   ],
   "note": ""
  },
  {
   "property": "C243",
   "status": "partial",
   "theorems": [
    "C243_other_views_refuted"
   ],
   "note": "Refuted: the help shown for a backtrace lists only p, q, h and ?, although the arrow keys move in it and b and d close it. C241 is what holds: the views with a help of their own are covered completely."
  },
  {
   "property": "C244",
   "status": "proved",
   "theorems": [
    "C244_read",
    "C244_loaded"
   ],
   "note": ""
  },
  {
   "property": "C245",
   "status": "proved",
   "theorems": [
    "C245_only_version",
    "C245_version_suffices"
   ],
   "note": ""
  },
  {
   "property": "C246",
   "status": "partial",
   "theorems": [
    "C246_examples_refuted"
   ],
   "note": "Refuted: the examples with import_std and with features stand outside of the common section, where both keys are refused, and the example that turns a sandbox off writes \"Disable\" where only \"Disabled\" is accepted. C244 is what holds of files that use the keys in their documented places."
  },
  {
   "property": "C247",
   "status": "proved",
   "theorems": [
    "C247_recall"
   ],
   "note": ""
  },
  {
   "property": "C248",
   "status": "partial",
   "theorems": [
    "C248_typed_refuted"
   ],
   "note": "Refuted: the typed text is lost with the first arrow key, even if there are no earlier comments."
  },
  {
   "property": "C249",
   "status": "proved",
   "theorems": [
    "C249_trait_methods",
    "C249_first_methods"
   ],
   "note": ""
  },
  {
   "property": "C250",
   "status": "partial",
   "theorems": [
    "C250_no_names",
    "C250_refuted"
   ],
   "note": "Refuted: if the implementation has a number, that is, is not the first in its module, its number is not skipped, and no token is found in the symbol (C250_no_names, for all such symbols). A package that calls File::create of a standard library with v0 symbols is then not charged with the API. C249 is what holds."
  },
  {
   "property": "C251",
   "status": "partial",
   "theorems": [
    "C251_no_crate",
    "C251_refuted"
   ],
   "note": "Refuted: the crate is taken for the type and skipped, so foo::Foo::bar becomes Foo::bar (C251_no_crate, for all crates). C249 is what holds below the top of a crate."
  },
  {
   "property": "C252",
   "status": "proved",
   "theorems": [
    "C252_reports",
    "C252_compiler",
    "C252_success",
    "C252_config"
   ],
   "note": "C252_reports: for whom. C252_compiler: which program, by which configuration, what it is told to forbid. C252_success: what success means. C252_config: other files make no difference."
  },
  {
   "property": "C253",
   "status": "proved",
   "theorems": [
    "C253_explanation"
   ],
   "note": "C253_explanation, on top of C08_never_dropped."
  },
  {
   "property": "C254",
   "status": "proved",
   "theorems": [
    "C254_preview"
   ],
   "note": "C254_preview, for what diff_lines makes of any edit script (C101)."
  },
  {
   "property": "C255",
   "status": "partial",
   "theorems": [
    "C255_crash",
    "C255_refuted"
   ],
   "note": "Refuted: the number of lines left for the changes is computed as max_lines - lines.len(), which is negative in a pane of less than seven lines (C255_crash: for every change). A build with checks for overflow (cargo build, cargo test) panics there; in a build without them the value wraps, is read as a negative number again and the preview is right (C254)."
  },
  {
   "property": "C256",
   "status": "proved",
   "theorems": [
    "C256_library",
    "C256_others",
    "C256_backtrace"
   ],
   "note": "Paths are texts; names of directories are neither empty nor a dot."
  },
  {
   "property": "C257",
   "status": "proved",
   "theorems": [
    "C257_every_macro"
   ],
   "note": "About the map that the index keeps; C185 has the permissions in terms of the file."
  },
  {
   "property": "C258",
   "status": "partial",
   "theorems": [
    "C258_overlooked",
    "C258_refuted"
   ],
   "note": "Refuted: packages are kept by name and version, the later one replaces the earlier one (C258_overlooked: for all lists), so a procedural macro from git is not reported if a plain package of the same name and version is listed after it."
  },
  {
   "property": "C259",
   "status": "proved",
   "theorems": [
    "C259_headline",
    "C259_details"
   ],
   "note": "Text only, without layout."
  },
  {
   "property": "C260",
   "status": "partial",
   "theorems": [
    "C260_refuted"
   ],
   "note": "Refuted: the answer to the announcement of a newer version of the configuration is not looked at; cargo is started (and killed once the message to abort is read), only the exit code says that the run was given up. For the other questions it holds (C94_stages)."
  },
  {
   "property": "C261",
   "status": "proved",
   "theorems": [
    "C261_complete",
    "C261_first"
   ],
   "note": "Breaking of lines (ratatui) is any function that keeps rows within the width, loses at most a space between rows and leaves lines alone that fit. ASCII only."
  },
  {
   "property": "C262",
   "status": "partial",
   "theorems": [
    "C262_hidden",
    "C262_wide",
    "C262_refuted"
   ],
   "note": "Refuted: on screens of up to 160 columns the line that says which keys to press is never shown (C262_hidden: for every height and every way of breaking lines), because the height of the box is that of the unbroken lines; on wider screens it is shown (C262_wide)."
  },
  {
   "property": "C263",
   "status": "partial",
   "theorems": [
    "C263_complete",
    "C263_refuted"
   ],
   "note": "Refuted: the column for keys has five characters, so that enter and f, which apply a fix, are cut off on every screen. The help of the other two views is complete (C263_complete)."
  },
  {
   "property": "C264",
   "status": "partial",
   "theorems": [
    "C264_visible",
    "C264_refuted"
   ],
   "note": "Refuted: from 78 characters on neither cursor nor text is moved, so that what is typed is not shown. Shorter comments are (C264_visible)."
  },
  {
   "property": "C265",
   "status": "partial",
   "theorems": [
    "C265_little_output",
    "C265_unopened",
    "C265_refuted"
   ],
   "note": "Refuted: the interface keeps stderr locked until it is told to shut down, which is after cargo has ended; if cargo prints more than a pipe holds, it waits for ever (C265_refuted, for every capacity). It holds as long as the interface has not been opened (C265_unopened) or if the output fits into the pipes (C265_little_output)."
  },
  {
   "property": "C266",
   "status": "partial",
   "theorems": [
    "C266_success",
    "C266_refuted"
   ],
   "note": "Refuted for a cargo that fails: the threads are not waited for, so that its messages can be missing. Proved if cargo succeeds (C266_success)."
  },
  {
   "property": "C267",
   "status": "proved",
   "theorems": [
    "C267_crash",
    "C267_others"
   ],
   "note": "Requests, the two mutexes with poisoning, the interface, cargo and the main thread until the end of the process; cargo exits with code 0 only if every request was answered."
  },
  {
   "property": "C268",
   "status": "partial",
   "theorems": [
    "C268_error",
    "C268_never",
    "C268_refuted"
   ],
   "note": "Refuted: a request that waits for a decision waits for ever once the interface is gone (C268_never), and with one job nothing at all can happen any more. Proved: after an error of the interface the run does not end with success."
  },
  {
   "property": "C269",
   "status": "partial",
   "theorems": [
    "C269_refuted"
   ],
   "note": "Refuted: the result of joining the thread of the interface is looked at only if it is an error that was returned; after a panic without a lock, or with the store locked at the end, the run ends with success."
  },
  {
   "property": "C270",
   "status": "proved",
   "theorems": [
    "C270_no_deadlock"
   ],
   "note": "Each part of the program that locks is a list of actions; threads are any sequences of parts."
  },
  {
   "property": "C271",
   "status": "proved",
   "theorems": [
    "C271_asks_without_locks"
   ],
   "note": "As C270; waiting for a key, a line or a decision is an action of its own."
  },
  {
   "property": "C272",
   "status": "proved",
   "theorems": [
    "C272_removed",
    "C272_given"
   ],
   "note": "Owners of the directory, of the checker and of the store of problems as they are shared between threads; the last owner removes the directory."
  },
  {
   "property": "C273",
   "status": "partial",
   "theorems": [
    "C273_summary",
    "C273_refuted",
    "C273_refuted_request"
   ],
   "note": "Refuted: after cargo acl summary the interface is still waiting for events, since it owns the store of problems, which can send them; so the directory is never removed. Nor is it when a request is still being judged at the exit."
  },
  {
   "property": "C274",
   "status": "proved",
   "theorems": [
    "C274_restored",
    "C274_gone",
    "C274_untouched"
   ],
   "note": "On top of the model of crashes of C267."
  },
  {
   "property": "C275",
   "status": "partial",
   "theorems": [
    "C275_refuted",
    "C275_refuted_opening"
   ],
   "note": "Refuted: a panic of the main thread while the interface is shown ends the process with the terminal in raw mode and on the alternate screen; and if the alternate screen cannot be entered, raw mode stays on."
  },
  {
   "property": "C276",
   "status": "proved",
   "theorems": [
    "C276_written",
    "C276_matched",
    "C276_same"
   ],
   "note": "How symbols are written is left to rustc-demangle and not part of the claim."
  },
  {
   "property": "C277",
   "status": "proved",
   "theorems": [
    "C277_table"
   ],
   "note": "Lengths are in bytes, as in the code; the keys are ASCII."
  },
  {
   "property": "C278",
   "status": "proved",
   "theorems": [
    "C278_cargo",
    "C278_own"
   ],
   "note": "What our own messages look like by default is decided by the library colored."
  },
  {
   "property": "C279",
   "status": "partial",
   "theorems": [
    "C279_refuted",
    "C279_refuted_file"
   ],
   "note": "Refuted: with --colour=never cargo is told nothing and uses colours if it prints to a terminal, as with --no-ui; and by default the standard output decides, although cargo prints to stderr, which may be a file."
  },
  {
   "property": "C280",
   "status": "proved",
   "theorems": [
    "C280_printed",
    "C280_silent"
   ],
   "note": "Times are numbers; how seconds are written is left out."
  },
  {
   "property": "C281",
   "status": "proved",
   "theorems": [
    "C281_settled",
    "C281_resolved"
   ],
   "note": "For a log file that can be written. Lines that the interface writes about empty diffs are left out; times are not shown."
  },
  {
   "property": "C282",
   "status": "partial",
   "theorems": [
    "C282_refuted"
   ],
   "note": "Refuted: what takes the place of another problem is not reported; after the missing configuration the question for the sandbox is shown, and said to be resolved, without a line that reports it. C281 is what holds."
  }
 ]
}