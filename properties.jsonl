{"id": "C01", "title": "API classification is include-minus-exclude on whole path components", "statement": "After a configuration is loaded, looking up a name in the API table returns exactly those APIs for which some `include` path is a component-wise prefix of the name and no `exclude` path of the same API is. Excludes win however short or long they are, prefixes match whole `::` components only, and the order in which APIs and paths are listed is irrelevant.", "quantifier": "every set of API definitions (any number of APIs, include and exclude paths, overlapping or nested) and every looked-up name", "why_tests_cant": "The table is a trie mutated by a sequence of inserts and subtree edits; a test tries a few paths, while the claim is about every combination of overlapping include/exclude paths and every lookup.", "anchors": ["src/checker/api_map.rs: ApiMap::create_entry, ApiMap::mut_tree, ApiMap::update_tree, ApiMap::get", "src/checker.rs: Checker::update_config", "src/names.rs: split_simple"]}
{"id": "C02", "title": "Permissions are inherited along pkg -> from.build/from.test -> build/test and nowhere else", "statement": "For every package known to the crate index and every selector of it that has an entry, the effective allow_apis and allow_build_instructions are exactly the union of those configured on the selector and on each of its ancestors, and each effective allow_* flag is the disjunction over the same chain. Nothing flows downwards-up, sideways (build/test) or between packages.", "quantifier": "every raw configuration, every crate index, every package, every scope", "why_tests_cant": "The result depends on which of the up to five sections of a package exist, on which selectors the index adds, and on the layer order; the number of combinations is unbounded in packages and a unit test fixes one.", "anchors": ["src/config/permissions.rs: Permissions::from_config, from_config_with_inheritance, apply_inheritance, PackageConfig::inherit"]}
{"id": "C03", "title": "Sandbox settings: the most specific setting wins, lists accumulate", "statement": "For every selector of an indexed package the effective sandbox kind and allow_network are those of the nearest section on the chain selector, ..., pkg, [sandbox] that sets them, and bind_writable / make_writable are the union over that chain.", "quantifier": "every raw configuration, every crate index, every selector", "why_tests_cant": "Precedence over four levels with optional presence at each level, for each option separately.", "anchors": ["src/config/permissions.rs: SandboxConfig::inherit, merge_string_vec, apply_inheritance", "src/config.rs: SandboxConfig"]}
{"id": "C04", "title": "Accepted configurations are well-formed, and only ill-formed ones are rejected", "statement": "A configuration passes validation if and only if its version is between 1 and the newest supported, every allowed API of every section is defined, no section lists the same API twice, and no build/test/from section contains a nested build/test/from section.", "quantifier": "every raw configuration", "why_tests_cant": "An iff over unboundedly many packages and lists; tests show single rejections.", "anchors": ["src/config_validation.rs: validate", "src/config/versions.rs: MAX_VERSION"]}
{"id": "C05", "title": "Directories granted to the sandbox are absolute", "statement": "After a configuration file has been loaded from the main process, every bind_writable and make_writable directory in every section is an absolute path (relative ones are resolved against the workspace root), so that it does not depend on the working directory of the subprocess that later uses it.", "quantifier": "every raw configuration, every section in which a sandbox can be configured", "why_tests_cant": "The claim ranges over all section kinds; the code handles each by separate code and a test covers only the ones its author thought of.", "anchors": ["src/config.rs: RawConfig::make_paths_absolute, PackageConfig::make_paths_absolute, SandboxConfig::make_paths_absolute"]}
{"id": "C06", "title": "Upgrading the config version while preserving behaviour preserves behaviour", "statement": "For every configuration of a supported version other than the newest, applying the offered `update while preserving old behaviour` edit and reloading yields the same effective permissions (including which packages may use unsafe and extern), sandbox and rustc sandbox settings, and repeated application reaches the newest version.", "quantifier": "every configuration and every supported version", "why_tests_cant": "The runtime patches are applied for all later versions in sequence, and the edit works on the file; equality must hold for every content of the file.", "anchors": ["src/config/versions.rs: VERSIONS, apply_runtime_patches, Version::apply", "src/config.rs: parse_raw", "src/config_editor.rs: UpdateConfigVersionPreserveBehaviour"]}
{"id": "C07", "title": "Importing built-in and crate-provided API definitions", "statement": "After loading, the definition of an API is the configured one extended by exactly the built-in paths for each name in import_std and, for each package with imports, by the requested APIs of its newest version under the name `package::api`; an unknown std API, an unavailable package or a clash is an error.", "quantifier": "every configuration, every set of exported definitions", "why_tests_cant": "Unbounded sets of imports and exports; clashes and misspellings are exactly the inputs a test does not list.", "anchors": ["src/config.rs: merge_built_ins, RawConfig::load_imports, RawConfig::unused_imports"]}
{"id": "C08", "title": "A disallowed API usage is never dropped", "statement": "For every batch of usages of an API by a package that the effective permissions do not allow, every single usage ends up in exactly one reported problem (a direct one, or an off-tree one naming the package that owns the target), except off-tree usages whose target belongs to the very crate in whose source the enclosing function or variable is defined; if that source file cannot be attributed to a package the check fails with an error. When the API is allowed, no problem is reported.", "quantifier": "every permission set, every package, every list of usages, every dependency tree", "why_tests_cant": "A partition property over arbitrary lists of usages.", "anchors": ["src/checker.rs: Checker::api_used, is_to_name_from_outer_location"]}
{"id": "C09", "title": "Unused permissions are reported exactly when never used", "statement": "After any history of configuration loads (of one unchanged file) and API usages, the `unused allow` problems name exactly those (section, API) pairs of the configuration file for which no usage was seen through that section or one inheriting from it.", "quantifier": "every configuration and every finite history of usages", "why_tests_cant": "A history property: the set is maintained incrementally by removal on use along the parent chain.", "anchors": ["src/checker.rs: Checker::api_used, mark_parent_apis_used, check_unused, update_config"]}
{"id": "C10", "title": "Newly granted permissions take effect at once, and nothing is permitted that no loaded configuration granted", "statement": "After any sequence of configuration loads, an API is permitted to a selector if and only if one of the configurations loaded so far grants it; in particular a usage permitted by the newest configuration is not reported.", "quantifier": "every pair (indeed every sequence) of configurations loaded by one run", "why_tests_cant": "A property of sequences of reloads.", "anchors": ["src/checker.rs: Checker::load_config, update_config, api_used"]}
{"id": "C11", "title": "explicit_build_scripts makes unlisted build scripts an error", "statement": "With explicit_build_scripts = true, every package in the index that has a build script and no pkg.NAME.build section is reported.", "quantifier": "every configuration and crate index", "why_tests_cant": "Depends on the interaction of two loops over all packages.", "anchors": ["src/checker.rs: verify_build_script_permitted, update_config", "src/config/permissions.rs: from_config_with_inheritance"]}
{"id": "C12", "title": "Every linker invocation is checked before the compilation may proceed", "statement": "In any interleaving of requests from proxied subprocesses, the completion of rustc for a crate takes the oldest recorded linker invocation of that crate; an invocation whose analysis produced problems is kept for the retry; every recorded invocation is outstanding or disposed of exactly once; unused-permission checking refuses to run while any is outstanding; and, if no crate is linked twice, an answer without problems means that this very invocation was scanned under the API definitions in force and that all its usages are permitted or excused.", "quantifier": "every finite interleaving of linker-invoked / rustc-complete requests for any crates", "why_tests_cant": "A schedule property.", "anchors": ["src/checker.rs: handle_request, get_link_info / rustc complete handling, check_unused"]}
{"id": "C13", "title": "Each waiter on the problem store receives exactly one outcome, and the right one", "statement": "A client that submits problems receives at most one outcome; it receives Continue exactly when every problem it submitted, and transitively every problem that replaced one of them, has been resolved before any abort, and GiveUp exactly when an abort happens while some are still open. Nothing another client does can release it early.", "quantifier": "every finite sequence of add / resolve / replace / abort operations on valid problem ids, by any number of clients", "why_tests_cant": "A history property over interleavings of clients and user interface.", "anchors": ["src/problem_store.rs: ProblemStore::add, replace, resolve, abort, NotificationEntry::replace_problem"]}
{"id": "C14", "title": "Problems are deduplicated without aliasing and problem ids are stable", "statement": "At every moment no two open problems have the same deduplication key, each open problem is found under its key, an id once handed out always denotes the same key and is never reused, and new problems appear only at the end of the iteration order.", "quantifier": "every finite sequence of operations", "why_tests_cant": "Invariant over histories.", "anchors": ["src/problem_store.rs: ProblemStore::add_problem, replace, deduplicated_into_iter", "src/problem.rs: Problem::deduplication_key"]}
{"id": "C15", "title": "The problem store crashes only on misuse, and merging reports loses no usage", "statement": "An operation of the problem store crashes exactly if it submits an empty list, replaces a problem that is not open, or replaces an open problem by a list containing the same problem; and an open problem mentions exactly the usages of all the reports that were joined into it.", "quantifier": "every store state and every replacement list", "why_tests_cant": "The panicking case needs a particular key relation between two problems.", "anchors": ["src/problem_store.rs: replace, add_problem", "src/problem.rs: Problem::merge"]}
{"id": "C16", "title": "Symbol demangling terminates on every input", "statement": "Iterating over the parts of any symbol or debug name, valid or not, ends after at most as many tokens as the input has bytes; for legacy-mangled symbols this holds exactly when every escape sequence is closed.", "quantifier": "every byte string / character string", "why_tests_cant": "Termination for all inputs, including adversarial ones taken from object files.", "anchors": ["src/demangle.rs: DemangleIterator::next, symbol, skip_v0_type, NonMangledIterator::next"]}
{"id": "C17", "title": "Symbol demangling never panics on ASCII input and splits only at character boundaries", "statement": "For every ASCII symbol name, demangling reports data or stops; no slice index is out of range or inside a character. The same holds for debug names that are any valid text.", "quantifier": "every ASCII symbol; every UTF-8 debug name", "why_tests_cant": "Index arithmetic over attacker-controlled length prefixes.", "anchors": ["src/demangle.rs: parse_decimal, DemangleIterator::next"]}
{"id": "C18", "title": "Demangling inverts mangling", "statement": "For every path of identifiers, demangling its legacy mangling (with or without hash) yields exactly the identifiers in order, with escape sequences decoded; likewise for v0 manglings of nested crate/module/function paths. Debug names are split at separators, keeping every other character. (Identifiers with a leading underscore, Punycode and closures are properties of their own.)", "quantifier": "every list of identifiers of any length", "why_tests_cant": "Round trip for all inputs.", "anchors": ["src/demangle.rs: DemangleIterator (Legacy and V0)"]}
{"id": "C19", "title": "Name extraction from symbols and debug names", "statement": "Splitting a token stream into names terminates and every part of a name is a text of the input. The names are exactly: each maximal run of texts between special characters (without numbers, the word mut, texts inside braces and a final hash); and for `<A as B>::c` the path of A and the path of B extended by c. No text that counts is lost. The crate and module of a symbol are its first and second text.", "quantifier": "every token stream", "why_tests_cant": "A backtracking state machine with saved positions; termination and completeness depend on arbitrary nesting.", "anchors": ["src/names.rs: NamesIteratorPos::next, NamesIterator::next_name, create_name"]}
{"id": "C20", "title": "Every use of the unsafe keyword that needs permission is reported", "statement": "Scanning a source file reports exactly the positions of `unsafe` tokens not followed (ignoring whitespace and comments) by `extern`, and exactly those of `extern` tokens not followed by `crate`, `]` or `)`.", "quantifier": "every token sequence", "why_tests_cant": "Pairwise scanning over arbitrary token lists.", "anchors": ["src/unsafe_checker.rs: scan_string", "src/extern_checker.rs: scan_string"]}
{"id": "C21", "title": "Reported source positions are right", "statement": "The line of a reported unsafe/extern location is one plus the number of line breaks before the token, and the column is one plus the number of bytes since the last line break.", "quantifier": "every source text and token position", "why_tests_cant": "Arithmetic over arbitrary text.", "anchors": ["src/unsafe_checker.rs: add_location", "src/extern_checker.rs"]}
{"id": "C22", "title": "Build script output is filtered exactly by the permitted patterns", "statement": "A problem is reported for a line of build script output if and only if the line is a cargo directive, does not start with one of the always-permitted directives and matches none of the package's allow_build_instructions, where a trailing `*` matches any suffix and anything else matches literally; problems appear in output order.", "quantifier": "every output and every pattern list", "why_tests_cant": "Unbounded outputs and patterns.", "anchors": ["src/build_script_checker.rs: BuildScriptReport::build, check_directive, matches"]}
{"id": "C23", "title": "Suggested build-instruction fixes do permit the instruction", "statement": "Every pattern suggested for a rejected build instruction permits that instruction when added to the configuration; the suggestions are ordered from specific to general and the computation terminates without panicking.", "quantifier": "every instruction string that can be rejected", "why_tests_cant": "Loop with byte slicing over arbitrary strings.", "anchors": ["src/config_editor.rs: edits_for_build_instruction, AllowBuildInstruction::apply", "src/build_script_checker.rs: matches"]}
{"id": "C24", "title": "Environment variables set by a build script reach the sandboxed rustc", "statement": "When a package is compiled in a profile, the variable names found for it are exactly the non-empty ones set with cargo:rustc-env= by the latest successful run of its own build script in that profile, in order; runs of other packages (also other versions of the same name), other profiles, failed runs and tests do not matter.", "quantifier": "every sequence of finished build scripts and tests, every index of packages", "why_tests_cant": "Serialisation round trip.", "anchors": ["src/sandbox.rs: write_env_vars, read_env_vars", "src/build_script_checker.rs: BuildScriptReport::build"]}
{"id": "C25", "title": "Dependency files are parsed back to the exact source paths", "statement": "For every list of source paths, parsing the makefile-style dependency file rustc writes for it yields the same paths, including those with spaces (names without backslashes and line feeds; with make's escaping of backslashes those too); the dependency file is looked for at the place given by rustc's arguments (the last option of each kind), it is an error if these are incomplete, and the files scanned are exactly the listed ones that exist.", "quantifier": "every list of paths, every argument list", "why_tests_cant": "Escaping round trip; all orders and repetitions of options.", "anchors": ["src/deps.rs: parse_deps, unescape_makefile_path, deps_path_from_rustc_args"]}
{"id": "C26", "title": "Configuration writes are atomic", "statement": "At every crash point during an atomic write, and for every concurrent reader, the destination file holds either the complete old or the complete new content, also while other files are written in the same way, provided that temporary names do not clash; after success it holds the new content and no temporary file remains.", "quantifier": "every crash point, every interleaving of any number of writers and readers, every content", "why_tests_cant": "Crash points and schedules.", "anchors": ["src/fs.rs: write_atomic"]}
{"id": "C27", "title": "RPC framing round-trips and rejects truncation", "statement": "Any sequence of messages written to a stream is read back in order and unchanged, and reading from a stream cut short anywhere inside a message fails rather than returning a message.", "quantifier": "every sequence of messages, every cut position", "why_tests_cant": "Round trip over all payloads and lengths.", "anchors": ["src/proxy/rpc.rs: write_to_stream, read_from_stream"]}
{"id": "C28", "title": "Crate and permission selectors survive the trip to subprocesses", "statement": "The selector token placed in the environment or on a wrapper's command line is decoded to the same crate kind, and the package id reconstructed by a subprocess equals the main process's, including whether the package name is unique.", "quantifier": "every crate selector and package index", "why_tests_cant": "Encoding round trip through a comma-separated environment variable.", "anchors": ["src/crate_index.rs: CrateSel::selector_token, with_selector_token, PackageId::from_env, CrateIndex::add_internal_env"]}
{"id": "C29", "title": "A source file belongs to the package whose directory most closely encloses it", "statement": "Looking up the package of a path returns the package rooted at the nearest enclosing directory, and nothing if no enclosing directory is a package root.", "quantifier": "every path and every set of package directories", "why_tests_cant": "Nested package directories of any depth.", "anchors": ["src/crate_index.rs: CrateIndex::package_id_for_path"]}
{"id": "C30", "title": "The dependency tree is the transitive closure", "statement": "For the depth-annotated listing of any acyclic dependency graph, in which an already shown package is not expanded again, each package's recorded transitive dependencies are exactly the packages reachable from it.", "quantifier": "every finite acyclic dependency graph and traversal order", "why_tests_cant": "Graphs of any shape; sharing interacts with the stack discipline.", "anchors": ["src/crate_index/lib_tree.rs: LibTreeBuilder::process_line, pop_to_level"]}
{"id": "C31", "title": "The sandbox passes only whitelisted environment variables", "statement": "A sandboxed process sees only USER, PATH, HOME, LD_LIBRARY_PATH, OUT_DIR, the variables listed in pass_env, the cargo-defined build variables and (for rustc) cackle's own and build-script-set variables; each of them with the value it has outside (USER is `user` unless passed), and every variable of that list that is set outside is passed.", "quantifier": "every environment, every sandbox configuration", "why_tests_cant": "Quantifies over all environments.", "anchors": ["src/sandbox.rs: from_config, pass_cargo_env, is_cargo_env, for_rustc, for_perm_sel", "src/sandbox/bubblewrap.rs: Bubblewrap::command"]}
{"id": "C32", "title": "The sandbox hides the home directory and denies writes and network unless granted", "statement": "In the mount namespace built for a sandboxed process, real files below $HOME are visible only under the cargo bin/git/registry and rustup directories, the crate's own directory and explicitly bound directories; real files are writable only below granted directories; network is available if and only if allow_network is set. Everything not hidden and every granted directory outside /run is readable; OUT_DIR (and for rustc its output directories) is writable, and so is a directory the configuration makes writable, unless it is below /run without network, below the executed program's own directory or, for rustc, in the workspace. Configurations with extra_args of their own are excluded.", "quantifier": "every path, home directory, configuration", "why_tests_cant": "Order-sensitive overlay of mounts; must hold for every path.", "anchors": ["src/sandbox.rs: from_config, for_rustc, for_perm_sel", "src/sandbox/bubblewrap.rs"]}
{"id": "C33", "title": "rustc arguments are passed through with only the intended changes", "statement": "The wrapped rustc receives the original arguments in order, minus `-C linker=..`, `-C debuginfo=..` and --error-format=.., plus the fixed suffix; -Funsafe-code is present if and only if unsafe is not permitted for the crate and -Fmissing-unsafe-on-extern if and only if extern is not; the linker asked for (the last one, or cc if there was none) is the one that is run in the end. Every -C is assumed to be followed by its value.", "quantifier": "every argument list", "why_tests_cant": "Peeking loop over arbitrary argument lists.", "anchors": ["src/proxy/subprocess.rs: RustcRunner::get_command"]}
{"id": "C34", "title": "A crate that uses forbidden unsafe or extern code never compiles successfully", "statement": "The proxy reports success of rustc to cargo only if rustc itself succeeded, the main process approved the completion and, under the configuration in force for that last run, each of unsafe and extern is either permitted or forbidden to rustc and absent from all source files of the crate (but for the last token of a file, see C20). A failure is rustc's own, with its output unchanged, or follows the main process giving up. A new attempt follows only an accepted report. Reports list every use found (or every such error of rustc), each place once.", "quantifier": "every sequence of configurations, rustc results and main-process answers during retries", "why_tests_cant": "A retry loop driven by an external process.", "anchors": ["src/proxy/subprocess.rs: proxy_rustc, RustcRunner::run"]}
{"id": "C35", "title": "A build script or test run in a sandbox behaves like the original and its output is checked", "statement": "With a sandbox, the wrapped binary is run with exactly the original arguments; its output is passed on, unchanged, only after the main process has approved that very output of a successful run; a build script's instructions reach cargo only if each was permitted under the configuration of the last check; a failed run is retried only after approval. (For binaries run without a sandbox see C74 and C75.)", "quantifier": "every argument list, every output, every answer sequence", "why_tests_cant": "Retry loop and two code paths.", "anchors": ["src/proxy/subprocess.rs: proxy_binary"]}
{"id": "C36", "title": "Allow-API fixes grant exactly what they say", "statement": "Applying an `allow API` fix and reloading gives the package that API in the chosen scope and in every scope inheriting from it, and changes no other effective permission of any package.", "quantifier": "every configuration document, package, scope and API", "why_tests_cant": "Involves inheritance and removal of redundant grants in descendants.", "anchors": ["src/config_editor.rs: AllowApiUsage::apply, RemoveUnusedAllowApis::apply, add_to_array", "src/config/permissions.rs"]}
{"id": "C37", "title": "Adding to a configuration list is idempotent, order-preserving and adds nothing else", "statement": "Adding values to an array keeps all existing entries in order, makes every value present, keeps a sorted array sorted, and a second application changes nothing; values already in a sorted array change nothing (for unsorted ones see C80).", "quantifier": "every existing array and list of values", "why_tests_cant": "All arrays.", "anchors": ["src/config_editor.rs: add_to_array, toggle_std_import"]}
{"id": "C38", "title": "A fix offered for a failed build script changes the settings of its execution", "statement": "For every build script that failed in its sandbox, each offered fix, once applied and reloaded, changes the sandbox settings under which it is run again as announced (network allowed, or no sandbox) and changes nothing else. (For tests see C79.)", "quantifier": "every failing crate selector and configuration", "why_tests_cant": "Relates editor, loader and runner.", "anchors": ["src/config_editor.rs: fixes_for_problem (ExecutionFailed)", "src/proxy/subprocess.rs: proxy_binary"]}
{"id": "C39", "title": "Non-interactive runs succeed only without errors", "statement": "With the non-interactive interface and no automatic fixes, everybody who submitted problems is answered at the first turn of the interface after that: with GiveUp if anything submitted until then objects (it is not a warning, or it is a warning, --fail-on-warnings was given and there is no sub-command), with Continue otherwise. Every objecting problem is printed as an error together with all its places of use. The interface does not panic. (For the exit code see C94.)", "quantifier": "every interleaving of submissions (of any problems) and turns of the interface, every combination of flags", "why_tests_cant": "History of batches.", "anchors": ["src/ui/null_ui.rs: NullUi::run", "src/main.rs: Cackle::run, RequestHandler::handle_request", "src/problem.rs: Problem::severity"]}
{"id": "C40", "title": "Trimming a diff never hides a change", "statement": "Shortening a displayed diff removes only context lines, keeps the remaining lines in order and marks every removed run by `...` unless it ends the diff; it does nothing if the diff is short enough, leaves at most the requested number of lines unless no context is left, and removes no more than needed.", "quantifier": "every list of lines and every limit", "why_tests_cant": "The loop takes lines from the longest block again and again and the result is put together by offsets; the claim is about every arrangement of blocks.", "anchors": ["src/ui/full_term/problems_ui/diff.rs: remove_excess_context"]}
{"id": "C41", "title": "The summary reports each package's permissions faithfully", "statement": "The summary lists every package of the index once, ordered by name, with exactly the effective permissions of its own code and of its build script; the packages listed for a permission are exactly those that have it; and it counts the packages, those without any of these permissions, and the procedural macros with other permissions (the latter if no API has a name that looks like another permission, see C108).", "quantifier": "every configuration and index", "why_tests_cant": "Two selectors per package, any number of packages and permissions.", "anchors": ["src/summary.rs: Summary::new, Summary::print_by_permission, PackageSummary::is_proc_macro_with_other_permissions, Display for Summary"]}
{"id": "C42", "title": "References through anonymous sections are followed completely", "statement": "The symbols found for a relocation of a well-formed object file are exactly those it refers to: its own symbol if that is in the binary or defined elsewhere, else the first symbol of the section it lies in, else whatever the relocations of that section refer to, for any (also cyclic) graph of sections; the search ends, and fails only if it meets a target that is neither a symbol nor in a section of the file.", "quantifier": "every object file section graph", "why_tests_cant": "Graph reachability with cycles.", "anchors": ["src/symbol_graph.rs: ObjectIndex::new, ObjectIndex::add_target_symbols, get_symbol_or_section, BinInfo::load_symbols"]}
{"id": "C43", "title": "Reported possible exports are genuine, unique and complete", "statement": "Every possible export reported is a symbol of the binary whose module is named like an API, whose source file belongs to the package and whose crate is the package's; no pair of package and API is reported twice; and a pair is reported if such a symbol exists and all symbols that come from the package's files and lie in a module of that name belong to the package's crate.", "quantifier": "every list of symbols with debug information, every set of APIs, every assignment of files to packages", "why_tests_cant": "Symbols come in hash-map order and pairs already seen are skipped.", "anchors": ["src/symbol_graph.rs: find_possible_exports"]}
{"id": "C44", "title": "Backtraces are genuine call chains", "statement": "A backtrace shows, for each address of a chain, the functions there with all but the outermost marked as inlined. The chain starts at the location asked for, each of its locations is a recorded reference to the symbol that the one before lies in, no address repeats and it ends in a symbol nothing refers to. The search always ends; if such an end can be reached and each address belongs to one symbol, a chain is found, and it is no shorter than the shortest one to any end.", "quantifier": "every set of references, cyclic ones too, every location", "why_tests_cant": "Graph search with a shared set of visited addresses.", "anchors": ["src/symbol_graph/backtrace.rs: Backtracer::find_frames, Backtracer::backtrace, Backtracer::add_reference", "src/symbol_graph.rs: process_object_file_bytes"]}
{"id": "C45", "title": "Symbols get the names and places of their debug information", "statement": "The debug information recorded for a symbol is that of a function or variable whose linkage name (or name, if it has none) is the symbol: its line, column and file, the directory of its unit, and its name with the chain of namespaces and structures directly around it. Every symbol that is described in a unit outside the standard library gets some, and if its descriptions agree, exactly that.", "quantifier": "every binary, as trees of debug-info entries", "why_tests_cant": "Stack discipline over arbitrary trees.", "anchors": ["src/symbol_graph/dwarf.rs: DebugArtifacts::from_dwarf, DwarfScanner::scan, SymbolDebugInfoScanner::get_debug_info, UnitState::scan_namespace"]}
{"id": "C46", "title": "Every sandbox option that is configured reaches the sandbox", "statement": "A pass_env list set in an enclosing section or in [sandbox] applies to every package below it, like the other list options, and extra_args are handed to the sandbox in the order in which they were written.", "quantifier": "every raw configuration, every crate index, every selector", "why_tests_cant": "Tests compare kinds and single directories; the claim is about each option at every level and about list order.", "anchors": ["src/config/permissions.rs: SandboxConfig::inherit, merge_string_vec"]}
{"id": "C47", "title": "A requested import that does not exist is reported", "statement": "If a package section imports an API that the package's newest version does not export, loading the configuration reports it.", "quantifier": "every configuration, every set of exported definitions", "why_tests_cant": "Misspellings are exactly the inputs a test does not list.", "anchors": ["src/config.rs: RawConfig::load_imports"]}
{"id": "C48", "title": "Entries deleted from the configuration are no longer reported as unused", "statement": "After the configuration has been edited and reloaded, the unused-permission report mentions only permissions that the configuration still grants.", "quantifier": "every sequence of configurations and usages", "why_tests_cant": "A property of sequences of reloads.", "anchors": ["src/checker.rs: update_config, check_unused"]}
{"id": "C49", "title": "Every linker invocation of a crate is scanned, also if the crate links several times", "statement": "When all completions have been answered without problems, every recorded linker invocation has itself been scanned, also when one package has several binaries.", "quantifier": "every finite interleaving of linker-invoked / rustc-complete requests", "why_tests_cant": "Needs a package with two binaries, a fix in between, and a particular queue order.", "anchors": ["src/checker.rs: handle_request, get_link_info, check_object_paths", "src/main.rs: RequestHandler::handle_request"]}
{"id": "C50", "title": "Reloading the configuration takes revoked permissions away", "statement": "After a configuration is replaced by one that no longer grants an API to a package and reloaded, uses of the API by the package are reported.", "quantifier": "every sequence of configurations loaded by one run", "why_tests_cant": "A property of sequences of reloads.", "anchors": ["src/checker.rs: load_config, update_config, api_used"]}
{"id": "C51", "title": "Replacing an open problem by any list of follow-up problems never crashes", "statement": "Replacing an open problem by any list of follow-up problems terminates normally, in particular if one of them is the same problem with fewer usages.", "quantifier": "every store state and every replacement list", "why_tests_cant": "Needs a particular relation between the replaced problem and its replacement.", "anchors": ["src/problem_store.rs: replace, add_problem"]}
{"id": "C52", "title": "Every line that cargo takes for a directive is checked", "statement": "Each line of a build script's output that cargo interprets as an instruction, and that needs a permission the package does not have, is reported.", "quantifier": "every output of a build script", "why_tests_cant": "An adversarial build script chooses the output; tests use well-formed lines.", "anchors": ["src/build_script_checker.rs: BuildScriptReport::build"]}
{"id": "C53", "title": "Every variable a build script can set is recorded, whichever spelling of the instruction it uses", "statement": "A variable set by a permitted instruction that cargo accepts, in either the cargo:KEY or the cargo::KEY form, is among the recorded variable names.", "quantifier": "every output of a build script", "why_tests_cant": "Tests use one spelling.", "anchors": ["src/build_script_checker.rs: BuildScriptReport::build"]}
{"id": "C54", "title": "Demangling terminates on every symbol", "statement": "Iterating over the parts of any symbol name ends.", "quantifier": "every symbol name, including ones chosen with #[export_name]", "why_tests_cant": "Adversarial inputs.", "anchors": ["src/demangle.rs: DemangleIterator::next"]}
{"id": "C55", "title": "Demangling does not panic on symbols outside ASCII", "statement": "For every symbol name that is valid UTF-8, demangling reports data or stops without panicking.", "quantifier": "every UTF-8 symbol name", "why_tests_cant": "Needs a multi-byte character exactly at a place where the text is cut.", "anchors": ["src/demangle.rs: DemangleIterator::next, parse_decimal"]}
{"id": "C56", "title": "Demangling keeps identifiers that start with an underscore", "statement": "For every path of identifiers, demangling its legacy mangling yields the identifiers unchanged, also those that start with an underscore.", "quantifier": "every list of identifiers", "why_tests_cant": "Round trip for all inputs.", "anchors": ["src/demangle.rs: DemangleIterator::next"]}
{"id": "C57", "title": "Demangling of identifiers outside ASCII in v0 symbols", "statement": "For every path of identifiers some of which are Punycode-encoded, demangling its v0 mangling yields one text per identifier.", "quantifier": "every list of identifiers", "why_tests_cant": "Round trip for all inputs.", "anchors": ["src/demangle.rs: DemangleIterator::next"]}
{"id": "C58", "title": "Demangling of closures in v0 symbols", "statement": "Demangling the v0 mangling of a closure inside an item yields at least the path of the item.", "quantifier": "every path", "why_tests_cant": "Round trip for all inputs.", "anchors": ["src/demangle.rs: DemangleIterator::next"]}
{"id": "C59", "title": "Paths in the generic arguments of a trait start a name", "statement": "Each path written in a symbol, also one in the generic arguments of the trait in `<A as B<C>>::c`, is the start of some extracted name, so that API prefixes match it.", "quantifier": "every token stream without bad escapes", "why_tests_cant": "Depends on arbitrary nesting; tests compare a few symbols.", "anchors": ["src/names.rs: NamesIteratorPos::next"]}
{"id": "C60", "title": "No path is lost in nested qualified paths", "statement": "Each text of a symbol that counts is part of some extracted name, also with a qualified path inside the generic arguments of a trait.", "quantifier": "every token stream without bad escapes", "why_tests_cant": "Depends on arbitrary nesting; tests compare a few symbols.", "anchors": ["src/names.rs: NamesIteratorPos::next"]}
{"id": "C61", "title": "Generic arguments and traits in v0 symbols start a name", "statement": "The paths in the generic arguments of a v0 symbol, and the trait of a v0 symbol for a trait method, start names of their own.", "quantifier": "every v0 symbol", "why_tests_cant": "Depends on arbitrary nesting; tests compare a few symbols.", "anchors": ["src/names.rs: NamesIteratorPos::next", "src/demangle.rs: DemangleIterator::next"]}
{"id": "C62", "title": "A use of unsafe or extern as the last token of a file is reported", "statement": "An `unsafe` or `extern` token at the very end of a source file is reported like any other.", "quantifier": "every source file", "why_tests_cant": "Depends on the parity of the number of tokens.", "anchors": ["src/unsafe_checker.rs: scan_string", "src/extern_checker.rs: scan_string"]}
{"id": "C63", "title": "No source file escapes the scan because of its name", "statement": "Every source file that rustc lists in the dependency file is scanned for unsafe and extern, whatever characters its name has.", "quantifier": "every source path", "why_tests_cant": "Depends on unusual file names.", "anchors": ["src/deps.rs: parse_deps, unescape_makefile_path, source_files_from_rustc_args"]}
{"id": "C64", "title": "Sources are scanned whenever rustc writes dependency information", "statement": "If any --emit option of a rustc call asks for dep-info, the listed sources are scanned, also if further --emit options (for instance from RUSTFLAGS) follow.", "quantifier": "every argument list", "why_tests_cant": "Combination of repeated options.", "anchors": ["src/deps.rs: deps_path_from_rustc_args"]}
{"id": "C65", "title": "What is recorded of a linker call", "statement": "The objects recorded for a linker call are exactly the arguments after the program name that name a .rlib or .o file, in order; the output is the argument after the first -o, and a call without one is an error; it counts as a library exactly if -shared is given. The objects scanned are exactly the recorded ones that resolve to a path in the target directory.", "quantifier": "every argument list, every directory tree", "why_tests_cant": "All argument orders and file names.", "anchors": ["src/link_info.rs: LinkInfo::from_env, object_paths_under, get_output_file, get_is_shared, has_supported_extension"]}
{"id": "C66", "title": "Two writers of one configuration file", "statement": "If two processes or threads write the same configuration file, or two files in one directory whose names differ only in the extension, each file has at every moment its old content or the complete content written to it by one of them.", "quantifier": "every interleaving of two writers", "why_tests_cant": "Needs particular schedules.", "anchors": ["src/fs.rs: write_atomic"]}
{"id": "C67", "title": "Atomic writes for every file name", "statement": "A write is atomic whatever the name of the destination, also if its extension is tmp.", "quantifier": "every path", "why_tests_cant": "Unusual file names.", "anchors": ["src/fs.rs: write_atomic"]}
{"id": "C68", "title": "Only build scripts are treated as build scripts", "statement": "A crate gets the permissions and the handling of a build script only if it is one, and the compiler wrapper and the linker wrapper agree on the kind of every crate.", "quantifier": "every crate name and compiler command line", "why_tests_cant": "Needs crates with unusual names.", "anchors": ["src/crate_index.rs: CrateSel::from_env", "src/proxy/subprocess.rs: proxy_rustc"]}
{"id": "C69", "title": "A failure to find the dependency tree is reported", "statement": "If cargo tree fails, the run reports an error instead of going on with an incomplete tree.", "quantifier": "every outcome of cargo tree", "why_tests_cant": "Needs failures of another program.", "anchors": ["src/crate_index/lib_tree.rs: LibTreeBuilder::build"]}
{"id": "C70", "title": "The sandbox does not pass registry credentials", "statement": "The token with which cargo authenticates to a registry (CARGO_REGISTRY_TOKEN) is not visible to a sandboxed build script unless pass_env names it. (Refuted: every variable that begins with CARGO is passed.)", "quantifier": "every environment, every sandbox configuration", "why_tests_cant": "Quantifies over all environments; the whitelist works by prefix.", "anchors": ["src/sandbox.rs: is_cargo_env, pass_cargo_env"]}
{"id": "C71", "title": "A directory the configuration makes writable is writable in the sandbox", "statement": "Every directory in bind_writable or make_writable that is not a system directory of the sandbox is the host's directory, writable, inside the sandbox. (Refuted: below /run without network it is hidden by a later tmpfs; below the executed test's build directory, and for rustc in the workspace, it is covered by a later read-only mount.)", "quantifier": "every configuration, program and directory", "why_tests_cant": "Order-sensitive overlay of mounts; must hold for every path.", "anchors": ["src/sandbox.rs: from_config, for_rustc, for_perm_sel"]}
{"id": "C72", "title": "The variables cargo documents for build scripts reach sandboxed build scripts", "statement": "Every variable that cargo sets for build scripts has the same value inside the sandbox. (Refuted: RUSTDOC is not passed.)", "quantifier": "every environment, every sandbox configuration", "why_tests_cant": "Quantifies over all environments.", "anchors": ["src/sandbox.rs: is_cargo_env, pass_cargo_env"]}
{"id": "C73", "title": "A wrapper is told to continue only when nothing is left to object to", "statement": "The main process answers `continue` only if its last check, under the configuration then loaded, found no problem, or found only problems of the kind that the wrapper checks again by itself after the user accepted fixes (failed execution, unsafe, extern); all earlier checks ended with accepted fixes and a reload. It answers `give up` only if the user declined or an error occurred.", "quantifier": "every sequence of check results, user decisions and reload results", "why_tests_cant": "A loop driven by another thread.", "anchors": ["src/main.rs: RequestHandler::handle_request", "src/proxy.rs: process_request", "src/problem.rs: should_send_retry_to_subprocess"]}
{"id": "C74", "title": "A program run without a sandbox gets the arguments it was called with", "statement": "If no sandbox is configured, a wrapped binary is run with exactly the arguments that cargo gave to the wrapper. (Refuted: the arguments are passed twice.)", "quantifier": "every program and argument list", "why_tests_cant": "Quantifies over all argument lists.", "anchors": ["src/proxy/subprocess.rs: proxy_binary"]}
{"id": "C75", "title": "A build script run without a sandbox cannot give cargo instructions that are not permitted", "statement": "If no sandbox is configured for a build script, an instruction in its output that the configuration does not permit does not reach cargo. (Refuted: the output is passed on without a check.)", "quantifier": "every configuration and output", "why_tests_cant": "Two code paths, of which only one has a check.", "anchors": ["src/proxy/subprocess.rs: proxy_binary", "src/checker.rs: handle_request"]}
{"id": "C76", "title": "Removing --error-format leaves nothing of it behind", "statement": "If rustc is called with `--error-format X` in two arguments, the wrapped rustc is called without that option and its value. (Refuted: the value stays and is taken for a source file.)", "quantifier": "every argument list", "why_tests_cant": "Quantifies over all argument lists.", "anchors": ["src/proxy/subprocess.rs: RustcRunner::get_command"]}
{"id": "C77", "title": "The linker asked for is used whichever way it is written", "statement": "If rustc is called with `-Clinker=X`, which it accepts as well as `-C linker=X`, then X is the linker that is run. (Refuted: cc is run.)", "quantifier": "every argument list", "why_tests_cant": "Quantifies over all argument lists.", "anchors": ["src/proxy/subprocess.rs: RustcRunner::get_command, invoke_real_linker"]}
{"id": "C78", "title": "Unsafe code is reported only for crates that lack the permission", "statement": "If unsafe is permitted for a crate throughout, the wrapper never reports that it uses unsafe. (Refuted: a crate that breaks its own `forbid(unsafe_code)` is reported, and instead of rustc's errors the user sees a missing permission.)", "quantifier": "every configuration, every output of rustc", "why_tests_cant": "Depends on the text of rustc's messages.", "anchors": ["src/proxy/subprocess.rs: RustcRunner::run", "src/proxy/errors.rs", "src/checker.rs: crate_uses_unsafe"]}
{"id": "C79", "title": "A fix offered for a failed test changes the settings of that test", "statement": "After a test failed in its sandbox, each offered fix, once applied and reloaded, changes the sandbox settings under which the test is run again. (Refuted: the fixes edit the settings of the package's build script.)", "quantifier": "every failing test and configuration", "why_tests_cant": "Relates editor, loader and runner.", "anchors": ["src/config_editor.rs: fixes_for_problem (ExecutionFailed)", "src/proxy/subprocess.rs: proxy_binary"]}
{"id": "C80", "title": "Allowing an API that is already allowed changes nothing", "statement": "Adding a value to a list of the configuration that already has it leaves the file as it is. (Refuted for a list that is not in order: the value is added again, and for a list of allowed APIs the file becomes invalid.)", "quantifier": "every list and value", "why_tests_cant": "All lists.", "anchors": ["src/config_editor.rs: add_to_array", "src/config_validation.rs"]}
{"id": "C81", "title": "Fixes for unsafe, extern, procedural macros and build instructions lift exactly that restriction", "statement": "Applying the fix offered for a use of unsafe, of extern (configuration version 3), for a procedural macro or for a build instruction and reloading gives a valid configuration in which the use is permitted, and changes no other permission of any package; a reported build instruction is not reported again for the same output and nothing new is.", "quantifier": "every configuration document, package, crate and instruction", "why_tests_cant": "Editor, loader, inheritance and checks together, for every document.", "anchors": ["src/config_editor.rs: fixes_for_problem, AllowUnsafe, AllowExtern, AllowProcMacro, AllowBuildInstruction", "src/config/permissions.rs: unsafe_permitted_for_crate, extern_permitted_for_crate", "src/build_script_checker.rs"]}
{"id": "C82", "title": "The fix offered for extern works in every configuration version", "statement": "Applying the fix offered for a disallowed extern usage and reloading makes the usage permitted. (Refuted up to configuration version 2, where allow_unsafe governs extern: the fix sets allow_extern, and the same problem is reported again.)", "quantifier": "every supported version", "why_tests_cant": "Depends on the version of the file.", "anchors": ["src/config_editor.rs: AllowExtern", "src/config/permissions.rs: extern_permitted_for_crate"]}
{"id": "C83", "title": "Every offered fix can be applied", "statement": "A fix that is offered for a loaded configuration can be applied to its file. (Refuted: if the settings of a package are written as an inline table, every fix that concerns the package fails.)", "quantifier": "every configuration file and problem", "why_tests_cant": "All ways to write the same configuration.", "anchors": ["src/config_editor.rs: table, pkg_table"]}
{"id": "C84", "title": "Edits apply to every file without inline tables", "statement": "To a file that can be decoded and has no inline tables every edit can be applied, except the selection of a sandbox that does not work on this machine and the inlining of a built-in API that does not exist.", "quantifier": "every document without inline tables and every edit", "why_tests_cant": "All documents.", "anchors": ["src/config_editor.rs"]}
{"id": "C85", "title": "Fixes that change the definition of an API work for imported APIs", "statement": "After a fix that includes or excludes paths of an API the configuration can still be loaded. (Refuted for an API that was imported from a package: the fix creates a second definition in the file and loading fails.)", "quantifier": "every API that a fix can name", "why_tests_cant": "Interaction of editing and importing.", "anchors": ["src/config_editor.rs: ExtendApi, ExcludeFromApi", "src/config.rs: load_imports"]}
{"id": "C86", "title": "Removing unused settings removes only those", "statement": "Removing unused allowed APIs of a section and reloading gives a valid configuration; the section's list has none of them, nothing is granted that was not granted, no other API is lost, and nothing else changes. Removing the section of a package or scope that does not exist changes no permission of any package or scope that does.", "quantifier": "every configuration document, section and list of APIs", "why_tests_cant": "Inheritance: what is removed in one section may still be granted by another.", "anchors": ["src/config_editor.rs: RemoveUnusedAllowApis, RemoveUnusedPkgConfig"]}
{"id": "C87", "title": "Importing, inlining or ignoring exported APIs does what it says, once", "statement": "Importing an API that is offered by the newest version of a package defines it as that package does and changes nothing else; inlining merges the definition into the API of that name; ignoring changes nothing. After each of them nothing of that package is offered again, and after importing or ignoring everything else is offered as before.", "quantifier": "every configuration document, index and exported definition", "why_tests_cant": "Editing, importing and what is offered, for every document.", "anchors": ["src/config_editor.rs: ImportApi, InlineApi, IgnoreApi", "src/config.rs: load_imports, unused_imports"]}
{"id": "C88", "title": "Importing and inlining a built-in API give the same definition", "statement": "For a built-in API that is not yet imported, adding it to the list of imports and copying its definition into the file give valid configurations in which that API includes and excludes exactly what it did before and what the built-in definition says, and nothing else changes.", "quantifier": "every configuration document and built-in API", "why_tests_cant": "All documents.", "anchors": ["src/config_editor.rs: ImportStdApi, InlineStdApi", "src/config.rs: parse_raw"]}
{"id": "C89", "title": "Importing an offered API defines it", "statement": "After importing an API that was offered the API is defined. (Refuted: an API that only an older version of a package exports is offered, but the newest version is imported from; nothing is defined and the API is not offered again.)", "quantifier": "every index and exported definitions", "why_tests_cant": "Several versions of one package.", "anchors": ["src/config.rs: load_imports, unused_imports", "src/config_editor.rs: ImportApi"]}
{"id": "C90", "title": "Including, excluding and ignoring paths change exactly that definition", "statement": "For an API whose definition does not come from another package, the edits that include a path, exclude a path or ignore a package, once applied and reloaded, add exactly that to the API's definition and change nothing else.", "quantifier": "every configuration document, API and path", "why_tests_cant": "All documents, including those that import the API from the built-in definitions.", "anchors": ["src/config_editor.rs: ExtendApi, ExcludeFromApi, NoDetectApi"]}
{"id": "C91", "title": "No key of the configuration is silently ignored", "statement": "A configuration file that loads has only keys that are documented, each in its documented place: a misspelt permission or sandbox setting, or one in the wrong section, is an error and never has no effect.", "quantifier": "every configuration document", "why_tests_cant": "All keys at all depths, including inline tables and nested sections.", "anchors": ["src/config.rs: RawConfig, CommonConfig, SandboxConfig, ApiConfig, PackageConfig, FromConfig", "src/config/permissions.rs: Permissions::from_config"]}
{"id": "C92", "title": "Settings are read from where they are documented", "statement": "After reading a configuration file, every permission of every package section, every API definition, both top-level sandboxes and the common settings are exactly what the file says in the documented place, with the documented defaults for whatever is absent; a section exists exactly when the file has it.", "quantifier": "every configuration document, package and scope", "why_tests_cant": "All documents; a swapped pair of fields or a wrong default is only noticed with the right file.", "anchors": ["src/config.rs: RawConfig, parse_raw", "src/config/permissions.rs: Permissions"]}
{"id": "C93", "title": "Automatic fixes are applied in order and saved once", "statement": "A turn of the non-interactive interface with automatic fixes applies the first fix of every open problem that has one, in the order of the problems; if all of them can be applied and the file can be written it is written exactly once, with exactly these edits, all these problems are resolved, and then the run is aborted if a problem without a fix objects (cf. C39), otherwise the remaining problems are resolved too. If an edit or the write fails, nothing is written and the interface ends with an error.", "quantifier": "every reachable set of open problems, every configuration file, every set of fixes and edits", "why_tests_cant": "The loop resolves problems while it walks the list of problems, so the claim is about every list with any mixture of fixable and unfixable problems and clients.", "anchors": ["src/ui/null_ui.rs: NullUi::run, NullUi::accept_all_single_edits", "src/problem_store.rs: ProblemStoreIterator::resolve, ProblemStore::abort"]}
{"id": "C94", "title": "The exit code is success only if nothing was given up", "statement": "The process exits with success only if the user interface ended without an error, no client was ever told to give up, the configuration could be created, loaded and reloaded, cargo ran and succeeded and, without a sub-command, the check for unused permissions was done and did not give up. The build is started only if the creation of the configuration, the first check and the decisions about imports were not given up.", "quantifier": "every combination of results of the stages of a run, every history of the problem store", "why_tests_cant": "Success is decided at five places of a procedure that returns early in most of them; the claim is over all combinations.", "anchors": ["src/main.rs: Cackle::run_and_report_errors, Cackle::run, main", "src/proxy.rs: invoke_cargo_build"]}
{"id": "C95", "title": "A successful run has analysed a build from scratch", "statement": "If the process exits with success and no sub-command was given, then cargo clean, which is what makes cargo rebuild (and so makes every crate be checked), succeeded.", "quantifier": "every combination of results of the stages of a run", "why_tests_cant": "A failing cargo clean is not something the tests produce.", "anchors": ["src/proxy.rs: clean", "src/main.rs: Cackle::run"]}
{"id": "C96", "title": "A request is answered after one check when it has to fail", "statement": "In a non-interactive run without automatic fixes, a request whose check finds a problem that is not a warning is answered GiveUp after that check, and with --fail-on-warnings and no sub-command every request is answered after one check.", "quantifier": "every state of the checker, every scan result", "why_tests_cant": "The handler is a loop around checker and interface.", "anchors": ["src/main.rs: RequestHandler::handle_request", "src/ui/null_ui.rs: NullUi::run"]}
{"id": "C97", "title": "Warnings do not keep a non-interactive run from ending", "statement": "In a non-interactive run without automatic fixes, a request whose check finds only warnings is answered after finitely many checks.", "quantifier": "every state of the checker, every scan result", "why_tests_cant": "A run that does not end is not visible to a unit test of either component: it needs the loop in the handler together with the answer of the interface.", "anchors": ["src/main.rs: RequestHandler::handle_request", "src/ui/null_ui.rs: NullUi::run", "src/problem.rs: Problem::severity", "src/checker.rs: Checker::possible_exported_api_problems"]}
{"id": "C98", "title": "With automatic fixes everybody is answered", "statement": "With automatic fixes, everybody who submits problems is eventually told to continue or to give up.", "quantifier": "every configuration file, every batch of problems", "why_tests_cant": "A client that waits for ever shows only with two threads and a configuration file that the editor cannot edit.", "anchors": ["src/ui/null_ui.rs: NullUi::run, NullUi::accept_all_single_edits", "src/main.rs: Cackle::run", "src/problem_store.rs: ProblemStoreRef::fix_problems"]}
{"id": "C99", "title": "A client continues only once its fix has been saved", "statement": "With automatic fixes, a client that is told to continue because its problem was fixed can reload a configuration file that contains the fix.", "quantifier": "every configuration file, every batch of problems", "why_tests_cant": "It is a race between the interface's thread, which writes the file, and the client's, which reads it.", "anchors": ["src/ui/null_ui.rs: NullUi::accept_all_single_edits", "src/main.rs: RequestHandler::handle_request"]}
{"id": "C100", "title": "Closing the input ends the basic interface", "statement": "If the input of the basic interface ends while a problem is open, the interface gives up.", "quantifier": "every set of open problems", "why_tests_cant": "A test would not end.", "anchors": ["src/ui/basic_term.rs: BasicTermUi::run, BasicTermUi::get_action"]}
{"id": "C101", "title": "The displayed diff shows every change with its surroundings", "statement": "The full-screen interface shows of a diff, in order, every added and removed line, what follows a change up to the next section header, and what precedes a change from its section header on (the header itself unless it ended what was shown for the section before, see C102); nothing else.", "quantifier": "every edit script", "why_tests_cant": "An exact description of a loop with three variables for all scripts.", "anchors": ["src/ui/full_term/problems_ui/diff.rs: diff_lines"]}
{"id": "C102", "title": "A change is shown below the header of its section", "statement": "Whenever the displayed diff shows a change that is inside a section, it shows the header of this section, too.", "quantifier": "every edit script", "why_tests_cant": "The unit test changes a single section.", "anchors": ["src/ui/full_term/problems_ui/diff.rs: diff_lines"]}
{"id": "C103", "title": "The basic interface shows two lines of context", "statement": "The basic interface shows of a diff, in order, exactly the added and removed lines and the common lines at a distance of at most two from one of these.", "quantifier": "every edit script", "why_tests_cant": "An exact description of a loop for all scripts; the function prints and has no test.", "anchors": ["src/ui/basic_term.rs: show_diff"]}
{"id": "C104", "title": "The JSON summary has the packages by permission", "statement": "If the packages by permission are wanted, the JSON output contains them, under a name of their own.", "quantifier": "every configuration, index and set of options", "why_tests_cant": "It depends on the combination of options.", "anchors": ["src/summary.rs: Summary::print, Summary::json_print_by_permission, Summary::json_print_impure_proc_macros"]}
{"id": "C105", "title": "The JSON summary has the counts", "statement": "If the counts are wanted, the JSON output contains them.", "quantifier": "every configuration, index and set of options", "why_tests_cant": "No test looks at the JSON output.", "anchors": ["src/summary.rs: Summary::json_print_count"]}
{"id": "C106", "title": "A package counted as having no special permissions has none", "statement": "No permission is granted, in any section of the configuration, to a package that the summary counts among those without special permissions.", "quantifier": "every configuration and index", "why_tests_cant": "Permissions can be granted in five sections of a package.", "anchors": ["src/summary.rs: Summary::new, Display for Summary"]}
{"id": "C107", "title": "The options of the summary select the sections", "statement": "A section of the summary is printed if it is selected, if everything is selected, or if nothing is; headers are printed if asked for or if there is more than one section. The JSON output contains the permissions by package, and the procedural macros with other permissions, if these are wanted.", "quantifier": "every combination of options, every summary", "why_tests_cant": "All combinations of options.", "anchors": ["src/summary.rs: SummaryOptions::with_defaults, SummaryOptions::num_selected, Summary::print"]}
{"id": "C108", "title": "Procedural macros with other permissions are called out", "statement": "A package is called out as a procedural macro with other permissions if and only if it may be a procedural macro and has another permission for its own code.", "quantifier": "every configuration and index, whatever the names of the APIs", "why_tests_cant": "The code compares prefixes and suffixes of the displayed permissions; API names are free.", "anchors": ["src/summary.rs: PackageSummary::is_proc_macro_with_other_permissions"]}
{"id": "C109", "title": "A package is charged with exactly the APIs its code refers to", "statement": "A package is charged with an API if and only if there is a reference to something that the API classifies (by a name in the debug information or, where a symbol has names the debug information lacks, by the symbol's name), in a source file of the package, that is not named after the package and not made by a function to which the same API already applies; nothing is lost or added when uses are grouped. It fails only if a name cannot be read, a place is unknown or a file has no package. Each symbol is assumed to have one debug name (C111 shows that references of object files do).", "quantifier": "every list of references, every classification, every assignment of files to packages", "why_tests_cant": "Four nested loops, a cache of symbols without APIs and a grouping step; the claim is about arbitrary binaries.", "anchors": ["src/symbol_graph.rs: process_reference, names_and_apis_do, emit_shortest_api_usages"]}
{"id": "C110", "title": "Every place where an API is used is reported once, by its shortest name", "statement": "For each package, API, using function and source position with a use there is exactly one reported use, whose target has the shortest name; every reported use is genuine: its position, user, target, address and enclosing function are those of one reference, and its scope is that of the binary being checked (build script or test, if the package is the one it was built for).", "quantifier": "every list of references, every classification, every assignment of files to packages", "why_tests_cant": "Grouping by a four-part key of arbitrarily many uses.", "anchors": ["src/symbol_graph.rs: emit_shortest_api_usages, process_reference, ApiUsage::group_key"]}
{"id": "C111", "title": "Every relocation of linked code with debug information is examined", "statement": "The references of an object file are exactly those of the relocations in sections that hold data, whose first symbol is in the binary and has debug information: one for each symbol the relocation refers to (C42), with the position and function that the debug information gives for its address in the binary, or those of the first symbol if it gives none. In such references a symbol always has the same debug name.", "quantifier": "every object file, every symbol table and debug information", "why_tests_cant": "Addresses, inlined frames and targets are combined for each relocation of each section.", "anchors": ["src/symbol_graph.rs: process_object_file_bytes, ObjectIndex::first_symbol, get_symbol_and_name"]}
{"id": "C112", "title": "A binary is accepted only if all it uses is permitted", "statement": "If the check of a linked binary ends without a problem, then for every reference of the binary that charges a package with an API (under the APIs and source files known at the time), the API is granted to the package for the binary's scope, or at the same place there is an excused use with a name no longer than that of the use.", "quantifier": "every sequence of configuration loads, builds and answers, every binary", "why_tests_cant": "From references to permissions through grouping, caching and re-checking over whole runs.", "anchors": ["src/symbol_graph.rs: scan_objects, problems", "src/checker.rs: api_used, verify_build_script_permissions, check_object_paths"]}
{"id": "C113", "title": "An excused use does not hide others", "statement": "If the check of a binary ends without a problem, every use of an API is granted or is itself excused.", "quantifier": "every binary", "why_tests_cant": "Needs two uses at one source position with different excuses.", "anchors": ["src/symbol_graph.rs: emit_shortest_api_usages", "src/checker.rs: api_used"]}
{"id": "C114", "title": "A package's uses of an API do not depend on how its functions are named", "statement": "A package is charged with an API if one of its functions refers to an item of the API, whatever the function's own name and type arguments.", "quantifier": "every reference", "why_tests_cant": "Monomorphised names are chosen by the users of generic functions.", "anchors": ["src/symbol_graph.rs: process_reference"]}
{"id": "C115", "title": "A package is not charged with its own items", "statement": "A reference of a package to an item of the same package charges it with nothing, whatever the package's name.", "quantifier": "every package name, every reference", "why_tests_cant": "Depends on how package names relate to crate names.", "anchors": ["src/symbol_graph.rs: process_reference"]}
{"id": "C116", "title": "Charges do not depend on the order of references", "statement": "The packages charged with an API are the same for every order of the references, also if the debug information has several names for a symbol.", "quantifier": "every list of references and its permutations", "why_tests_cant": "Order dependence through a cache.", "anchors": ["src/symbol_graph.rs: names_and_apis_do (symbol_has_no_apis)"]}
{"id": "C117", "title": "All linked code is examined", "statement": "If code in the binary refers to a symbol of the binary, there is a reference for it, whether or not the code has debug information.", "quantifier": "every object file", "why_tests_cant": "Needs code without debug information, such as assembly.", "anchors": ["src/symbol_graph.rs: process_object_file_bytes"]}
{"id": "C118", "title": "Uses through function-call shims are followed in all object files", "statement": "If a function refers to a shim of core::ops::function and this refers to a symbol, the symbol counts as referred to by that function, also if the shim was compiled into another object file.", "quantifier": "every list of object files", "why_tests_cant": "Depends on how the compiler distributes functions over object files.", "anchors": ["src/symbol_graph.rs: ObjectIndex::add_target_symbols, Symbol::is_look_through"]}
{"id": "C119", "title": "Whether an export is found does not depend on the order of symbols", "statement": "The pairs of package and API reported as possibly exported are the same for every order in which the symbols are visited.", "quantifier": "every list of symbols and its permutations", "why_tests_cant": "The order is that of a hash map and varies between runs.", "anchors": ["src/symbol_graph.rs: find_possible_exports"]}
{"id": "C120", "title": "Every use has a backtrace", "statement": "A backtrace has at least the frame of the location asked for.", "quantifier": "every set of references, every location", "why_tests_cant": "Needs recursion without a caller outside.", "anchors": ["src/symbol_graph/backtrace.rs: Backtracer::find_frames"]}
{"id": "C121", "title": "The longest backtrace is shown", "statement": "Of all chains from the location asked for to a symbol without callers, a longest one is shown.", "quantifier": "every set of references, every location", "why_tests_cant": "Needs two chains that share a location.", "anchors": ["src/symbol_graph/backtrace.rs: Backtracer::find_frames"]}
{"id": "C122", "title": "Recorded inlined calls are those in the debug information", "statement": "If references stay in their unit, the recorded inlined calls are exactly those of the entries for code that have a name (their own or, through any chain of declarations, that of the function they are an instance of), an address other than 0 and 1, and a named function around. The caller is the nearest such function that is no shim of core::ops::function; the place of the call is that of the call of the outermost shim passed on the way.", "quantifier": "every binary, as trees of debug-info entries", "why_tests_cant": "Trees, references and shims combine in arbitrary ways.", "anchors": ["src/symbol_graph/dwarf.rs: InlinedFunctionScanner::handle_attribute, InlinedFunctionScanner::get_inlined_function, UnitState::get_symbol_and_name, DwarfScanner::unit_containing, get_subprogram_namespaces"]}
{"id": "C123", "title": "Readable debug information is accepted", "statement": "If names are text, files are known, references lead to a function in their unit after at most ten declarations and the demangler copes with the symbols, then reading the debug information does not fail.", "quantifier": "every binary, as trees of debug-info entries", "why_tests_cant": "Every entry of every binary.", "anchors": ["src/symbol_graph/dwarf.rs: DebugArtifacts::from_dwarf"]}
{"id": "C124", "title": "No inlined function is overlooked", "statement": "An inlined function whose code starts at some address, given as such or by a list of address ranges, is recorded.", "quantifier": "every binary, as trees of debug-info entries", "why_tests_cant": "Needs an inlined function whose code is in several pieces.", "anchors": ["src/symbol_graph/dwarf.rs: InlinedFunctionScanner::get_inlined_function"]}
{"id": "C125", "title": "Functions of other units get their names", "statement": "A call of an inlined function that is described in another unit is recorded with the namespace the function has there.", "quantifier": "every binary, as trees of debug-info entries", "why_tests_cant": "Needs references between units.", "anchors": ["src/symbol_graph/dwarf.rs: UnitState::get_symbol_and_name_in_unit"]}
{"id": "C126", "title": "Names include all types around a function", "statement": "The recorded name of a function has the names of the namespaces and types around it, also of enumerations and unions.", "quantifier": "every binary, as trees of debug-info entries", "why_tests_cant": "Needs a method of such a type.", "anchors": ["src/symbol_graph/dwarf.rs: DwarfScanner::scan, get_subprogram_namespaces"]}
{"id": "C127", "title": "Inlined calls belong to the function around them", "statement": "The start address recorded with an inlined call is that of the function that contains it.", "quantifier": "every binary, as trees of debug-info entries", "why_tests_cant": "Nesting of arbitrary depth.", "anchors": ["src/symbol_graph/dwarf.rs: InlinedFunctionScanner::start_top_level, InlinedFunctionScanner::handle_attribute"]}
{"id": "C128", "title": "Local variables do not describe symbols", "statement": "The debug information of a function's symbol is not that of a variable inside some function.", "quantifier": "every binary, as trees of debug-info entries", "why_tests_cant": "Needs a local variable with the name of an exported function elsewhere.", "anchors": ["src/symbol_graph/dwarf.rs: SymbolDebugInfoScanner::get_debug_info"]}
{"id": "C129", "title": "Calls inlined into methods are recorded", "statement": "A call inlined into a function whose names are given by its declaration is recorded as a call from that function.", "quantifier": "every binary, as trees of debug-info entries", "why_tests_cant": "Needs a method that is declared in its type and defined outside.", "anchors": ["src/symbol_graph/dwarf.rs: InlinedFunctionScanner::handle_attribute"]}
{"id": "C130", "title": "Only the standard library's units are skipped", "statement": "The debug information of a unit whose directory is neither in the sysroot nor below /rustc is read.", "quantifier": "every binary, every sysroot", "why_tests_cant": "Needs a project in a particular directory.", "anchors": ["src/checker.rs: Checker::is_in_rust_std", "src/symbol_graph/dwarf.rs: DwarfScanner::scan"]}
{"id": "C131", "title": "The previewed change is the change that is made", "statement": "If nothing changed since the screen was drawn (no new problems, no reload, no foreign change of the file), then a key that changes the configuration file outside of the auto-accept prompt is Enter, space or 'f', it is pressed while a fix is selected, exactly the previewed text is written, this is the highlighted fix with the current comment applied to the file, and the selected problem is closed. Conversely, if a diff is previewed and the file can be written, each of these keys writes exactly the previewed text and shows no error.", "quantifier": "every sequence of keys, submissions, reloads, foreign changes of the file and timings, every configuration file", "why_tests_cant": "Which fix is applied depends on the stack of modes, four cursors, the configuration as loaded and the file as it is at that moment; tests render single screens.", "anchors": ["src/ui/full_term/problems_ui.rs: handle_key, apply_selected_edit, render_edit_help_and_diff", "src/ui/full_term.rs: run"]}
{"id": "C132", "title": "Nothing is written unasked", "statement": "The interface changes the configuration file only when a fix is confirmed by a key while fixes are listed and no error is shown, or after somebody has pressed Enter at the prompt that asks whether to accept all fixes without alternatives.", "quantifier": "every run of the interface", "why_tests_cant": "A statement about all histories of keys and submissions.", "anchors": ["src/ui/full_term/problems_ui.rs: handle_key, problems_added, accept_all_single_edits"]}
{"id": "C133", "title": "A confirmed fix is applied completely or not at all", "statement": "If confirming a fix does not write the file, an error is shown and nothing else has changed: no problem is closed, the selection and the file are as before. If it writes the file, then of the open problems exactly those remain open that are not the selected one and for which no fix would leave the new file unchanged (ignoring the fixes that never change anything).", "quantifier": "every run, every problem but the missing configuration file", "why_tests_cant": "Needs files in which fixes fail, and other problems that the same fix solves.", "anchors": ["src/ui/full_term/problems_ui.rs: apply_selected_edit", "src/problem_store.rs: resolve_problems_with_empty_diff"]}
{"id": "C134", "title": "Accepting all fixes without alternatives", "statement": "When all fixes without alternatives are accepted, at the prompt or later when problems arrive, then either one text is written, in which the fixes of all problems with exactly one fix have been applied in order, these problems are closed and all others remain; or nothing is written, the file is as it was, an error is shown, and the file cannot be parsed or written or one of the fixes fails.", "quantifier": "every run, every list of problems", "why_tests_cant": "The number of problems is not bounded, and each fix changes the file that the next one sees.", "anchors": ["src/ui/full_term/problems_ui.rs: accept_all_single_edits, first_single_edit, problems_added"]}
{"id": "C135", "title": "Quitting releases everybody and changes nothing", "statement": "If auto-accept was not agreed to, then after 'q' the file is never changed again and nobody is told to continue. The build is stopped in the next turn, and whenever the interface comes around, everybody who submitted problems and was not answered yet is told to give up, once; nobody else is told anything.", "quantifier": "every run, every later submission by any number of clients", "why_tests_cant": "Submissions race with the key; whether everybody waiting is answered is a property of all interleavings.", "anchors": ["src/ui/full_term.rs: run", "src/problem_store.rs: abort"]}
{"id": "C136", "title": "The interface does not crash while there is something to select", "statement": "No step of the interface hangs, and it only crashes if an arrow key is pressed in an empty list.", "quantifier": "every run of the interface", "why_tests_cant": "Requires excluding panics (missing ids, arithmetic, loops over modes) in every reachable state.", "anchors": ["src/ui/full_term/problems_ui.rs: handle_key, enter_usage_mode", "src/ui/full_term.rs: update_counter"]}
{"id": "C137", "title": "Comments come from their prompt", "statement": "A comment that will be attached to the next fix was confirmed with Enter in the comment prompt, and unless auto-accept is on, nothing was written since; the comments offered for reuse are different from each other, and each was confirmed in that way.", "quantifier": "every run of the interface", "why_tests_cant": "A statement about all histories of keys.", "anchors": ["src/ui/full_term/problems_ui.rs: handle_key"]}
{"id": "C138", "title": "The selection stays", "statement": "Unless auto-accept is on, nothing but a key for the interface changes which problem is selected, what is on top, or the cursor: however problems, reloads and changes of the file arrive, the same problem remains selected, though usages may be added to it.", "quantifier": "every run, every step of another thread, every turn of the interface without a key", "why_tests_cant": "Concurrent submissions change the list that the cursor points into.", "anchors": ["src/ui/full_term.rs: run", "src/problem_store.rs: add"]}
{"id": "C139", "title": "The highlighted line is the one that keys act on; arrows move by one", "statement": "On an up-to-date screen the highlighted line is the problem, fix, usage or frame that the cursor is at. In a non-empty list an arrow key moves the cursor to the line before or after, around at the ends, and changes nothing else. Opening the fixes, the usages or a backtrace lists those of the selected problem (the backtrace below its usage) with the cursor at the first.", "quantifier": "every run of the interface, all four lists", "why_tests_cant": "The highlighted line is computed by adding up cursors of nested lists; tests show a few screens.", "anchors": ["src/ui/full_term/problems_ui.rs: render_problems, handle_key", "src/ui/full_term.rs: update_counter"]}
{"id": "C140", "title": "Confirming writes the previewed change whatever happens meanwhile", "statement": "If a diff to the current file is previewed, a key that confirms it writes exactly the previewed text, whatever other threads submitted since it was drawn.", "quantifier": "every run of the interface", "why_tests_cant": "Needs a submission between drawing and the key.", "anchors": ["src/ui/full_term/problems_ui.rs: apply_selected_edit"]}
{"id": "C141", "title": "Nobody is told to continue without a fix being written", "statement": "If accepting all fixes fails, nobody whose problem was to be fixed is told to continue.", "quantifier": "every run of the interface", "why_tests_cant": "Needs a fix that fails after another one succeeded.", "anchors": ["src/ui/full_term/problems_ui.rs: accept_all_single_edits"]}
{"id": "C142", "title": "The file is not changed after quitting", "statement": "After 'q' has stopped the build the file is not changed and nobody is told to continue, whether auto-accept is on or not.", "quantifier": "every run of the interface", "why_tests_cant": "Needs a submission at the right time.", "anchors": ["src/ui/full_term.rs: run", "src/ui/full_term/problems_ui.rs: problems_added"]}
{"id": "C143", "title": "Arrow keys never crash the interface", "statement": "An arrow key in the list of problems does not crash the interface.", "quantifier": "every run of the interface", "why_tests_cant": "Needs a key after the last problem was fixed.", "anchors": ["src/ui/full_term.rs: update_counter", "src/ui/full_term/problems_ui.rs: handle_key"]}
{"id": "C144", "title": "A comment belongs to the fix it was entered for", "statement": "A comment entered while a fix of one problem is selected is not attached to the fix of another problem.", "quantifier": "every run of the interface", "why_tests_cant": "Needs leaving the list of fixes after entering a comment.", "anchors": ["src/ui/full_term/problems_ui.rs: handle_key"]}
{"id": "C145", "title": "Accepting fixes leaves the selection alone", "statement": "If the selected problem is still open after all fixes without alternatives were accepted, it is still selected.", "quantifier": "every run of the interface", "why_tests_cant": "Needs several problems in a particular order.", "anchors": ["src/ui/full_term/problems_ui.rs: accept_all_single_edits"]}
{"id": "C146", "title": "The paths offered as common to all usages are exactly the ones they all share", "statement": "When fixes are computed from a group of usages, the candidate paths are exactly the non-empty paths under which every usage of the group has at least one of its names. A usage may have several names, as for a method of a trait implementation; one of them suffices. Each path is listed once, in alphabetical order of bytes. If any usage has a name that cannot be parsed, there are no candidates at all.", "quantifier": "all lists of symbols and debug names, in any order and of any length", "why_tests_cant": "The number of shapes of names, and of combinations of several usages with several names each, is unbounded; unit tests list a few pairs.", "anchors": ["src/checker/common_prefix.rs:12-72", "src/names.rs:95-380"]}
{"id": "C147", "title": "An offered exclusion takes exactly the named subtree out of the API", "statement": "Excluding a path from an API is offered for a disallowed or off-tree usage exactly if all the targets can be parsed and share the path, and the path is a proper extension of one of the API's included paths and is not included itself. If such a fix is applied and the configuration is loaded again, loading succeeds; every usage of the group has a target name below the path that is no longer in the API; a name leaves the API exactly if it is below the path; and no other name and no other API is classified differently. Premises: the API is not imported from a package, and the components of the path have no colon.", "quantifier": "all configurations that load, all usages with any names, all names to be classified", "why_tests_cant": "It relates the names of usages, the offered text, the editing of the file, loading and classification, for all names and not only for those in the problem.", "anchors": ["src/config_editor.rs:286-350", "src/config_editor.rs:744-767", "src/checker/common_prefix.rs:12-72", "src/checker/api_map.rs:18-120"]}
{"id": "C148", "title": "An offered inclusion adds exactly the names below the path that are not excluded", "statement": "Including a path in an API is offered for an off-tree usage exactly if all sources can be parsed and share the path, the path is not on the API's list of exclusions, and it is neither an included path nor an extension of one. If such a fix is applied and the configuration is loaded again, loading succeeds; a name joins the API exactly if it is below the path and the API does not exclude it; no other name and no other API is classified differently. Premises: as for exclusions.", "quantifier": "all configurations that load, all usages with any names, all names to be classified", "why_tests_cant": "As for exclusions: the claim is about all names, before and after an edit of the file.", "anchors": ["src/config_editor.rs:286-350", "src/config_editor.rs:719-742", "src/checker/common_prefix.rs:12-72", "src/checker/api_map.rs:18-120"]}
{"id": "C149", "title": "An offered inclusion has an effect", "statement": "If including a path in an API is offered for an off-tree usage, applying the fix changes the classification of some name.", "quantifier": "all configurations that load and all off-tree usages", "why_tests_cant": "It has to hold for every combination of included and excluded paths.", "anchors": ["src/config_editor.rs:286-350", "src/checker/api_map.rs:18-120"]}
{"id": "C150", "title": "An offered exclusion takes the reported usage out of the API", "statement": "If excluding a path from an API is offered for a disallowed usage, then after applying the fix and loading the configuration again, the name by which the usage was reported is no longer in the API.", "quantifier": "all configurations that load and all disallowed usages", "why_tests_cant": "It has to hold for usages with any number of names.", "anchors": ["src/config_editor.rs:286-350", "src/checker/common_prefix.rs:12-72"]}
{"id": "C151", "title": "An offered exclusion changes the configuration", "statement": "If excluding a path from an API is offered for a disallowed usage, then applying the fix changes the configuration file.", "quantifier": "all configurations that load and all disallowed usages", "why_tests_cant": "It has to hold for every list of excluded paths.", "anchors": ["src/config_editor.rs:286-350", "src/config_editor.rs:744-767"]}
{"id": "C152", "title": "Linking an executable leaves it intact under a path of its own and a script in its place", "statement": "If the real linker succeeds in making an executable, then afterwards its contents are at a new path: the old one with `.orig` before the extension or at the end. That path differs from the old one and belongs to no other output path. A script is at the old path, and no other file is changed. What is reported to the main process names the same object files and the new path. If the linker fails, or makes a shared library, nothing is moved and the report is what the arguments say. The exit code is always that of the linker.", "quantifier": "all output paths whose last component is a name, all linkers as functions of arguments and files, all files", "why_tests_cant": "Paths come with any combination of dots and directories; two outputs must never be moved to the same path.", "anchors": ["src/proxy/subprocess.rs:86-137", "src/proxy/subprocess.rs:389-404"]}
{"id": "C153", "title": "A program that was linked is run under the supervision for the kind of crate it was linked for", "statement": "Running the file at the output path with any arguments runs, if the wrapper is not reachable (inside a sandbox), the linked program with these arguments. Otherwise it starts the wrapper, and this: within a build whose environment names a package, stands in for exactly the linked program, with the same arguments, as the kind of crate (library or binary, build script, test) for which it was linked; outside of a build, runs the linked program with the same arguments. Premise: neither path has a double quote, backquote, backslash or dollar sign.", "quantifier": "all paths without these characters, all arguments (including blanks, quotes and dollar signs), all environments", "why_tests_cant": "It goes through the text of a generated shell script, its interpretation by bash and the dispatch of a second process.", "anchors": ["src/proxy/subprocess.rs:45-137", "src/main.rs:204-215", "src/main.rs:610-620"]}
{"id": "C154", "title": "Every process of a build that starts the wrapper is treated as what it stands for", "statement": "In a process that inherits the variables with which cargo is started: called with the path of a program named rustc (as cargo calls RUSTC_WRAPPER, which is set to our program), it stands in for rustc. Called by rustc as the linker, it stands in for the linker under the package of the environment and the kind of crate that the wrapper of rustc found. Whatever the arguments and further variables, it neither takes itself for a call by the user nor runs a program without the main process.", "quantifier": "all arguments, all environments that contain the variables of the build, all command lines and configurations", "why_tests_cant": "The decision depends on arguments and on variables set by three other processes.", "anchors": ["src/proxy/subprocess.rs:45-82", "src/proxy.rs:115-173", "src/main.rs:204-215", "src/crate_index.rs:251-331"]}
{"id": "C155", "title": "Cargo is started as the user asked", "statement": "The command line of cargo has exactly one profile: the one of our command line, else of the configuration, else `cackle`; the target, the features (of the command line, else of the configuration) and the packages asked for and no others; the sub-command asked for, with the user's further words (or the configuration's build flags, or a flag for all targets) in their order. Variables name our program as wrapper of rustc, the socket, the flattened configuration, the profile and the directories; the package for which our own program might have been started is removed. Before a build the same profile is cleaned in the same directory. Premise for the options: none of the user's words is one of these options or two dashes.", "quantifier": "all command lines and configurations", "why_tests_cant": "There are many combinations of sub-commands, options and configuration.", "anchors": ["src/proxy/cargo.rs:19-83", "src/proxy.rs:81-173"]}
{"id": "C156", "title": "A build succeeds only if cargo does and no request has failed; processes are told what was decided", "statement": "When cargo has exited and the loop that serves requests notices, the build counts as a success exactly if cargo exited with code 0 and no request has ended with an error so far; if one has, the build fails with an error of a request. A process is told to continue only if its own request was decided so. If it is told to give up then its request was decided so or ended with an error, and cargo has been killed or is about to be. Cargo is killed only if the user or the result of a request asked for it.", "quantifier": "all interleavings of the loop, connections, threads serving requests, aborts and the end of cargo", "why_tests_cant": "It is about all interleavings of an unbounded number of threads.", "anchors": ["src/proxy.rs:193-240", "src/proxy.rs:299-314"]}
{"id": "C157", "title": "Requests are served in order, once each, and the loop makes progress", "statement": "The requests that are or have been served are a prefix of those sent, in the order in which the connections were made, each once; as long as the loop runs, the others are waiting. Unless a client that sends nothing is first in the queue, three steps of the loop suffice to notice the end of cargo, to kill cargo (or to end) after a request for it, and to start serving the first waiting request.", "quantifier": "all interleavings, all states of the loop", "why_tests_cant": "It is about all interleavings of an unbounded number of threads.", "anchors": ["src/proxy.rs:193-240"]}
{"id": "C158", "title": "A program that was linked can be run wherever it is", "statement": "The script at the output path runs the linked program, or the wrapper for it, whatever characters the paths have.", "quantifier": "all paths", "why_tests_cant": "Paths may contain any character.", "anchors": ["src/proxy/subprocess.rs:104-119"]}
{"id": "C159", "title": "Features, target and packages reach cargo whatever the further words are", "statement": "With the sub-commands `test` and `run`, too, cargo gets the features, the target and the packages that were asked for, whatever the user's further words are.", "quantifier": "all command lines and configurations", "why_tests_cant": "It depends on the user's words.", "anchors": ["src/proxy/cargo.rs:36-81", "src/proxy.rs:128-160"]}
{"id": "C160", "title": "What is going to be built is cleaned", "statement": "The call of `cargo clean` before a build is for the same target as the build.", "quantifier": "all command lines and configurations", "why_tests_cant": "It depends on the combination of options.", "anchors": ["src/proxy.rs:81-96", "src/proxy/cargo.rs:26-83"]}
{"id": "C161", "title": "A build does not succeed if a request ends with an error", "statement": "If serving a request of the build ends with an error and its process has been told to give up, the build does not count as a success.", "quantifier": "all interleavings", "why_tests_cant": "It is a race between two threads and cargo.", "anchors": ["src/proxy.rs:193-240", "src/proxy.rs:299-314"]}
{"id": "C162", "title": "Cargo does not outlive the loop", "statement": "When the loop that serves requests ends, cargo has exited or has been killed.", "quantifier": "all interleavings", "why_tests_cant": "It is about all ways of ending.", "anchors": ["src/proxy.rs:193-240"]}
{"id": "C163", "title": "Cargo is killed after a request for it", "statement": "If the user or a request asks for it, cargo is eventually killed, provided that the loop gets its turns.", "quantifier": "all interleavings", "why_tests_cant": "It depends on what other processes send.", "anchors": ["src/proxy.rs:193-240"]}
{"id": "C164", "title": "A program that was linked is run under the package it was linked for", "statement": "If a program was linked for one package, then within the build it is run under the permissions of that package.", "quantifier": "all environments", "why_tests_cant": "It depends on which process runs the program.", "anchors": ["src/proxy/subprocess.rs:45-123", "src/crate_index.rs:251-331"]}
{"id": "C165", "title": "The screen keeps up with the problems", "statement": "Whenever the full-screen interface begins to wait for a key, the screen it drew last lists exactly the problems that are open, in their order, with the open list and error of that moment. And after whatever happened, the interface by itself, without a key, gets to waiting for a key or to its end in a number of steps bounded by the number of events that are due.", "quantifier": "all programs of submissions, reloads, changes of the file and keys, interleaved in any way with the interface", "why_tests_cant": "A problem that is submitted between drawing and waiting would be missed only under particular interleavings.", "anchors": ["src/ui/full_term.rs:85-164", "src/ui/full_term/problems_ui.rs:368-441"]}
{"id": "C166", "title": "The detailed report shows every use once", "statement": "The detailed text of a problem about a disallowed or off-tree API has exactly one line for each use: below a heading with the file, below a heading with the function that the use is in, it names what is used, the line and the column if it is known. From the text one can read off the uses, all of them and nothing else. Each file has one heading and the files are in alphabetical order. The detailed text about unsafe code or extern declarations has exactly one line for each place, in order.", "quantifier": "All packages and APIs with plain names, all lists of uses whose names have no line breaks and do not imitate the layout, any order of the functions.", "why_tests_cant": "The text is built from two nested sorted maps; a use that is dropped, doubled or put below the wrong heading shows only for certain combinations of files and functions.", "anchors": ["src/problem.rs:244-349", "src/problem.rs:351-451", "src/location.rs:49-57"]}
{"id": "C167", "title": "The headline identifies what a problem is about", "statement": "Two problems have the same headline exactly if they are of the same kind and about the same package (with its version if there are several), the same kind of program and the same section of the configuration and API, as far as they apply. Lists of uses and places and the output of programs have no influence. Off-tree uses in different sections are the one exception: they share a headline.", "quantifier": "All pairs of problems with plain names of packages and APIs, except those that are just a message.", "why_tests_cant": "Confusions between texts of different problems are a matter of all pairs of problems.", "anchors": ["src/problem.rs:244-419", "src/crate_index.rs:358-377", "src/config/permissions.rs:298-318"]}
{"id": "C168", "title": "The list of uses is complete and in order", "statement": "The list that the full-screen interface shows for a problem has each use (or place of unsafe code) exactly once, with its own text, sorted by file, line and column; uses at the same place stay in the order of the problem.", "quantifier": "All problems with all lists of uses and places.", "why_tests_cant": "Tests list a few uses; that the sort loses nothing and agrees with the order of places for any list is a statement about all lists.", "anchors": ["src/ui/full_term/problems_ui.rs:925-964", "src/ui/full_term/problems_ui.rs:1008-1061", "src/location.rs:7-12"]}
{"id": "C169", "title": "The source of a use is shown as it is", "statement": "For a place in a file the interface shows consecutive lines of the file with their right numbers and intact text, at most as many as fit, with at most half of the area above the place. If the file has that line it is among them; it alone has the marker, and exactly the piece of code at the column is highlighted.", "quantifier": "All files with any line ends, all ways to cut a line into pieces, all places and heights whose sum is below 2^31 - 1.", "why_tests_cant": "Offsets of lines and columns go wrong at edges: first lines, short files, columns beyond the end, small areas.", "anchors": ["src/ui/full_term/problems_ui.rs:757-807"]}
{"id": "C170", "title": "Showing the source of a use never crashes the interface", "statement": "Whatever line the debug information gives for a use, the interface shows the source or an error.", "quantifier": "All lines that fit in 32 bits, all heights of the screen.", "why_tests_cant": "The conversions to signed numbers go wrong for lines near 2^31 only, which no compiled test has.", "anchors": ["src/ui/full_term/problems_ui.rs:761-767"]}
{"id": "C171", "title": "The printed report says which permission is missing", "statement": "From the text that the non-interactive mode prints for a disallowed API one can tell which section of the configuration lacks it (the package itself, its build script, its tests or code of it used by other build scripts and tests).", "quantifier": "All pairs of problems about disallowed APIs.", "why_tests_cant": "It takes two problems that differ in the section only.", "anchors": ["src/problem.rs:356-380", "src/ui/null_ui.rs:110-135"]}
{"id": "C172", "title": "Without a path the nearest package is analysed", "statement": "Started without --path, cackle analyses the nearest directory at or above the current one that has a Cargo.toml, and it reports that there is none exactly if no directory at or above the current one has one.", "quantifier": "All current directories and all file systems.", "why_tests_cant": "Tests have one or two nestings of directories; nearest is a statement about all directories above.", "anchors": ["src/main.rs:531-552"]}
{"id": "C173", "title": "The built-in APIs cover exactly their parts of the standard library", "statement": "In a configuration that imports built-in APIs of the standard library and does not define them itself, a name belongs to such an API exactly if the API is imported and the name is at or below one of its modules: fs (std::fs, std::path, std::os::linux::fs, std::os::unix::fs, std::os::unix::io), env, net (std::net, std::os::linux::net), unix_sockets (std::os::unix::net), process (std::process, std::os::linux::process, but not abort and exit), terminate (std::process::abort and exit).", "quantifier": "All configurations that load, all names.", "why_tests_cant": "Includes, exclusions, imports from packages and the file's own definitions are combined; that nothing more and nothing less is covered concerns all names.", "anchors": ["src/config/built_in.rs:6-72", "src/config.rs:215-260"]}
{"id": "C174", "title": "The prompt applies the fix that was chosen and nothing else", "statement": "At the prompt of the basic interface, a number of a fix (with white space around it or a plus sign) applies that fix to the file as it is on disk at that time; d and a number shows what the fix would change and changes nothing; every other line is rejected and changes nothing. Over the whole prompt the file is changed by the chosen fix or by others only.", "quantifier": "All lists of fixes, all sequences of lines, pauses and changes of the file by others.", "why_tests_cant": "Off-by-one numbers, upper case, numbers too big and concurrent changes of the file are combined in interactive use; there are no tests of the loop.", "anchors": ["src/ui/basic_term.rs:156-216", "src/ui/basic_term.rs:241-258"]}
{"id": "C175", "title": "The initial configuration restricts exactly the selected APIs", "statement": "If no configuration exists, the basic interface asks for built-in APIs and repeats the question until a line has known names only. If no name is typed twice, the file that is written loads, has the newest version, the available sandbox, no packages, and a name belongs to an API exactly if the API was typed and the name is one of its part of the standard library.", "quantifier": "All sequences of lines with any white space and commas.", "why_tests_cant": "The effect of the typed text on the classification of names goes through editing, loading and the API definitions.", "anchors": ["src/ui/basic_term.rs:58-68", "src/ui/basic_term.rs:107-154", "src/config_editor.rs:252-272"]}
{"id": "C176", "title": "Saved requests are replayed in order", "statement": "With up to 1000 saved requests, replaying handles them in the order in which they were saved, succeeds exactly if all of them are answered with success, and otherwise stops at the first one that is not.", "quantifier": "All sequences of up to 1000 requests, all behaviours of the handler.", "why_tests_cant": "The order comes from sorting file names with numbers; tests save a few.", "anchors": ["src/main.rs:490-528"]}
{"id": "C177", "title": "Exported APIs are offered until the file decides about them", "statement": "An API that a package exports is offered for import exactly if the package is part of the analysed workspace and the configuration file has no import entry for the package, also not an empty one.", "quantifier": "All configurations that load, all sets of packages and exports.", "why_tests_cant": "Whether an empty list counts and whether loading changes the entries is a matter of all configurations.", "anchors": ["src/config.rs:237-281", "src/config.rs:282-310", "src/main.rs:380-390"]}
{"id": "C178", "title": "The process API covers the processes of Unix", "statement": "With all built-in APIs imported, names below std::os::unix::process belong to the process API, like those below std::os::linux::process.", "quantifier": "All names below that module.", "why_tests_cant": "A misspelt module in the table of built-in definitions has no effect that a test of other modules would notice.", "anchors": ["src/config/built_in.rs:46-57"]}
{"id": "C179", "title": "An API named in the accepted line is restricted", "statement": "If the user names an API in the line that ends the question for the initial configuration, the written configuration restricts it.", "quantifier": "All sequences of lines.", "why_tests_cant": "Needs a line with a mistake before it.", "anchors": ["src/ui/basic_term.rs:127-143", "src/config_editor.rs:252-272"]}
{"id": "C180", "title": "Closing the input during the initial configuration gives up cleanly", "statement": "If the input ends while the basic interface asks for the initial configuration, the run is given up, as it is if the input ends at another question.", "quantifier": "All sequences of lines that end too early.", "why_tests_cant": "Interactive input that ends is not tested.", "anchors": ["src/ui/basic_term.rs:58-68", "src/ui/basic_term.rs:107-154"]}
{"id": "C181", "title": "A fix that cannot be applied leaves the choice to the user", "statement": "If the chosen fix cannot be applied to the file, the prompt says so and asks again.", "quantifier": "All configurations that load, all problems with fixes, all states of the file.", "why_tests_cant": "Needs files in unusual but valid forms or edited at the same time.", "anchors": ["src/ui/basic_term.rs:156-185", "src/config_editor.rs:153-165"]}
{"id": "C182", "title": "A fix keeps the contents of the file", "statement": "Applying a fix at the prompt keeps the rest of the configuration that is on disk.", "quantifier": "All states of the file, including those in which it cannot be read as text.", "why_tests_cant": "Needs a file that is unreadable for a moment or has a byte that is not UTF-8.", "anchors": ["src/config_editor.rs:153-156", "src/ui/basic_term.rs:159-165"]}
{"id": "C183", "title": "Any number of saved requests is replayed in order", "statement": "Replaying handles saved requests in the order in which they were saved, whatever their number.", "quantifier": "All sequences of requests.", "why_tests_cant": "Fails from 1001 requests on.", "anchors": ["src/main.rs:490-509", "src/main.rs:518-528"]}
{"id": "C184", "title": "Replaying repeats the last run", "statement": "Replaying handles the requests of the last run in which they were saved.", "quantifier": "All sequences of runs that save their requests.", "why_tests_cant": "Needs two runs with the same directory.", "anchors": ["src/main.rs:490-528"]}
{"id": "C185", "title": "Exactly the procedural macros that are not permitted are reported", "statement": "Before anything is built, a problem is reported for each package of the dependency tree that is a procedural macro, unless the section of that package in the configuration file says allow_proc_macro; for nothing else.", "quantifier": "for all configuration files that load, dependency trees and states of the checker with that configuration", "why_tests_cant": "The set of reported packages depends on the tree, on inheritance between sections and on the loading of the file; tests look at single trees.", "anchors": ["src/checker.rs:216-238", "src/config/permissions.rs"]}
{"id": "C186", "title": "An API that a package may export is reported until it is settled", "statement": "A module of a package that is named like an API is reported exactly if the file says nothing about imports from the package, the API does not include the module, and the API is not told to ignore the package. Either offered fix gives a file that loads, grants the same, and with which the report never comes back.", "quantifier": "for all files, definitions, scanned binaries and packages of the tree; the fixes for APIs not imported from a package", "why_tests_cant": "Whether a report comes back depends on the edited file, its loading and any later scan; tests apply single edits.", "anchors": ["src/checker.rs:560-582", "src/config_editor.rs:111-135", "src/config_editor.rs:737-799"]}
{"id": "C187", "title": "A source file belongs to the packages it was compiled for", "statement": "After any history of builds and changes of the configuration, a source file belongs to exactly the packages that rustc was reported to have compiled it for, each once. Only if there is none, a file of the Rust distribution belongs to no package, another file to the package whose directory it is in, and a file outside of all of them is an error.", "quantifier": "for all histories, scanners, environments and paths", "why_tests_cant": "Histories are unbounded, and the answer depends on all requests that came before.", "anchors": ["src/checker.rs:372-403", "src/checker.rs:542-550"]}
{"id": "C188", "title": "How rustc is sandboxed follows from its own section and the common one", "statement": "After loading, the kind of sandbox for rustc and its network access are those of [rustc.sandbox], else those of [sandbox]; in files of version 1 rustc is not sandboxed unless its own section names a kind. Writable directories and extra arguments are those of both sections; only the variables of the own section are passed.", "quantifier": "for all files that load, of every supported version", "why_tests_cant": "Versions, own and common section combine in many ways; tests fix one combination.", "anchors": ["src/config.rs:211-217", "src/config/versions.rs:40-80", "src/config/permissions.rs:200-228"]}
{"id": "C189", "title": "A newer version of the configuration is announced exactly if there is one", "statement": "For a file of the newest version nothing is announced; otherwise exactly the next version. Each fix that is offered for it gives a file that loads with the announced version, the same definitions of APIs and the same permissions.", "quantifier": "for all files that load and all fixes that are offered and apply", "why_tests_cant": "It relates the announcement, the edit of the text and loading of the result, for every file.", "anchors": ["src/checker.rs:534-540", "src/config_editor.rs:137-146", "src/config_editor.rs:947-972", "src/config/versions.rs:6-80"]}
{"id": "C190", "title": "The titles of a menu tell its fixes apart", "statement": "Two fixes that are offered for the same problem and have the same title are the same edit of the configuration, so that choosing by title is never ambiguous.", "quantifier": "All problems, configurations and names, whatever characters they have; all sets of paths and instructions that are offered.", "why_tests_cant": "Which fixes are offered depends on the usages, on the configuration and on the instruction; titles would have to be compared for all combinations and for all names.", "anchors": ["src/config_editor.rs:66-150", "src/config_editor.rs:352-437", "src/config_editor.rs:460-1160"]}
{"id": "C191", "title": "The title of a fix says what it changes", "statement": "Fixes offered for any two problems that have the same title are the same edit, if names of packages and APIs have the usual characters and paths and instructions no backticks; except that removals of unused settings and copies of definitions have to be read together with their problem.", "quantifier": "All pairs of problems and configurations, all fixes offered for them, all versions and packages that share names or not.", "why_tests_cant": "Ambiguity is a property of pairs of titles; a test sees single titles. Package names, versions, sections, scopes and API names are all part of the texts.", "anchors": ["src/config_editor.rs:460-1160", "src/config/permissions.rs:298-318", "src/crate_index.rs:358-377"]}
{"id": "C192", "title": "A title that names a version is about that version", "statement": "If there are several versions of a package, the title of a fix for the use of an API names the version that the problem is about; accepting it leaves the problems of the other versions as they are. (Refuted: permissions are granted by name, so the uses by all versions become permitted.)", "quantifier": "All workspaces with several versions of a package, all API uses.", "why_tests_cant": "Needs two versions of a package in one dependency tree, and the effect on the version that the fix does not name.", "anchors": ["src/config_editor.rs:807-827", "src/crate_index.rs:358-377", "src/checker.rs:415-428"]}
{"id": "C193", "title": "Ignoring an API leaves the others on offer", "statement": "Accepting the fix that ignores one API which a package provides leaves the other APIs of the package on offer. (Refuted: the fix creates an empty list of imports for the package, which takes all of its APIs off the list.)", "quantifier": "All packages that export several APIs.", "why_tests_cant": "Only the offers after reloading the changed file show it, and only for packages with two exported APIs.", "anchors": ["src/config_editor.rs:693-717", "src/config.rs:284-307"]}
{"id": "C194", "title": "Wrapped processes decide by the configuration that was loaded", "statement": "What a wrapped rustc or build script reads back is what was loaded from the configuration file: permissions for unsafe code and extern declarations, sandbox settings of every package and scope, the sandbox of rustc, features, profile and build flags. Different permissions are never written as the same text.", "quantifier": "All configurations with any package names, scopes, nested sections and settings; any JSON printer and parser that round-trip.", "why_tests_cant": "Keys of the permission table are JSON texts inside JSON, sections nest without bound and unset settings differ from empty ones; a round-trip test covers one configuration.", "anchors": ["src/proxy/subprocess.rs:423-460", "src/config.rs:28-160", "src/config/permissions.rs:17-60"]}
{"id": "C195", "title": "Reloads never go backwards", "statement": "Whenever no reload is in progress, a process that starts decides as the configuration does that the checker has. Once a reload has succeeded, processes decide by a content that the file had when that reload began or later, whatever other threads do. While the file cannot be loaded everything stays as it was. A reload that has begun can always end.", "quantifier": "All interleavings of any number of handler threads, of saves of the file by anybody and of starts of processes.", "why_tests_cant": "The order of reading, writing and publishing under the lock matters only for particular interleavings of threads.", "anchors": ["src/checker.rs:134-157", "src/main.rs:578-599", "src/proxy/subprocess.rs:431-449", "src/fs.rs"]}
{"id": "C196", "title": "An accepted fix has taken effect when the process is run again", "statement": "After a document has been saved and a reload has ended that began after that, every process that starts decides as that document says; in particular unsafe code (extern declarations, from version 3 on) is permitted for the crate for which the offered fix was accepted, if nobody else saved the file.", "quantifier": "All documents, crates, offered fixes and interleavings of other reloads.", "why_tests_cant": "Joins editing, loading, flattening and the locking of threads; each is tested alone at most.", "anchors": ["src/main.rs:578-599", "src/checker.rs:134-157", "src/proxy/subprocess.rs:244-262", "src/config_editor.rs:460-560"]}
{"id": "C197", "title": "Everything linked from the target directory is judged", "statement": "When the check of a linker call ends without problems, every object that the linker is given from the target directory was read and parsed, also those inside Rust libraries, and every use of an API in its examined sections is granted in the configuration or is excused. A library or object that cannot be read never passes.", "quantifier": "All linker command lines, files, object contents, binaries, configurations and histories of events; the target directory is resolved.", "why_tests_cant": "Joins the linker's arguments, resolving of paths, reading of archives, relocations, debug information and permissions; integration tests link a few programs.", "anchors": ["src/symbol_graph.rs:131-284", "src/link_info.rs:25-70", "src/checker.rs:290-320"]}
{"id": "C198", "title": "Any target directory is covered", "statement": "The objects that are linked from cargo's target directory are judged whatever way the target directory is written in CARGO_TARGET_DIR. (Refuted: the paths of objects are resolved and the target directory is not; with `..` or a symbolic link in it no object is looked at, and uses that nobody granted pass.)", "quantifier": "All values of CARGO_TARGET_DIR.", "why_tests_cant": "Tests build in a directory that is already resolved.", "anchors": ["src/main.rs:259-263", "src/link_info.rs:36-42"]}
{"id": "C199", "title": "A damaged library does not pass", "statement": "A Rust library that cannot be read as an archive makes the check fail. (Refuted: entries whose header cannot be read are passed over without a word, so the rest of the library is not looked at.)", "quantifier": "All contents of libraries.", "why_tests_cant": "Needs a library that the linker accepts and the archive reader does not.", "anchors": ["src/symbol_graph.rs:262-268"]}
{"id": "C200", "title": "A malformed message is an error", "statement": "Whatever a process writes to the socket, the main process answers with an error or with a value and goes on. (Refuted: eight bytes that announce an absurd length make it allocate that much and end, whatever memory there is.)", "quantifier": "All byte streams and amounts of memory.", "why_tests_cant": "Tests send messages that the same program wrote.", "anchors": ["src/proxy/rpc.rs:150-158"]}
{"id": "C201", "title": "The shown sandbox command is what was run", "statement": "The command line that is shown when a build script fails in the sandbox, pasted into bash, runs the same program with the same arguments, if every argument consists of characters without a meaning or is one that quotes protect.", "quantifier": "All arguments, variables and sandbox settings of that kind.", "why_tests_cant": "Quoting depends on every character of every argument; no test reads the text back.", "anchors": ["src/sandbox/bubblewrap.rs:20-44", "src/sandbox/bubblewrap.rs:92-97", "src/sandbox/bubblewrap.rs:107-126"]}
{"id": "C202", "title": "The shown sandbox command is safe to paste", "statement": "The command line that is shown when a build script fails in the sandbox can be pasted into bash whatever the crate is. (Refuted: the crate's description is a part of it; text without spaces is not quoted and a semicolon in it starts another command, outside the sandbox; in quotes, dollar signs and line ends are not kept.)", "quantifier": "All crates.", "why_tests_cant": "Needs a crate whose metadata contain signs that bash understands.", "anchors": ["src/sandbox/bubblewrap.rs:107-126", "src/sandbox.rs:47-54"]}
{"id": "C203", "title": "The output of cargo is passed on completely", "statement": "Of each of cargo's two channels, what is on the terminal is always the beginning of what was printed, in order, and all of it once the waiting for output has returned. While the user interface has the terminal nothing is written to it; afterwards the waiting can end.", "quantifier": "All interleavings of cargo, the two threads and the user interface, all sizes of writes and reads.", "why_tests_cant": "Depends on the interleaving of threads and on how the pipe cuts the text.", "anchors": ["src/proxy.rs:174-197", "src/proxy.rs:267-298", "src/ui/full_term.rs:76"]}
{"id": "C204", "title": "Lines of cargo's output stay whole", "statement": "Text on the terminal is made of whole lines of cargo's two channels. (Refuted: at most 64 bytes are passed on at once and a line of the other channel can come in between.)", "quantifier": "All outputs.", "why_tests_cant": "Needs output on both channels at the same time.", "anchors": ["src/proxy.rs:278-298"]}
{"id": "C205", "title": "Success means that everything linked was judged", "statement": "When `cargo acl` exits with success, then for every call of the linker during the build every object that it was given from the target directory was read, and every use of an API in its examined sections is granted in a configuration loaded during the run or excused.", "quantifier": "All builds, linker command lines, objects, configurations, orders of requests, answers of the user and results of the stages of the run; selectors of linked binaries are distinct and the target directory is resolved.", "why_tests_cant": "The statement is about the exit code of the whole program and joins the stages of the run, the store of problems, the bookkeeping of linker calls, reading of archives, relocations and permissions.", "anchors": ["src/main.rs:302-344", "src/main.rs:357-457", "src/checker.rs:290-420", "src/symbol_graph.rs:131-284"]}
{"id": "C206", "title": "Inlined calls are judged", "statement": "If the check of a linker call ends without problems, then every call that the compiler inlined and that the debug information of the binary lists is judged like a call in an object: a use of an API by it, at the place of the call, is granted or excused.", "quantifier": "All binaries, inlined calls, linker command lines, configurations and orders of requests.", "why_tests_cant": "Inlining is up to the compiler and leaves no relocation; a test sees the calls that were inlined in its own build.", "anchors": ["src/symbol_graph.rs:196-230", "src/symbol_graph.rs:131-200"]}
{"id": "C207", "title": "A successful run has restricted every compiler by the configuration", "statement": "If cargo acl exits with success, also when it only builds for a sub-command, then every compiler that cargo started used in its last run a configuration that the file contained at some time of the run. If that configuration does not let the crate use unsafe code, none of its source files uses it, except possibly as the very last token, and rustc was told to forbid it; likewise for extern blocks. The completion of the crate was accepted by the main process.", "quantifier": "All projects, compilers, source files, configurations, edits during the run, answers of the user and results of the stages of the run; replaying saved requests is left out.", "why_tests_cant": "The statement is about the exit code of the whole program and joins the processes of a build, their retries, the file with the flattened configuration and the main process.", "anchors": ["src/main.rs:302-457", "src/main.rs:578-605", "src/proxy.rs:40-241", "src/proxy/subprocess.rs:60-330", "src/config/permissions.rs:1-120"]}
{"id": "C208", "title": "Everything linked is judged before its compiler goes on, with a sub-command too", "statement": "If cargo acl exits with success, also when it only builds for a sub-command, then every object that a call of the linker took from the target directory, and every inlined call in its binary, was judged before the compiler that made the call went on: each use of an API in an examined section is granted by a configuration loaded before, or at the same place there is an excused use with a name no longer than that of the use.", "quantifier": "All builds, linker command lines, objects, configurations, orders of requests, answers of the user and results of the stages of the run; there is one compiler per linked crate and the target directory is resolved.", "why_tests_cant": "The order of a linker call, its check and the completion of the compiler depends on threads and processes; a test sees one order.", "anchors": ["src/main.rs:302-457", "src/main.rs:578-605", "src/checker.rs:290-420", "src/symbol_graph.rs:131-284"]}
{"id": "C209", "title": "The sandbox that is configured is one that is there", "statement": "The configuration that is written for a project without one selects bubblewrap exactly if bwrap --version can be run and exits with success, and otherwise switches the sandbox off. If bwrap cannot be run at all, a fix that selects bubblewrap is refused for every configuration file.", "quantifier": "All answers of bwrap, answers of the user to the questions about the initial configuration, configuration files and sets of built-in APIs.", "why_tests_cant": "The answer depends on what is installed; a test runs on a machine where it is one or the other.", "anchors": ["src/sandbox.rs:222-242", "src/sandbox/bubblewrap.rs:99-105", "src/ui/basic_term.rs:107-120", "src/config_editor.rs:274-283"]}
{"id": "C210", "title": "A sandbox that does not work cannot be selected", "statement": "A fix that selects bubblewrap is refused if bwrap --version does not exit with success.", "quantifier": "All answers of bwrap and configuration files.", "why_tests_cant": "The answer depends on what is installed.", "anchors": ["src/sandbox.rs:230-242", "src/config_editor.rs:274-283"]}
{"id": "C211", "title": "The compiler and the sysroot are what rustup and rustc answer", "statement": "If the build is started, it uses the compiler that rustup which rustc names, up to white space around the name, in case rustup can be run, exits with success, answers with text, and the file exists; it uses the program rustc exactly if rustup cannot be run, fails or answers with something that is not text. If rustc --print sysroot, run in the analysed directory, exits with success and answers with text, the sysroot is that text without white space around it.", "quantifier": "All answers of the two programs and sets of existing files.", "why_tests_cant": "The answers depend on the installation; a test sees its own toolchain.", "anchors": ["src/proxy.rs:146", "src/proxy.rs:243-261", "src/main.rs:554-563"]}
{"id": "C212", "title": "The compiler is the one rustup selects for the analysed project", "statement": "If rustup, asked in the analysed directory, names a compiler that exists, the build uses that compiler.", "quantifier": "All answers of rustup, analysed directories and directories in which cackle is started.", "why_tests_cant": "Tests are started in the directory they analyse.", "anchors": ["src/proxy.rs:146", "src/proxy.rs:243-261"]}
{"id": "C213", "title": "An answer of rustup that is of no use does not stop the run", "statement": "If rustup answers with a path that does not exist, the build falls back to the program rustc.", "quantifier": "All answers of rustup and sets of existing files.", "why_tests_cant": "The answer depends on the installation.", "anchors": ["src/proxy.rs:146", "src/proxy.rs:243-261"]}
{"id": "C214", "title": "Only the standard library is left out of the debug information", "statement": "Code that is not in the directory of the toolchain, as told by rustc, is not taken for the standard library; if rustc cannot tell the directory, the run fails.", "quantifier": "All answers of rustc and all debug information.", "why_tests_cant": "A failing rustc is not part of any test.", "anchors": ["src/main.rs:554-563", "src/checker.rs:396-403", "src/symbol_graph/dwarf.rs:60-110"]}
{"id": "C215", "title": "The help of a fix that allows an API says where it will be allowed", "statement": "The help of a fix that allows a package to use an API says in which binaries: in any, only in its own build script, only in its own tests, only from build scripts, or only from tests. After the fix has been applied and the configuration reloaded, the packages of that name may use the API in exactly those binaries, in addition to those in which they could use it before; no other package and no other API gains or loses anything.", "quantifier": "all configurations, usages of APIs without permission, offered fixes, binaries, packages and APIs", "why_tests_cant": "The promise is about every binary and every package of the project; tests compare some texts.", "anchors": ["src/config_editor.rs:829-849", "src/config_editor.rs:852-872"]}
{"id": "C216", "title": "Copied built-in definitions do not change with later versions, imported ones do", "statement": "After the definition of a built-in API has been copied into the configuration, a version of the tool with other built-in definitions (that still has those that the file imports) loads the file with the same definition of that API, the same settings and the same permissions. After an API has been imported instead, it is defined as the version of the tool that reads the file defines it.", "quantifier": "all configurations, built-in APIs and sets of built-in definitions of other versions", "why_tests_cant": "No test has a second version of the built-in definitions.", "anchors": ["src/config_editor.rs:587-604", "src/config_editor.rs:540-548", "src/config.rs:219-238"]}
{"id": "C217", "title": "A copied definition of a package does not change with the package", "statement": "After the definition of an API that a package exports has been copied into the configuration, the definitions of all APIs that are not imported from packages, the settings and the permissions do not depend on what packages export, as long as the file can be loaded.", "quantifier": "all configurations, exported APIs and sets of exports", "why_tests_cant": "No test changes what a package exports after its API was copied.", "anchors": ["src/config_editor.rs:617-632", "src/config.rs:241-279"]}
{"id": "C218", "title": "An exported API is offered until it is decided about", "statement": "If a package exports several APIs, the decision about one of them leaves the others offered. (Refuted: after one of them has been imported the others are neither defined nor offered in later runs, as any list of imports of the package, even an empty one, ends the offers.)", "quantifier": "all packages that export APIs", "why_tests_cant": "The tests export one API.", "anchors": ["src/config.rs:284-307", "src/config_editor.rs:569-577"]}
{"id": "C219", "title": "Full debug information is asked for", "statement": "Whatever the profile and the arguments of the compiler say about debug information, the last word by which the wrapped compiler is told about it asks for all of it. If neither the command line nor the configuration selects a profile, cargo builds a profile that inherits that of development, without optimisation, with debug information and not incrementally, unless the user gives settings of their own.", "quantifier": "all arguments of the compiler, all arguments and configurations of a build", "why_tests_cant": "The tests build with one profile.", "anchors": ["src/proxy/cargo.rs:26-83", "src/proxy/subprocess.rs:315-365"]}
{"id": "C220", "title": "Stripping does not hide uses", "statement": "If the profile asks for symbols to be stripped from binaries, uses of APIs that are not granted are still reported. (Refuted: the wrapper passes -C strip=symbols to the compiler, nothing can be found in the stripped binary, and a use is accepted that is reported for the binary with symbols.)", "quantifier": "all arguments of the compiler and all binaries", "why_tests_cant": "No test builds with a profile that strips.", "anchors": ["src/proxy/subprocess.rs:320-344", "src/symbol_graph.rs:296-330"]}
{"id": "C221", "title": "The settings the analysis needs apply to the profile that is built", "statement": "Cargo is told to build the selected profile without optimisation and with debug information. (Refuted: the settings are given for the profile cackle, also if another one is selected.)", "quantifier": "all selected profiles", "why_tests_cant": "The tests build with one profile.", "anchors": ["src/proxy/cargo.rs:55-80"]}
{"id": "C222", "title": "Split debug information is switched off", "statement": "Cargo is told not to split the debug information from the binary, as the analysis does not support that. (Refuted: the setting is given at the top level, not for a profile, neither for the default one nor for one that is selected.)", "quantifier": "all builds", "why_tests_cant": "On Linux the development profile does not split debug information, so the missing setting makes no difference in tests.", "anchors": ["src/proxy/cargo.rs:77-78"]}
{"id": "C223", "title": "Success is announced only if it is one", "statement": "At the end of a run success is announced, together with the summary, exactly if the exit code is that of success, there is no sub-command and the run is not quiet; then nobody was told to give up, the build succeeded and permissions that are not used were dealt with. Errors of the run or of the interface are printed and make it fail.", "quantifier": "all options and all results of the parts of a run", "why_tests_cant": "The tests look at exit codes of a few runs.", "anchors": ["src/main.rs:302-344"]}
{"id": "C224", "title": "Quiet runs print nothing on success", "statement": "As the help of --quiet says, nothing is printed if the run succeeds. (Refuted: the non-interactive interface prints warnings.)", "quantifier": "all runs with --quiet", "why_tests_cant": "No test looks at the output of a quiet run with warnings.", "anchors": ["src/main.rs:109-111", "src/ui/null_ui.rs:95-147"]}
{"id": "C225", "title": "Nobody is asked unless the options say so", "statement": "An interactive interface is used exactly if it is asked for, or nothing is said about it and the output is a terminal; --no-ui always prevents it. Only then the output of cargo is held back. In all other cases the non-interactive interface runs, with the options given.", "quantifier": "all options, with and without a terminal", "why_tests_cant": "Tests do not run on a terminal.", "anchors": ["src/ui.rs:42-102"]}
{"id": "C226", "title": "Fixes are accepted automatically if asked for", "statement": "As the help of --auto-accept-fixes says, the first fix is accepted for all problems. (Refuted: on a terminal the option is ignored, and nothing is written before a key is pressed, whatever the problems.)", "quantifier": "all runs with --auto-accept-fixes", "why_tests_cant": "Tests do not run on a terminal.", "anchors": ["src/main.rs:163-167", "src/ui.rs:42-102", "src/ui/null_ui.rs:99-102"]}
{"id": "C227", "title": "The profile that is built was cleaned", "statement": "If the configuration file is not changed while the run prepares the build, then the profile that is cleaned is the one that is built, and profile and features are those of the configuration that the checker has during the build.", "quantifier": "all arguments and configurations", "why_tests_cant": "The tests have one profile.", "anchors": ["src/main.rs:357-413", "src/proxy/cargo.rs:19-83"]}
{"id": "C228", "title": "The profile that is built was cleaned even if the file was changed", "statement": "The profile that is built was cleaned before, whatever changes were made to the file while problems were dealt with before the build. (Refuted: a new profile is built without being cleaned, so that what is there already is not checked.)", "quantifier": "all changes of the file", "why_tests_cant": "No test changes the file while it is asked something.", "anchors": ["src/main.rs:361-384"]}
{"id": "C229", "title": "Cargo is started with the configuration that the checker has", "statement": "Profile and features that cargo is started with are those of the configuration that the checker has during the build. (Refuted: the configuration for cargo is copied before unused imports are dealt with, that of the checker is loaded afterwards.)", "quantifier": "all changes of the file", "why_tests_cant": "No test changes the file while it is asked something.", "anchors": ["src/main.rs:384-413"]}
{"id": "C230", "title": "A build script that may not set the variables a compilation is judged by cannot influence that judgement", "statement": "If the rules of a package let its build script set none of the variables by which the wrapper of rustc and of the linker learn for which crate, with which configuration, with which compiler and directories and for which linker they work, then after output of the build script that was accepted all of this is exactly as if the build script had printed nothing.", "quantifier": "all permissions, packages, build script outputs without leading blanks, environments given by cargo, arguments and surroundings of the wrapper", "why_tests_cant": "It compares two whole compilations for every output a build script can print and every set of rules; tests try single outputs.", "anchors": ["src/build_script_checker.rs:17-93", "src/proxy/subprocess.rs:193-233", "src/crate_index.rs:251-315", "src/sandbox.rs:144-173"]}
{"id": "C231", "title": "Permission to set variables does not give a package the permissions of another", "statement": "A package that has no permission except a rule that lets its build script set environment variables, as offered when the build script sets a harmless one, is compiled under its own name and permissions.", "quantifier": "all permissions, outputs of the build script that are accepted", "why_tests_cant": "Needs the composition of the build script check, cargo and the wrapper of rustc; each part behaves as its own tests expect.", "anchors": ["src/crate_index.rs:251-315", "src/proxy/subprocess.rs:193-205", "src/build_script_checker.rs:41-47"]}
{"id": "C232", "title": "Permission to set variables does not let a package choose the configuration", "statement": "A compilation is judged by the configuration that was written for the run, whatever variables the build script of the package was allowed to set.", "quantifier": "all permissions, outputs of the build script that are accepted", "why_tests_cant": "Needs the composition of the build script check, cargo and the wrapper of rustc.", "anchors": ["src/proxy/subprocess.rs:246-256", "src/proxy/subprocess.rs:431-436"]}
{"id": "C233", "title": "Permission to set variables does not let a package choose the compiler", "statement": "The program run as rustc is the one found at the start of the run, whatever variables the build script of the package was allowed to set.", "quantifier": "all permissions, outputs of the build script that are accepted", "why_tests_cant": "Needs the composition of the build script check, cargo and the wrapper of rustc.", "anchors": ["src/proxy/subprocess.rs:222-230", "src/proxy/subprocess.rs:315-317"]}
{"id": "C234", "title": "Permission to set variables does not open the sandbox of rustc", "statement": "In the sandbox of rustc the same directories of the host are writable, whatever variables the build script of the package was allowed to set.", "quantifier": "all permissions, outputs of the build script that are accepted, sandbox configurations", "why_tests_cant": "Needs the composition of the build script check, cargo, the sandbox arguments and the meaning of those to bubblewrap.", "anchors": ["src/sandbox.rs:144-196", "src/build_script_checker.rs:41-47"]}
{"id": "C235", "title": "A linker call that does not say what it makes is refused", "statement": "If the program is started in place of the linker and its own arguments name no output file, because they are in a response file or missing, then it ends with an error before anything is linked.", "quantifier": "all environments of a run, all argument lists that are neither a call of rustc nor of a program that was built", "why_tests_cant": "Speaks about every argument list and environment; a test tries a few.", "anchors": ["src/link_info.rs:20-60", "src/proxy/subprocess.rs:45-77"]}
{"id": "C236", "title": "What links without the tool links with it", "statement": "A call of the linker that works is accepted also if rustc passes its arguments in a response file, as it does when they are too long for a command.", "quantifier": "all argument lists and contents of response files", "why_tests_cant": "Needs command lines longer than the limit of the system.", "anchors": ["src/link_info.rs:20-60", "src/proxy/subprocess.rs:71-75"]}
{"id": "C237", "title": "Every object that the linker reads is recorded", "statement": "An object file or library that the linker reads because it is named in its arguments or in a response file given to it is among those recorded for the call.", "quantifier": "all argument lists and contents of response files", "why_tests_cant": "Needs a linker argument of a form that no test passes.", "anchors": ["src/link_info.rs:20-48"]}
{"id": "C238", "title": "Nothing of a report is hidden by the full-screen interface", "statement": "For a problem without single uses, the line in the list and the pane with details together show the full report that the non-interactive mode prints, and nothing twice; for a problem with single uses the pane says more than the headline (the uses are listed as in C168).", "quantifier": "all problems, except a missing configuration and newer versions, for which the pane has texts of its own", "why_tests_cant": "All kinds of problems with all texts; the pane is emptied by a comparison of texts.", "anchors": ["src/ui/full_term/problems_ui.rs:443-463", "src/ui/full_term/problems_ui.rs:1063-1097"]}
{"id": "C239", "title": "The notes about a newer version are those of that version, and true", "statement": "When a newer version of the configuration is announced, the pane names it and shows the notes for that very version. What the notes for version 2 say holds: with a default sandbox and no setting for rustc, rustc is not sandboxed with version 1 and is sandboxed with every later version.", "quantifier": "all versions; all configurations that load with both versions", "why_tests_cant": "The second part speaks about all configurations; tests load a few.", "anchors": ["src/ui/full_term/problems_ui.rs:1085-1091", "src/config/versions.rs:24-62"]}
{"id": "C240", "title": "The help tells the truth about keys", "statement": "Whenever the full-screen interface waits for a key in the list of problems, of fixes or of usages, each key that the help of this view lists does what the help says: opening fixes, usages, a backtrace, the tree or diagnostics of the selected problem, moving by one, asking for a comment or for auto-apply, applying the selected fix, returning to the problems, toggling the details, quitting, showing the help. Where the text restricts itself ('supported edits only'), the key otherwise only shows an error.", "quantifier": "For all runs of the interface with all interleavings of submissions, reloads and changes of the file, all three views, all rows of their help, all keys named in a row.", "why_tests_cant": "Depends on the state reached by arbitrary sequences of keys and events; a test presses particular keys in particular states.", "anchors": ["src/ui/full_term/problems_ui.rs:809-854", "src/ui/full_term/problems_ui.rs:148-291"]}
{"id": "C241", "title": "Keys that the help does not list do nothing", "statement": "In the list of problems, of fixes or of usages, a key that the help of this view does not list has no effect.", "quantifier": "For all runs, the three views, and all keys.", "why_tests_cant": "Quantifies over all other keys in all reachable states.", "anchors": ["src/ui/full_term/problems_ui.rs:148-291", "src/ui/full_term/problems_ui.rs:809-854"]}
{"id": "C242", "title": "Esc leads back to the problems", "statement": "Unless the interface was quit, the list of problems is below everything that is open, once. Esc takes away exactly what is on top, whatever it is, and nothing is written, closed, accepted or forgotten by it, so repeating it ends at the list of problems with the same problem selected.", "quantifier": "For all runs and all stacks of views.", "why_tests_cant": "An invariant of all sequences of keys.", "anchors": ["src/ui/full_term/problems_ui.rs:156-158", "src/ui/full_term/problems_ui.rs:283-287"]}
{"id": "C243", "title": "The help is complete in every view", "statement": "In every view, a key that has an effect is listed in the help that 'h' shows there.", "quantifier": "For all runs, all views, all keys.", "why_tests_cant": "Refuted: a claim about all views.", "anchors": ["src/ui/full_term/problems_ui.rs:209-211", "src/ui/full_term/problems_ui.rs:249-251", "src/ui/full_term/problems_ui.rs:846"]}
{"id": "C244", "title": "Files that follow the manual are read and loaded", "statement": "A configuration file in which every key stands in a place that CONFIG.md documents, has the documented kind of value, and which gives a version, is read. It is loaded if the version is one of the supported ones, the named parts of the standard library exist, nothing is imported from packages, and each section allows only defined APIs, each once.", "quantifier": "For all configuration files, of any size and nesting.", "why_tests_cant": "Tests read a few files; the claim is about every combination of documented keys.", "anchors": ["CONFIG.md:1-260", "src/config.rs:26-140", "src/config.rs:271-330"]}
{"id": "C245", "title": "The version is the only required field", "statement": "Taking any documented key other than common.version, or any whole section other than common, out of a file that is read leaves a file that is read. Without common.version no file is read. A file with nothing but a supported version loads.", "quantifier": "For all files that follow the manual and all paths in them.", "why_tests_cant": "Quantifies over all files and over every key in them.", "anchors": ["CONFIG.md:1-30", "src/config.rs:26-60"]}
{"id": "C246", "title": "The examples of the manual can be used as printed", "statement": "Putting an example of CONFIG.md into a configuration file as it is printed gives a file that can be read.", "quantifier": "For all examples of the manual and all files containing them.", "why_tests_cant": "Refuted: holds for no file containing one of three examples, which a test of one file does not show.", "anchors": ["CONFIG.md:33-39", "CONFIG.md:194-195", "CONFIG.md:230", "src/config.rs:26-60"]}
{"id": "C247", "title": "The arrow keys in the comment prompt go through the earlier comments", "statement": "Up in the comment prompt shows the comment confirmed before the shown one, starting with the latest and staying at the earliest; Down goes back, and past the latest it empties the prompt. Each comment is offered once, at its last confirmation. A text that is not one of them counts as the empty prompt.", "quantifier": "For all runs of the interface, all sequences of arrow keys, whatever other threads do in between.", "why_tests_cant": "An invariant over all runs: the offered comments depend on everything confirmed so far.", "anchors": ["src/ui/full_term/problems_ui.rs:159-189"]}
{"id": "C248", "title": "What was typed into the comment prompt comes back", "statement": "Pressing Up and then Down in the comment prompt shows again what was typed before.", "quantifier": "For all runs and texts.", "why_tests_cant": "Refuted: a claim about all texts and histories.", "anchors": ["src/ui/full_term/problems_ui.rs:159-175"]}
{"id": "C249", "title": "Methods of traits and of first implementations are found under their module in v0 symbols", "statement": "The tokens of the v0 symbol of a trait's method start with the path of the module that has the implementation, followed by those of the rest; so do those of a method of the first implementation in a module below the top of its crate. So the crate and the module of the symbol are those of the implementation.", "quantifier": "For all modules, numbers of implementations, types, traits and names of methods in ASCII.", "why_tests_cant": "Round trip for all paths; tests compare single symbols.", "anchors": ["src/demangle.rs:213-227", "src/demangle.rs:366-440", "src/symbol.rs:46-71"]}
{"id": "C250", "title": "All methods are found under their module in v0 symbols", "statement": "The tokens of the v0 symbol of a method start with the path of the module that has the implementation, so that the use of a method of an API is charged to the package.", "quantifier": "For all modules and all implementations in them.", "why_tests_cant": "Refuted: a claim about all implementations; tests use a trait's method.", "anchors": ["src/demangle.rs:213-220", "src/demangle.rs:366-440"]}
{"id": "C251", "title": "Methods at the top of a crate are found under their crate in v0 symbols", "statement": "The name of the crate is among the tokens of the v0 symbol of a method that is implemented at the top of the crate.", "quantifier": "For all crates and methods.", "why_tests_cant": "Refuted: a claim about all crates.", "anchors": ["src/demangle.rs:213-220", "src/demangle.rs:366-440"]}
{"id": "C252", "title": "Crates are compiled by their own package's rules", "statement": "When cargo compiles a crate of a package, everything the wrapper of rustc reports names that package, its version and the right kind (test, build script or the package's own code); the only program it runs is the compiler cargo would have used, and it never runs it without a configuration: what the configuration in the file written by the main process does not permit to this crate (unsafe code, extern) the compiler is told to forbid. If the compilation succeeds then the crate may use these things by that configuration or its source files do not use them. Configurations in other files make no difference.", "quantifier": "For all environments as cargo and the main process make them, arguments, answers, behaviours of rustc, contents of files and numbers of attempts.", "why_tests_cant": "Quantifies over environments and over rounds of compilation and answers; tests run single compilations of known crates.", "anchors": ["src/proxy/subprocess.rs:193-233", "src/proxy/subprocess.rs:246-317", "src/proxy/subprocess.rs:431-436", "src/crate_index.rs:251-315"]}
{"id": "C253", "title": "What the details of an off-tree usage say is true", "statement": "For a problem about code from a package that is not a dependency, the details say \"Although A doesn't depend on B, we found code that used the X API\", where A is the package of the usage, X its API and B a package that is reached by each of the usages listed and that is not among the dependencies of A; there is at least one usage.", "quantifier": "For all configurations, histories of the checker and usages.", "why_tests_cant": "Joins the checker's decision with the text shown, for all dependency graphs; tests look at one of them at a time.", "anchors": ["src/ui/full_term/problems_ui.rs:1063-1097", "src/checker.rs:415-481"]}
{"id": "C254", "title": "The preview of a fix shows what it does and every change", "statement": "The preview of a fix in the full-screen interface says what the fix does, says why it cannot be applied if it cannot, and shows every line that it removes from or adds to the configuration file, under a heading if there are any. Unchanged lines are left out only if the pane is too small, gaps are marked unless at the end, and then the preview fits into the pane unless no unchanged line is left. This holds in panes of at least nine lines, and in all panes if the program was built without checks for overflow.", "quantifier": "For all fixes, files, errors and sizes of the pane.", "why_tests_cant": "Quantifies over all edit scripts and terminal sizes; tests of the trimming use a few fixed ones and none draws a preview.", "anchors": ["src/ui/full_term/problems_ui.rs:478-497", "src/ui/full_term/problems_ui.rs:732-755", "src/ui/full_term/problems_ui/diff.rs:60-126"]}
{"id": "C255", "title": "Previewing a fix never crashes, whatever the size of the terminal", "statement": "Selecting a fix in the full-screen interface shows its preview in a terminal of any size, however the program was built.", "quantifier": "For all sizes of the pane.", "why_tests_cant": "Refuted: needs a small terminal and a build with checks for overflow.", "anchors": ["src/ui/full_term/problems_ui.rs:752"]}
{"id": "C256", "title": "The source of a library function in a backtrace is the installed one", "statement": "A place in the standard library, which the debug information names /rustc/HASH/PATH, is shown in a backtrace as SYSROOT/lib/rustlib/src/rust/PATH at the same line and column; places of different library sources stay different; every other place is shown as it is. No function at an address of the call chain is left out, and one without a name or a place is shown as ?? or without a place.", "quantifier": "every sysroot, hash, path, line and column; every call chain and debug information", "why_tests_cant": "The debug information of a test binary has one hash and a few library files; the paths of a compiler installed elsewhere do not occur.", "anchors": ["src/location.rs:35-46", "src/symbol_graph/backtrace.rs:71-95"]}
{"id": "C257", "title": "Every procedural macro that cargo lists is reported unless permitted", "statement": "If no two packages of the build have the same name and version, then exactly the listed packages that are procedural macros and that are not permitted to be one are reported.", "quantifier": "every list of packages, every set of permissions", "why_tests_cant": "Tests use a handful of packages with different names.", "anchors": ["src/crate_index.rs:83-154", "src/checker.rs:217-230"]}
{"id": "C258", "title": "A procedural macro is reported also if another package has its name and version", "statement": "A procedural macro that is not permitted is reported whatever other packages the build has, including one of the same name and version from another source, which cargo allows.", "quantifier": "every list of packages in which one source has a name and version only once", "why_tests_cant": "Two packages with one name and version need two sources, for instance a registry and a git repository.", "anchors": ["src/crate_index.rs:92-132", "src/crate_index.rs:196-204"]}
{"id": "C259", "title": "The package pane and the tree are about the package of the selected problem", "statement": "When a problem that is about a package is selected, the pane shows description, version, documentation and directory of the package that its headline names first, as cargo lists them, with the version in the title exactly if there is another package of that name, and the tree is asked for this name and version.", "quantifier": "every problem, every list of packages without two of the same name and version", "why_tests_cant": "Whether a pane shows the right package is a relation between headline and pane for every kind of problem.", "anchors": ["src/ui/full_term/problems_ui.rs:615-675", "src/problem.rs:214-235"]}
{"id": "C260", "title": "A run that is given up does not start the build", "statement": "If any question asked before the build is answered by giving up - by the user, or with --fail-on-warnings by the program itself - then cargo is not started.", "quantifier": "every run and every question asked before the build", "why_tests_cant": "The answer to one of four questions is dropped; a test of the other three passes, and the exit code is right in any case.", "anchors": ["src/main.rs:376-381", "src/main.rs:383-391", "src/ui/null_ui.rs:20-60"]}
{"id": "C261", "title": "A message that there is room for is shown completely", "statement": "A message in a box over the screen (the tree of a package, internal diagnostics, questions) is shown line by line if the screen has room for its lines and a border. Otherwise lines are broken for the width of the screen, and what is missing is at the end.", "quantifier": "every message, every size of the screen below 65536, every way of breaking lines that keeps rows within the width and loses at most a space between two rows", "why_tests_cant": "Needs every message and every size of the screen.", "anchors": ["src/ui/full_term.rs:206-227", "src/ui/full_term/problems_ui.rs:887-911"]}
{"id": "C262", "title": "A question on the screen says how to answer it", "statement": "When the interface asks whether fixes are to be accepted automatically, the line that says which keys accept and cancel can be read, if the screen has room for that line and for as many rows as the question has lines.", "quantifier": "every size of the screen, every way of breaking lines", "why_tests_cant": "The line disappears only on screens narrower than another line of the question.", "anchors": ["src/ui/full_term/problems_ui.rs:873-911"]}
{"id": "C263", "title": "The help shows the names of the keys", "statement": "On a screen that has room for the help, each key that a row of the help is about can be read in that row.", "quantifier": "every view, every size of the screen", "why_tests_cant": "The rows are right; the width of their column is not.", "anchors": ["src/ui/full_term/problems_ui.rs:809-871"]}
{"id": "C264", "title": "What is typed into the prompt for a comment can be seen", "statement": "The comment is shown in the prompt, and the cursor is in the prompt, at the place where the next character goes.", "quantifier": "every comment, every width of the screen", "why_tests_cant": "Needs comments longer than the prompt.", "anchors": ["src/ui/full_term/problems_ui.rs:690-699"]}
{"id": "C265", "title": "A build goes on while the interface is open", "statement": "Whatever cargo prints and whenever the full-screen interface is opened, the run can reach its end without the user quitting.", "quantifier": "every capacity of the pipes, everything cargo may print, every interleaving of cargo, the threads that pass on its output, the interface and the main thread", "why_tests_cant": "Needs more output than a pipe holds, an open interface and three parties waiting for each other.", "anchors": ["src/proxy.rs:174-212", "src/proxy.rs:278-298", "src/ui/full_term.rs:62-79", "src/ui/full_term.rs:100-152"]}
{"id": "C266", "title": "When the process ends, the output of cargo has been passed on", "statement": "When the process ends without the user having quit, everything that cargo printed, in particular why it failed, is on the terminal.", "quantifier": "everything cargo may print, every interleaving of the threads", "why_tests_cant": "What is missing depends on the scheduling of threads that nobody waits for.", "anchors": ["src/main.rs:302-322", "src/main.rs:414-433", "src/proxy.rs:200-212", "src/proxy.rs:267-298"]}
{"id": "C267", "title": "A crash while a request is judged does not let the build pass", "statement": "If the thread that serves a request panics while it judges the request, reloads the configuration for it or reports its problems, then the process that sent the request is never told to continue, nor anything else, and the run does not end with success, in any interleaving of requests, decisions, crashes and ends of processes. The same holds if the interface panics while it has the checker locked, or the check for unused permissions panics.", "quantifier": "all numbers of jobs and all sequences of events of a run, of any length", "why_tests_cant": "A crash can hit any thread at any moment; tests run without crashes.", "anchors": ["src/main.rs:302-345", "src/main.rs:436-457", "src/main.rs:577-606", "src/proxy.rs:198-240", "src/proxy.rs:299-314", "src/problem_store.rs:41-54"]}
{"id": "C268", "title": "A run ends when its interface is gone", "statement": "If the interface ends with an error or a panic, requests that wait for a decision are told to give up, and the run ends; after an error of the interface it does not end with success.", "quantifier": "all sequences of events of a run", "why_tests_cant": "Needs an interface that fails in the middle of a run, and the absence of any continuation cannot be observed.", "anchors": ["src/problem_store.rs:41-54", "src/main.rs:312-318", "src/ui.rs:81-84", "src/ui/full_term.rs:100-104"]}
{"id": "C269", "title": "A panic of the interface makes the run fail", "statement": "If the interface panics, the run does not end with success.", "quantifier": "all sequences of events of a run", "why_tests_cant": "A panic can come at any moment of any run.", "anchors": ["src/main.rs:312-318"]}
{"id": "C270", "title": "The threads of a run never block each other for ever", "statement": "The main thread, the threads of requests and the interface, each of which goes through any sequence of the parts of the program that lock the checker or the store of problems, never all wait for locks; in whichever order they have run so far, all of them can still come to their end.", "quantifier": "all numbers of threads, all sequences of parts and all interleavings", "why_tests_cant": "Deadlocks depend on the interleaving of threads.", "anchors": ["src/main.rs:302-345", "src/main.rs:577-606", "src/problem_store.rs:41-54", "src/ui/null_ui.rs:87-150", "src/ui/basic_term.rs:53-91", "src/ui/full_term/problems_ui.rs:353-367", "src/ui/full_term/problems_ui.rs:566-613"]}
{"id": "C271", "title": "Other requests are judged while the user thinks", "statement": "While an interface waits for the user, or a request for a decision, that thread has neither the checker nor the store of problems locked.", "quantifier": "all numbers of threads, all sequences of parts and all interleavings", "why_tests_cant": "Tests answer at once.", "anchors": ["src/ui/basic_term.rs:53-91", "src/ui/full_term.rs:136-142", "src/problem_store.rs:43-49"]}
{"id": "C272", "title": "The temporary directory of a run is removed, one that was given is not", "statement": "When the process of a run other than a summary has ended, and no request was still being served then, the temporary directory that was made for it is gone. A directory given with --tmpdir is never removed.", "quantifier": "all courses of runs: requests that come and end, an interface that ends or crashes, the steps of the main thread", "why_tests_cant": "The directory is shared by threads that end in any order; tests do not look for what is left in the temporary directory.", "anchors": ["src/tmpdir.rs:5-25", "src/main.rs:217-231", "src/main.rs:246-300", "src/main.rs:302-345", "src/checker.rs:51-56"]}
{"id": "C273", "title": "cargo acl leaves no temporary directory behind", "statement": "Whatever was run, the temporary directory made for it is gone when the process has ended.", "quantifier": "all courses of runs", "why_tests_cant": "Tests do not look for what is left in the temporary directory.", "anchors": ["src/main.rs:303-305", "src/main.rs:217-231", "src/ui.rs:82-84", "src/problem_store.rs:15-31"]}
{"id": "C274", "title": "The terminal is as before when cargo acl has ended by itself", "statement": "With the full-screen interface, and if it can be opened, the terminal is neither in raw mode nor on the alternate screen at every orderly end of the process, and also as soon as the interface is gone, be it by a crash. Before the first problem the terminal is not touched.", "quantifier": "all courses of runs, with crashes of requests and of the interface, and all numbers of jobs", "why_tests_cant": "Tests have no terminal and no crashes.", "anchors": ["src/ui/full_term.rs:62-82", "src/ui/full_term.rs:98-104", "src/ui/full_term.rs:167-175", "src/main.rs:302-345"]}
{"id": "C275", "title": "The terminal is as before however cargo acl has ended", "statement": "When the process has ended, the terminal is neither in raw mode nor on the alternate screen, also after a panic and if the interface could not be opened.", "quantifier": "all courses of runs", "why_tests_cant": "Tests have no terminal and no crashes.", "anchors": ["src/ui/full_term.rs:69-82", "src/ui/full_term.rs:167-175", "src/main.rs:302-345"]}
{"id": "C276", "title": "A function from debug information is shown under its own name", "statement": "A function known from debug information is written as its modules and its name with two colons in between, and so is the name that was matched with an API. If no part of them has a colon, two functions with the same text are the same function.", "quantifier": "all names with any number of modules", "why_tests_cant": "Tests look at single names.", "anchors": ["src/names.rs:388-441", "src/ui/full_term/problems_ui.rs:1007-1018"]}
{"id": "C277", "title": "The details of a use are a table", "statement": "Whatever the keys and values are, each line of the details of a use starts with its key, and all values start in the same column, behind at least one space. Making the table never crashes.", "quantifier": "all lists of keys and values", "why_tests_cant": "Tests look at no pane with details; the width of the padding is a difference that would crash if it were negative.", "anchors": ["src/ui/full_term/problems_ui.rs:526-550"]}
{"id": "C278", "title": "Colours are used as --colour says", "statement": "Cargo is told to use colours exactly if --colour=always is given or, by default, if the standard output is a terminal. With --colour=always our own messages have colours, with --colour=never they have none, whatever the terminal and the environment are.", "quantifier": "all settings, terminals, arguments and configurations", "why_tests_cant": "Tests run without a terminal.", "anchors": ["src/colour.rs:13-41", "src/main.rs:218-219", "src/proxy/cargo.rs:37-39"]}
{"id": "C279", "title": "Output without colours can be had", "statement": "With --colour=never the output of cargo has no colours, and by default output that goes to a file has none.", "quantifier": "all settings and terminals", "why_tests_cant": "Tests run without a terminal.", "anchors": ["src/colour.rs:23-41", "src/proxy/cargo.rs:37-39"]}
{"id": "C280", "title": "--print-timing adds up what was measured", "statement": "With --print-timing there is one line for each category that was reported, with the sum of all that was reported for it, in the order in which the categories were reported for the first time; printing never crashes. Without the option nothing is recorded.", "quantifier": "all sequences of reports", "why_tests_cant": "Tests do not look at timings.", "anchors": ["src/timing.rs:9-57"]}
{"id": "C281", "title": "The log accounts for everybody who was told to continue", "statement": "With --log-file, at every level: when somebody who reported problems is told to continue, the log has a line for each of them and, further down, one that says that it was resolved and names at least the usages that were reported. What the log says was resolved had been reported in an earlier line, with all the usages named, or had been put in the place of another problem.", "quantifier": "all histories of reports, decisions and aborts, all levels", "why_tests_cant": "No test reads a log, and what is merged and settled depends on the interleaving of reports.", "anchors": ["src/logging.rs:10-70", "src/problem_store.rs:70-86", "src/problem_store.rs:143-164"]}
{"id": "C282", "title": "Everything the user is asked is in the log", "statement": "A question that is put to the user is reported in the log before it is said to be resolved.", "quantifier": "all histories of reports, decisions and aborts", "why_tests_cant": "No test reads a log.", "anchors": ["src/problem_store.rs:70-86", "src/problem_store.rs:143-164"]}
