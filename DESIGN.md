# Design of the verification of cackle

Source: `/repo` (cackle-rs/cackle at the pinned commit), read as text. Nothing is
built or executed. Everything below is written before the proofs; later
amendments are recorded at the end.

## 1. Method

* The relevant Rust functions are transcribed, one by one, into total Gallina
  functions (files `*Model.v`). Every definition cites file and lines and says
  where it simplifies.
* What a property means is written down separately from the model (definitions
  in `*Spec.v`, or directly in the theorem statement), in terms that a reader of
  the English text can recognise. Specifications do not call the model's helpers
  except for plain data types.
* Proofs live in `*Proofs.v`.
* The theorems that count are in `*Props.v`: each is closed by `exact`, followed by
  `Print Assumptions` and by at least one `Example` that meets its
  hypotheses.
* A claim that is false of the faithful model is kept as a theorem
  `..._refuted` with a concrete witness, next to the strongest true variant.
* Every theorem is attacked with deliberately wrong models in a scratch copy;
  `seeded/LOG.jsonl` has the record.

### Conventions of the model

| Rust | Model |
|---|---|
| `&str`, `String`, `Path` | `list ascii` (the UTF-8 bytes); character-boundary panics are explicit |
| `FxHashMap`/`BTreeMap` | std++ `gmap`, or an association list where iteration order matters |
| `FxHashSet`/`BTreeSet` | std++ `gset` or a duplicate-free list |
| `&mut self` | state in, state out |
| `Result`, `Option` | sum / `option` |
| `panic!`, `unwrap`, slice out of range | an explicit `Panic` value |
| loops | structural recursion; where the bound is not structural, fuel, with a theorem that the fuel suffices (or a refutation) |
| integers | unbounded `nat`/`Z`/`N`, wrap-around only where it matters (version cast) |
| mutex-protected state shared by threads | a step function; schedules are lists of steps, since every operation holds the lock throughout |
| file system, sub-processes, rustc's lexer, serde_json, toml, gimli, object | parameters of the theorems (oracles) or the abstract values they produce |

## 2. Trusted base

* Coq 8.16.1's kernel (`coqc`, and `coqchk` at the end), and the std++ library
  definitions used in statements.
* `Print Assumptions` under every theorem; the intended output is `Closed under
  the global context` everywhere (no axioms). Should a standard library axiom
  become necessary, it is listed here: *none so far*.
* The transcription from Rust to Gallina (by hand, by reading).
* The behaviour of the outside world as described in the table below.

### Modelled

| File in /repo/src | Functions |
|---|---|
| checker/api_map.rs, checker.rs `update_config` | all of ApiMap; table building |
| config/permissions.rs | all except serde impls |
| config.rs | merge_built_ins, load_imports, unused_imports, make_paths_absolute, parse_raw pipeline |
| config/versions.rs | VERSIONS, apply_runtime_patches, update functions |
| config_validation.rs | validate |
| checker.rs | api_used, mark_parent_apis_used, check_unused, update_config, build script check, request handling, link-info queue |
| problem.rs, problem_store.rs | dedup key, merge, severity; the whole store |
| demangle.rs | all iterators |
| names.rs | names iterator |
| unsafe_checker.rs, extern_checker.rs | scan over token lists, locations |
| build_script_checker.rs | all |
| deps.rs, fs.rs | parsing, unescaping, atomic write |
| proxy/rpc.rs, proxy/subprocess.rs | framing; get_command, proxy_rustc loop, proxy_binary loop |
| crate_index.rs, crate_index/lib_tree.rs | ids, selectors, path lookup, tree building |
| sandbox.rs, sandbox/bubblewrap.rs | argument list construction |
| config_editor.rs | add_to_array, allow/remove edits, build-instruction suggestions, fixes_for_problem |
| ui/null_ui.rs, main.rs | decision logic, request loop |
| ui/full_term/problems_ui/diff.rs | remove_excess_context |
| summary.rs | Summary::new, counts, options |
| symbol_graph.rs, symbol_graph/{backtrace,dwarf}.rs | target closure, export detection, find_frames, namespaces |

### Not modelled

TOML, JSON, ELF, DWARF and archive *decoding* (toml, toml_edit formatting, serde_json,
object, gimli, ar, addr2line), rustc's lexer, cargo, bwrap itself, the terminal
UIs' drawing code, logging, timing, colours, process spawning, temp directories,
hash iteration order except where a claim is about it (then it is quantified over).

## 3. Per property

C01 Model the trie (children map + api set per node) with create_entry, mut_tree, update_tree, get, and update_config's four passes over API definitions. Prove get = declarative include/exclude predicate, by induction over the operation sequence with an invariant describing the label of every node; order independence follows.

C02 Model the flattening and three inheritance layers over `gmap`. Prove lookup characterisation: membership in effective list iff membership in some ancestor's configured list. Selector chain defined separately as an inductive ancestor relation.

C03 Same model. Spec: first `Some` on the chain. Refutations for pass_env and extra_args order with witnesses.

C04 Model validate over the effective configuration; prove iff with a declarative well-formedness predicate.

C05 Model make_paths_absolute; prove for pkg, pkg.build, pkg.test recursively; refute for from.* and the global sandbox.

C06 Model VERSIONS as data, runtime patches and update functions on a document abstraction (the raw configuration); prove equality of the effective configuration for all versions.

C07 Model import merging over maps with an oracle for exported definitions; prove lookup characterisation and error conditions; refute the misspelt import.

C08 Model api_used's partition; prove permutation/exactly-once statement.

C09 Model crate_infos with unused sets; history = list of usages; invariant proof.

C10 Same model; refutation by two loads; positive part for new grants.

C11 Refutation plus the weaker truth (what would be reported).

C12 State machine with queue; invariant over request lists; check itself is an oracle returning problems or not.

C13-C15 Full store model with problem keys abstract (any type with decidable equality) and payload merging; ghost history; invariant by induction over operation list; panic as explicit value; refutation for same-key replacement.

C16-C18 Byte-level model of the demangler with fuel-free step function (`next`), plus runner with fuel; termination measure = remaining bytes; refutation by exhibiting a fixed point of `next`; encoder functions for round trips written independently.

C19 Model of NamesIteratorPos over token lists with offsets; termination by measure; plain path theorem; trait-impl theorem.

C20-C21 Token list model (lexer output as oracle); spec by positions in the significant-token sequence; refutation for the even-length tail.

C22-C24 Byte-level model of the checker and the suggestions; spec with prefix relation.

C25 Escape function as rustc writes it, parse, round trip by induction.

C26 File system as map from path to content with a two-step writer; crash = prefix of steps; reader at each point; interleaving of two writers for the refutation.

C27 Byte framing with little-endian length; serde_json as an arbitrary injective codec (encode/decode with decode (encode x) = Some x).

C28 Token functions and comma-joined list; validity hypothesis on package names (no comma) stated explicitly.

C29 Path as component list; nearest ancestor.

C30 Graph as an adjacency function on a finite list of packages with a topological rank; listing = depth-first print with a visited set; prove the builder computes reachability.

C31-C32 Sandbox arguments as a list of abstract mount/env operations; semantics of mounts = last covering mount wins (documented bwrap behaviour, part of the trusted base).

C33 List transformer; spec as relation between input and output lists.

C34-C35 Loops against an adversarial environment stream (configs, results, answers); partial-correctness statement over every finite run.

C36-C38 Editor over an abstract document (the per-package sections) composed with the inheritance model.

C39 NullUi over the store model.

C40 Block computation and greedy loop, result specification through a relation (subsequence with markers).

C41 Summary over the permission model; option logic.

C42-C45 Graph models with visited sets and fuel with sufficiency proofs; witnesses for refutations.

## 4. Amendments

The list above was written first. While proving, claims that turned out false in part were split: the
true part keeps its id, the refuted part got an id of its own at the end of the list (status "partial",
theorem `..._refuted`). Areas that were not planned were added.

### Splits of the first forty-five claims

* C03 → C46 (pass_env, extra_args); C07 → C47 (misspelt imports); C09 → C48; C12 → C49; C10 → C50;
  C14/C15 → C51; C22 → C52; C24 → C53; C16–C18 → C54–C57; C19 → C58–C61; C20/C21 → C62; C25 → C63–C65;
  C26 → C66, C67; C28 → C68; C30 → C69; C31/C32 → C70–C72; C34/C35 → C73–C78; C36–C38 → C79–C90;
  C39 → C93, C97–C100; C40 → C101–C103; C41 → C104–C108; C43 → C119; C44 → C120, C121;
  C45 → C124–C130.
* The specification of C05 is about files as TOML documents, C25 about the names rustc wrote, C12 about
  object files given by their paths, C101–C103 about rendered lines.

### New areas

* Documents (`Toml*`, `Document*`, `Editor*`: C79–C92): parsed TOML files are association lists of items;
  `Config::load` is read as a function of the parsed file, so that the effect of an edit can be stated
  on the loaded configuration. Fixes are those that `fixes_for_problem` offers.
* Interfaces (`Ui*`: C93–C100): NullUi, BasicTermUi and the stages of main.rs as one transition system
  with the problem store.
* Collection (`Graph*`, `Collect*`: C109–C119): from object files (symbol tables, sections, relocations)
  to charged packages and APIs, and with C12 to acceptance (C112).
* Backtraces and debug information (`Backtrace*`, `Dwarf*`: C44, C45, C120–C130): trees of debug-info
  entries with attributes are the input.
* The full-screen interface (`Term*`: C131–C145, C165): keys, modes, the screen's list, its highlighted line
  and the previewed diff, interleaved with submissions, reloads and foreign changes of the file. One
  step is one part of the loop of full_term.rs, between which other threads may act; drawing is one step.

* Offered changes of API definitions (`Prefix*`: C146–C151): the paths that usages share, computed from
  their names, in place of the oracle used by the editor's theorems; their effect on the classification
  of names goes through editing, loading and the API map.

* Starting cargo and the wrappers (`Launch*`: C152–C164): the command line and variables of cargo, the
  dispatch of a process on its arguments and environment, the script that takes the place of a linked
  program (with a specification of the part of bash it uses), and the loop that serves requests as a
  transition system (loop, connections, handler threads step by step, aborts, the end of cargo).

* Reports (`Report*`: C166–C171): the texts of problems, read back by a reader defined in the specification;
  the list of uses and the view of a source file in the full-screen interface.

* Around the analysis (`Front*`: C172–C184): the directory that is analysed, the table of built-in APIs, the
  initial configuration from the typed lines to the classification of names, the prompt of the basic
  interface as a transition system with changes of the file by others, saved and replayed requests, and
  the APIs that are offered for import.

* Packages themselves (`Vet*`: C185–C189): which procedural macros, possible exports and newer versions are
  reported, what the offered fixes do about it, which packages a source file belongs to after a history
  of builds, and how rustc is sandboxed. The functions are in `CheckerModel.v`, `ConfigModel.v` and
  `EditorModel.v`.

* Titles of fixes (`Title*`: C190–C193): the text of every edit's title, and what it tells apart.

* Archives (`Archive*`: C197–C199): from the arguments of the linker through files and entries of Rust
  libraries to the references that are judged.

* Messages, shown commands and output (`Wire*`: C200–C204): messages of absurd length, the command line of
  the sandbox as it is shown and as bash reads it, and the threads that pass on the output of cargo.

* The whole run (`Whole*`: C205): from the exit code of `cargo acl` to the uses of APIs in linked objects;
  composed of the theorems about the parts.

* The configuration of processes (`Flow*`: C194–C196): its encoding as JSON and back, and reloading as a
  transition system of threads, saves and processes; composed with the editor's theorems.

* Names, scopes and lengths in statements no longer use helpers of the model: `CollectSpec.names_of_symbol`
  and `names_of_debug` say which names something has by the relations of C19 and C20, `ConfigSpec.crate_scope`
  says which section of the configuration a compiled crate belongs to, `CollectSpec.no_longer` compares
  lengths. `CollectNamesProofs.v` relates them to the model.

* Text, crates and API membership are stated without the model's helpers too. `TextSpec.is_utf8` says what
  UTF-8 is by code points and their encodings; `Utf8Proofs.utf8_valid_spec` proves that the model of
  `from_utf8` accepts exactly that, so the validator is no longer trusted. `ApiMapSpec.owned` says which APIs
  own any text of a name (C01_any_text), `CollectSpec.classifies`, `CheckerSpec.crate_of` and
  `NamesSpec.crate_is`, `module_is`, `function_shim` are used in place of functions of the model.

* Compilers in a run (`Compile*`: C207–C208): the results of the stages, the problem store, the flattened
  configuration, the serving loop and every wrapper of a compiler with all its attempts are one record. Its
  premises (`belongs`, `checks`) say how the parts fit; the claims join those about the parts into
  statements about the exit code of `cargo acl`, with or without a sub-command.
* Surroundings (`Probe*`: C209–C214): what running bwrap, rustup and rustc gives is a parameter; the claims
  say what cackle makes of every possible answer.
* Help of fixes (`Help*`: C215–C218): the text of the help that depends on the fix is modelled and given a
  meaning by an inductive relation. Promises about later versions are theorems about loading one document
  under two sets of built-in definitions, or two sets of exports.
* The profile (`Profile*`: C219–C222): no new model; the call of cargo (`Launch*`), the call of the compiler
  (`Subprocess*`) and reading a link (`Archive*`) are asked what they say about the profile that is built.
* Options (`Options*`: C223–C229): the choice of the interface, what is printed at the end of a run, and which
  of the loaded configurations the calls of cargo are made with; joined with the interfaces (`Ui*`, `Term*`) and
  the calls (`Launch*`).

* Identity (`Identity*`: C230–C234): the whole of `proxy_rustc` with everything it reads from the environment: the
  crate, the configuration, the compiler, the directories of the sandbox. C230 compares the compilation after an
  accepted build script with the one without, for rules that leave a list of variables alone; C231–C234 are witnesses
  for a rule that does not.
* Response files (`Response*`: C235–C237): no new model; the reading of the linker's arguments (`Deps*`, `Launch*`) is
  compared with how linkers expand `@file`.
* Details (`Details*`: C238, C239): the texts of the pane with details on top of `ReportModel.v`.
* Keys (`Keys*`: C240–C243): the rows of the help are modelled as they are; each text gets a meaning as a relation
  between states and keys of `TermModel.v`, and names of keys are read off the rows.
* Manual (`Manual*`: C244–C246): no new model; CONFIG.md is written down as a relation between places of a file and
  kinds of values, and compared with the reading of files (`Toml*`, `Config*`). This is the direction that C91 and C92
  leave open: they say that nothing undocumented is read, C244 that everything documented is.
* Recall (`Recall*`: C247, C248): no new model; the comments confirmed in a run of `TermModel.v` are collected from
  the keys that were taken, and the prompt is compared with a walk over them.
* Methods (`Methods*`: C249–C251): no new model; the part of the v0 grammar for paths of implementations, on top of
  `Demangle*`, and for C250 the charging of packages (`Collect*`).
* Wrapper (`Wrapper*`: C252): no new model; ties the model of one wrapper of rustc (`Subprocess*`) to the variables it is
  started with (`Identity*`), so that the claims about a crate and a configuration become claims about the crate cargo
  compiles and the file the main process wrote.
* Explain (`Explain*`: C253): no new model; ties the explanation in the details pane (`Details*`) to what the checker
  found (`Checker*`).
* Stop (`StopProps`: C260): the answer to the announcement of a newer version, in terms of the runs of Ui.
* Sysroot (`Sysroot*`: C256): the places of a backtrace, moved to the installed sources of the standard library.
* Package (`Package*`: C257-C259): the map of packages by name and version, the procedural macros found in it, the pane
  with details of a package and the arguments of `cargo tree`. The list of packages used elsewhere in the model has no
  two packages of the same name and version.
* Popup (`Popup*`: C261-C264): sizes and contents of the boxes over the screen. Breaking of lines, which ratatui does, is
  any function with the properties that `PopupSpec.breaks_lines` lists.
* Output (`Output*`: C265, C266): cargo, the two threads that pass on its output, the interface and the main thread over a
  whole run, on top of the threads of `Wire*`, with pipes of a limited capacity.
* Preview (`Preview*`: C254, C255): the lines of the preview of a fix, with the subtraction of sizes with and without
  checks for overflow, on top of `Diff*`.
* Crash (`Crash*`: C267-C269): what the requests, the interface, cargo and the main thread can do in any order, where threads
  may panic and leave a mutex poisoned or the interface may return an error. Proved by an invariant: a poisoned checker, or a
  request without an answer while cargo has not succeeded, never leads to success. Refuted: that a run without an interface
  ends, and that a panic of the interface makes the run fail.
* Lock (`Lock*`: C270, C271): for each part of the program that locks the checker or the store, the order in which it does.
  Proved by an invariant on the actions each thread has left, and by induction on how many are left.
* Temp (`Temp*`: C272, C273): who owns the temporary directory, the checker and the store of problems, and when the last owner is
  gone. Proved by an invariant. Refuted: that a summary, or a run with a request being judged at its end, removes the directory.
* Restore (`Restore*`: C274, C275): the modes of the terminal in a run with crashes, on top of Crash. Proved by an invariant.
  Refuted: that the terminal is as before after a panic of the main thread, or if opening the interface fails half-way.
* Naming (`Naming*`: C276, C277): how names and the details of a use are written. Proved by induction; texts are read back.
* Colour (`Colour*`: C278, C279): what --colour means for cargo and for our own messages. By cases. Refuted: that --colour=never
  reaches cargo.
* Timing (`Timing*`: C280): the collector of timings. Proved by induction on the reports.
* Audit (`Audit*`: C281, C282): the log file and the lines of the problem store in it. Proved from the invariants of
  histories of the store (C13 to C15) by splitting runs at the operations that write a line. C282 is refuted by a
  missing configuration.

### What is modelled now

The tables of section 2 are as of the beginning. As of now, by file of /repo/src (types, `Display` texts that
no claim mentions, constructors and tests aside):

* Whole logic: build_script_checker, colour, timing, tmpdir, checker, checker/api_map, checker/common_prefix, config,
  config/built_in, config/permissions, config/versions, config_validation, config_editor, crate_index,
  crate_index/lib_tree, demangle, deps, extern_checker, unsafe_checker, fs, link_info, location, names,
  outcome, problem, problem_store, proxy/cargo, proxy/errors, proxy/subprocess, sandbox/bubblewrap, summary,
  symbol, symbol_graph, symbol_graph/backtrace, symbol_graph/dwarf, symbol_graph/object_file_path, ui/null_ui.
* In part: main (not `Args` parsing and logging), ui (the choice of the interface), proxy, proxy/rpc (framing; the wrappers that only connect and send are folded into it), sandbox, ui/basic_term, ui/full_term and ui/full_term/problems_ui (modes, keys, selection,
  edits, lists, texts of titles, diffs, panes and boxes over the screen; not the rest of layout and drawing),
  ui/full_term/problems_ui/diff (not the calls that style spans).
* In part: logging (the filter, and which lines about problems are written).
* Not at all: cowarc, events, syntax_styling.

### Additions to the trusted base

* Colour: cargo uses colours if told to, and otherwise, unless told not to, if its stderr is a terminal.
* Temp: the last owner of an `Arc` drops its value; dropping a `tempfile::TempDir` removes it; `process::exit` drops nothing;
  `join` returns after what the thread owned was dropped.
* Restore: a panic unwinds (no profile says otherwise) and so drops a `Terminal`; leaving raw mode and the alternate screen works.
* Compile: cargo exits with 0 only if every compiler it started did; a compiler finds the flattened
  configuration last written; the answer it reads is the one written by the thread that served its request;
  a linker call is reported before the compiler that makes it completes; one compiler per linked crate.

* Options: whether the standard output is a terminal is a parameter; the feature `ui` is on.

* Profile: cargo takes the settings of a profile from the keys `profile.NAME.KEY` given with `--config`, the
  last one counting; of several words about debug information rustc follows the last one; `-C strip=symbols`
  leaves neither symbols nor debug information.

* Popup: ratatui breaks lines as `PopupSpec.breaks_lines` says, cuts off what does not fit into a box or a column, and puts
  the parts of a layout one after the other; texts are ASCII.
* Output: writing to a full pipe waits; a thread that wants to lock stderr waits while another has it; threads that
  nobody joined end with the process; a killed cargo closes its pipes.
* Crash: a panic unwinds its thread, poisons the mutexes that the thread has locked and closes its connection; a panic of
  the main thread ends the process with a code that is not 0; cargo waits for its processes, and exits with code 0 only
  if each of their requests was answered.
* Lock: the parts in `LockModel.v` are all that lock the two mutexes, and guards live as Rust says.

* Audit: the crate log compares levels as it documents, and the log file can be written.

* Probe: the output of bwrap, rustup and rustc is any output; white space is that of ASCII.

* Title: the text of a version and whether a package has other versions are parameters.

* Archive: opening files, what the crate ar gives for a file, parsing of objects, resolving of paths, and
  what a linked binary contains are any functions.

* Wire: allocating more than a given number of bytes ends the process; the part of bash in `LaunchSpec.v`;
  pipes and the lock of the terminal as in `WireModel.v`, without errors.

* Response: a response file has one argument per line; quoting is left out.

* Identity: cargo sets the variables of a build script after its own, so they replace them; both spellings of the
  instruction do so; white space at the end of a line is left out.

* Flow: JSON text is any printer and parser that round-trip on JSON values; replacing the flattened file is
  one step; reading it yields the whole old or the whole new text.

* Front: `Path::exists` is a function on paths; typed lines are ASCII; requests are written and read back
  by any codec that round-trips; the handler of a request is any function.

* Report: paths are compared as strings; output of programs is text (`from_utf8_lossy` left out); gutter
  width, colours and wrapping of long lines are left out; the lexer is any function that cuts a line into
  pieces; arithmetic wraps as in release builds.

* Launch: cargo stops reading options at two dashes; the part of bash in `LaunchSpec.v`; files are a map
  from paths to contents; reading a request blocks until something arrives; a killed cargo exits at some
  time; panics of handler threads and errors of `accept`, `try_wait` and spawning are left out.

* rustc's lexer: any function that cuts the text into non-empty pieces (`lexer_ok`); rustc's messages:
  an oracle; what rustc escapes in dependency files; how cargo splits lines of build scripts.
* System calls on files: atomic steps on names; no loss of power.
* JSON and TOML codecs: any pair that round-trips; semver parsing; the format of `cargo tree`.
* bwrap: a later mount covers an earlier one, an environment is cleared and then set.
* The diff library: the edit script is an input. Stages of main.rs: their results are inputs.
* object, gimli, addr2line: what they read is an input. The groups of a hash map are visited in the
  order of insertion.
* Term: errors of the terminal, layout, and the panes with source code, packages and the tree are left
  out; the text input of tui_input, the usages of a problem and its backtraces are parameters.
* Not part of the configuration model: `build_flags`, `features`, `profile` (only their types).

Every theorem of the manifest is followed by `Print Assumptions`; all of them are "Closed under the
global context".
