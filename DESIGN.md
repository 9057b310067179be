# Formal model of BuildCC (coder137/build_in_cpp) in Coq 8.16

`/repo` is read as text only; nothing is built or run.  All line numbers in the
Coq comments refer to files under `/repo/buildcc` unless a longer path is given.

## Layout (`/verif/rocq/theories`)

| kind | files | content |
|---|---|---|
| Model_*   | executable Gallina functions, one per C++ function, each with a `file:lines` citation; no proofs |
| Spec_*    | small independent vocabulary used by the theorem statements (what "current", "acyclic", "valid JSON prefix" ... mean) |
| Proof_*   | lemmas |
| Properties_* | only `Theorem Cxx_... . Proof. exact lemma. Qed.` + `Print Assumptions`, plus the non-vacuity `Example`s |

External calls are event parameters / oracles, never axioms: exit codes of
executed commands, the file system's last-write times, the iteration order of
unordered containers, the order in which worker threads run.
Fatal assertions (`env::assert_fatal`) are a distinct outcome (`Fatal`), process
kill is a `Crash` event.

## Modelling decisions

* **Paths** are POSIX strings; `make_preferred` is the identity there (Linux
  build); `lexically_normal`, `lexically_relative`, `operator/`, `filename`,
  `replace_filename`, `parent_path` are modelled after libstdc++.
* **File contents** are represented by last-write times, which is exactly what
  `PathInfoList::ComputeHash` looks at.  "Version of a file" in a statement means
  its last-write time; a content change that keeps the time is invisible to the
  code and to the model.
* **Artifacts** (object, PCH, linked target) carry their provenance: the command
  text that produced them and a snapshot of the file versions (and of the PCH /
  the objects) seen by that command.  "Current" is a statement about provenance.
* **A build run** of one target is a labelled transition system; events are the
  start of the run with a configuration, the check and execute half of each task,
  one event per parallel source compile (so the event order *is* the schedule),
  the end task, and environment events that may come at any time: file edits,
  failure of another target, kill of the process.
* **Run histories** are event lists of arbitrary length; theorems quantify over
  all lists that satisfy a stated admissibility condition.
* taskflow, fmt, nlohmann::json, CLI11, tiny-process-library are third-party (not
  in /repo): the parts relied on (DAG execution, `{name}` substitution, JSON dump
  and parse, exit codes) are modelled from their documented behaviour.

## Plan per property

| id | modelled | proof |
|---|---|---|
| C01 C02 C03 | Target LTS (`Model_Target`): Build, three tasks, EndTask, UpdateStore | one inductive invariant tying the stored schema to artifact provenance, preserved by every event; conclusion at a successful end |
| C04 C05 | same | functional analysis of RecompileSources (stored list is any permutation), run determinism |
| C06 | same | invariant: a source recorded in the stored state has been compiled successfully after its last failure |
| C07 C09 | same, with kill events and mid-run edits | the same invariant generalised by a "dead hash" predicate (a recorded time that can never be current again) |
| C08 C11 C12 C13 C14 | same | `_refuted` with a concrete history; plus the restricted positive theorem that the C01-C03 invariant gives; for C08 and C14 also: a run whose options are not the recorded ones simulates a run without a state file (Spec_Switch, Proof_Switch) |
| C10 | compile events of the LTS | permutation induction: adjacent compiles commute up to order of the record |
| C15 C50 | LTS + task state | invariant: FAILURE absorbs; no execution event enabled after it except already scheduled compiles |
| C16 C17 C20 | JSON values, to_json/from_json of both schemas | structural round trip; lookup lemmas |
| C18 C19 | JSON text: dump(4) with string escaping and a full JSON parser | parser/printer round trip; no strict prefix parses |
| C21 C22 C23 C25 | path functions | component-list normal form; injectivity; counterexamples |
| C24 | command text + POSIX word splitting | splitting lemma for quoted paths; `_refuted` for plain ones |
| C26 C27 | fmt template scanner, argument store | induction on the pattern; history induction |
| C28 C29 | Copy/Insert over the 17-option record | case analysis over options, induction over the option list |
| C30 C31 | classification, Find, Verify | set/list reasoning |
| C32 C33 | ScopedStorage as state machine with object identities | refinement to a first-wins map; leak counterexample + exact characterisation |
| C34 C35 C36 | Reg build/dep graph with the BFS | reachability soundness/completeness, invariant over call sequences |
| C37 | token scheduler for the accepted graph | invariant over all schedules |
| C38 | registration calls | trace semantics |
| C39-C43 C46 | CustomGenerator LTS, one event per id | invariant as for targets |
| C44 C45 | Template/File generator callbacks on top of the generator model | composition; counterexample |
| C47 C48 C49 | util, plugins | list induction; JSON text model reused; counterexample |
| C51 C52 C53 | Target LTS | progress by case analysis on the program counter and induction on the remaining work; the C01-C03 invariant without a stored state |
| C54 | Reg model with RunBuild and RunTest | invariant over schedules of the task graph |
| C55 C56 | Find, Verify, the list of verified toolchains | list reasoning; counterexamples |
| C57 C58 C59 | generator LTS with deletions and kills; template patterns | counterexamples, invariant |
| C60 | MessagePack encoder and decoder | round trip by induction on the value |
| C61 C62 C63 | the gcc templates through the command model and a POSIX word splitter | word-by-word lemma over the template; counterexample for library names |
| C64 C65 C66 | the calls that describe a target, as a fold over calls | induction over the calls; every run of the target model for repeated sources |
| C67 C68 C69 | toolchain creation over a storage history | invariant over operations; counterexamples |
| C70 C71 | Verify with a machine that runs commands | characterisation through the word splitter; counterexamples |
| C72 | Target constructor, gcc, msvc, MinGW and generic classes | equality of the created targets |
| C73 | the same, then the calls of Model_Api | induction over the calls, table of class flags |
| C74 C75 | files a target writes | paths as locations, lexical relative paths never absolute; counterexamples |
| C76 | unique_id | injectivity; counterexample |
| C77 | msvc command templates | formatting by tokens |
| C78 | creation, calls, compile command | composition with C61 and the shell word splitter |
| C79 | buildexe: command line to target, buildcc target, library files | composition of the creation, call and Insert theorems, per option |
| C80 | generated header, a reader of C++ tokens and members | induction over the libraries; refutation by two headers |
| C81 | script and immediate targets in the run model of C01 | stored state after a successful run; refutation by a run |
| C82 | main as a list of what happens, given the answers of the outside | case analysis over all answers |
| C83 | command of the script | shell word splitter |
| C84 | BUILDCC_HOME, libraries | case analysis, induction over entries |
| C85 | target of the toolchain check | creation and call theorems; shell word splitter |
| C86 | main | refutation by a failing script |
| C87 | Args: Init, AddToolchain, AddTarget, Parse as calls on the variables; CLI11 as the values it collects | induction over the added toolchains |
| C88, C89, C90 | same | refutation by a command line; the positive part as C87 |
| C91 | SystemInit, Reg::Init, joined with toolchain and target creation (C67, C74) | composition of C67, C87 and the fields of created targets |
| C92 | several targets (each the transition system of C08-C14) and generators under one registry and executor, sharing file times and the task state | invariant per target relating its stage to the executor's log; times of outputs only grow, so the time a link recorded identifies the output it read |
| C93 | the same | invariant: the task state is FAILURE iff a failed task is logged or a running builder has failed |
| C94 | the same | a state file that describes the present files stays so; simulation over all later events |
| C95 | the same | invariant: once FAILURE, every target in progress has seen it |
| C96 | AddPattern(s) of Model_Gen | induction over the calls against a relation on token lists |
| C97 | the same | witness; two accepted orders solve the same equations, each contains the other |
| C98 | C92 with the generators of Model_Gen run inside the program (Model_Full): all see the same files, a failure of one is seen by all | projection: each builder lives a history of its own (Model_Target / Model_Gen), so its invariant holds; wiring gives that nothing it read changes after its last step |
| C99 | the same, further runs | the project part by C94 on its projection; generators settle (C44) and stay settled |
| C100 | the same, continued after a failure | invariant over the remaining steps; generators enter with the task state FAILURE and skip |
| C101 | the calls of the bootstrap package, on any directory contents | the entries of every target are computed from the call tables (C64) and inserts (C29); the headers of custom_generator are shown to lie in none of the globbed directories (locations of paths) |
| C102 | the three targets of the bootstrap program in the project model | the program's registry is computed; outputs are no sources or headers, so only registered dependencies matter and C92 applies |
| C103 | the same | C94 |
| C104 | build scripts as sequences of calls, Copy/Insert and Build() over named objects | invariant over the script: every held file is told |
| C105 | histories of processes executing such scripts | the rule gives the wiring hypothesis of C98, C99 |
| C106 | the path functions | computation of both paths by their common prefix |
| C107 | the example program: its generators, targets, callbacks and calls of Reg | the callbacks are evaluated for any directories, C106 identifies the sources, the script is covered, C105 applies |
| C108 | the same | refuted: gen.py is no input and no tracked file, so C99 applies to runs after its edits |
| C109 | Reg::Run after the build: callback, parallel tests, their processes and output | invariant relating the state to the events of each test (a stage per test), over every interleaving |
| C110 | the same, with the console | the same invariant; refuted for output in two pieces and for level Warning |
| C111 | the same | the same invariant; refuted for the default output |
| C112 | the same, with the user's vectors | induction over the events; refuted for a shared vector |
| C113 | the file, the targets and their state files over all runs of a program (Model_Database) | invariant over whole histories: the file describes the build that the state files describe, or something is unfinished or was built in this process; refuted without the conditions on the histories |
| C114 | the members of the archive beside the target of Model_Target, with the archiver's documented behaviour (Model_Archive) | invariant over whole histories: names in the archive are names of sources; the last finished link left exactly the object files; refuted when a source is removed |
| C115 | the code after Reg::Run of four example programs (copy of a shared library beside the executable) over the projects of Model_Project (Model_PostCopy) | invariant over whole histories: outside an unfinished build of the executable the copy is the library the executable was linked with, which is the library on disk; refuted without each of the hypotheses |
| C116 | whole programs (Model_Project) | never stuck: case analysis over what the executor and the running taskflow can do, from the invariants of C92; bounded: a measure over all taskflows and the executor; succeeds: invariant that every file tracked by a started target exists, dependencies being finished and current |
| C117 | custom generator (Model_Gen) | as C116 for one generator: never stuck and a decreasing measure over the subtasks; succeeds: invariant that no exception is possible; conversely an invariant that the inputs of every id already looked at exist |
| C118 | whole programs of targets and generators (Model_Full) | as C116 and C117 together: the events of the targets form a run as in C116 (projection), each generator one as in C117; succeeds: invariant that the inputs of generators that have started exist, because what running builders write is no input of a started generator |
| C119 | a script started with --clean (Model_Clean on top of Model_Args and Model_Full): arbitrary disks, remove_all by walking paths | the state after cleaning is the initial state of C98, so C98 applies; paths of state files and outputs by the path lemmas of C74 |
| C120 | as C119 | witness: targets elsewhere; otherwise equality with the initial state |
| C121 | as C119 | witness: build directory "."; exact effect by the characterisation of remove_all; sources by the names of the paths |
| C122 | Model_Gen add_pattern, add_id_info, driven by sequences of calls | relation between calls and ids; induction over the calls, determinism and totality of the relation |
| C123 | Model_Json parse_json, a machine over the bytes | grammar as inductive relations (Spec_JsonText); both directions: induction on derivations, and strong induction on the length of the text |
| C124 | Model_Reg dep_search, whose fuel counts rounds | weights on the builders: a lower bound by induction on the rounds for a ladder of n layers; the exact number of rounds is the number of chains |
| C125 | the target of Model_Target, with contents of files, objects and targets beside it (Spec_Bytes); the tools are any functions | simulation: contents are determined by the provenance of artifacts and the contents belonging to time stamps; then C01 - C03 |
| C126 | the programs of Model_Project with contents beside them (Spec_ProjBytes); the tools are any functions | C125's simulation for all targets at once; what links write is told apart by their later times; then C92 and induction along the dependencies |
| C127 | AggregateToFile and kFormat (Model_Target.pch_header_text) against a small reader of #include lines (Spec_Pch) | computation of the fixed parts, induction on the files |
| C128 | Project::Init/Deinit and the constructors of targets (Model_Targets) | induction on the calls |
| C129 | The shared memory of the tasks: reads, writes and locks of each task's code with all branches, task order, interleaving (Model_Race) | a check of the code (weakest preconditions), invariant on executions; the race on the failure flag by running a schedule |
| C130 | The same model; the list of compiled sources replayed at the level of single reads and writes | the invariant of C129; minimal task for progress |
| C131 | The same model; reads-from in the log of accesses | ordering of conflicting tasks from the invariant, then comparison of the two logs task by task |
| C132 | Model_Torn: the events of Model_Target with the version of every file that a check or a command has found, any of those since the check before | the invariant of C01, strengthened: what was seen since the last check agrees with every record that can still be met |
| C133 | Model_Two: any number of copies of the process of Model_Target on one disk, one step of one of them at a time | all processes that loaded the same state file decide the same and write equal artifacts; what is not selected is touched by nobody; two concrete interleavings for the refutations |
| C134 | Model_Again: Model_Target with a process that waits after a run and runs again with `dirty_`, `user_`, the loaded state file and `store_` as they are | a simulation of the repeated run by a fresh process (without the state file if the previous run built something, with it otherwise); for later processes a second simulation relating the accumulated records to those of the fresh process, with the times bounded by the present ones; concrete sessions for the refutations |
| C135 | Model_GenAgain: Model_Gen with a process that waits after a run and runs again with the state loaded at its beginning | an invariant over sessions: what the state file on disk and the loaded one say about the outputs, with the times bounded by the present ones; concrete sessions for the refutations |
| C136 | Model_Late: Model_Target with calls of Model_Api between Build() and the first task; the commands keep to what Build() saw, the checks and the state file look at the changed description | a simulation between the process with late calls and the one with the calls moved before Build(); concrete sessions for the refutations |
| C137 | Model_GenLate: objects of the three generator classes with calls between Build() and the generate task, on top of Model_Gen and Model_FileGen | the process with late calls equals one of Model_Gen with another object, then the theorems of C39 and C45; concrete processes for the refutations |
| C138 | Model_Dup: n chains of the tasks of Model_Target that share the target object, one step of one of them at a time | invariant: what is not current or not recorded yet, some chain is still going to make; two concrete runs for the refutations |
| C139 | Model_GenDup: n generate tasks of Model_Gen that share the generator object, one step of one of them at a time | invariant: a generate task never harms what another has made current or recorded; two concrete runs for the refutations; a measure for the end |

Every property is expressible; those marked "(Suspected false ...)" in
`properties.jsonl` are settled by a `_refuted` theorem with a witness, next to
the strongest restricted version that is proved.

## Trusted base

* Coq 8.16.1's kernel (and `coqchk`, which accepts the whole development).
* `Print Assumptions` stands below every theorem of the `Properties_*` files and
  prints "Closed under the global context" for each of them: no axiom is used,
  not even one of the standard library.
* `coqchk -o` additionally lists seven parameters of the standard library module
  `Coq.ssr.ssrunder` (`Under_rel.Under_rel`, `Under_rel_from_rel`, `Under_relE`,
  `Over_rel`, `over_rel`, `over_rel_done`, `under_rel_done`). They come with the
  standard library files that are loaded; no theorem depends on them.
* Only Coq's standard library is imported. No `Axiom`, no `Parameter`, no
  section-less `Variable`, no functor, no `Admitted`.
* That the model says what the code does. Each definition cites the lines it was
  written from; the parts below are where it abstracts.

## What is modelled

| file | code |
|---|---|
| Model_Path | schema/path.h, object/PCH/target paths (compile_object.cpp, compile_pch.cpp, link_target.cpp), the parts of `std::filesystem::path` they use |
| Model_Json, Model_Schema | nlohmann's dump(4), parse, UTF-8 check; target_schema.h, custom_generator_schema.h, path.h (to_json, from_json), load/store |
| Model_Command | env/command.cpp with fmt's named fields |
| Model_Target | target/build.cpp, tasks.cpp, the three friends, recheck, target_serialization.cpp, end task, kill and write failures |
| Model_Gcc | targets/target_gcc.h, target_mingw.h |
| Model_Gen, Model_FileGen | custom_generator.cpp, file_generator.cpp, template_generator.cpp, custom_blob_handler.h with MessagePack |
| Model_Reg | args/register.cpp, tasks.cpp (RunBuild, RunTest), the taskflow graph and its execution |
| Model_Storage | env/storage.h |
| Model_TaskState | env/task_state.cpp with interleavings |
| Model_Util | env/util.h (split, trim) |
| Model_ToolchainConfig | toolchain_config.cpp |
| Model_Find | toolchain_find.cpp, toolchain_verify.cpp, plugins/buildcc_find.cpp |
| Model_Sync | target/api/sync_api.cpp |
| Model_CompileCommands | plugins/clang_compile_commands.cpp |
| Model_Api | target/api/*.h (sources, headers, globs, PCH, libraries, dependencies), flag_api.h, TargetInfo::Initialize |
| Model_Toolchains | toolchains/*.cpp and headers, toolchain_infos.cpp, Toolchain_generic::New, ArgToolchain::ConstructToolchain |
| Model_Targets | env.cpp Project, target_env.h, Target constructor (target.h, target.cpp Initialize), targets/target_gcc.h, target_mingw.h, target_msvc.h, target_generic.h |
| Model_BuildExe | /repo/buildexe: buildexe.cpp main, build_env_home.cpp, build_env_setup.cpp, toolchain_setup.cpp, the values of args_setup.h and ArgLibsInfo (not CLI11's parsing, nor the package that builds buildcc) |
| Model_Args | lib/args: args.cpp, args.h, parse.cpp, register.cpp SystemInit and Reg::Init (CLI11 is the value it collects for each option; what it does with the arguments and TOML files themselves, AddCustomCallback and AddCustomData are not modelled) |
| Model_Project | lib/args: register.cpp Run, tasks.cpp, register.h Build, with Model_Target for each target, Model_Reg for the executor; lib/env task_state.cpp. Of the files written by a target only its output is seen by others; a generator is any actor that writes files of a given list (its inside: Model_Gen); Reg::Run is called once per process |
| Model_Full | the same with custom generators: lib/args tasks.cpp (targets and generators), register.cpp Run, lib/target custom_generator.cpp Build/GenerateTask through Model_Gen. A callback reads and writes at one moment and writes files of a given list; state files are nobody's inputs |
| Model_Bootstrap | bootstrap/main.buildcc.cpp, bootstrap/src/build_buildcc.cpp, build_tpl.cpp, build_nlohmann_json.cpp, build_cli11.cpp, build_fmtlib.cpp, build_spdlog.cpp, build_taskflow.cpp. Not: the clean and verify callbacks, plugins after Reg::Run, flatc |
| Model_Script | what a build script does to its targets while it registers them (Model_Api, Model_Sync, Build()); calls after Build() are in Model_Late |
| Model_Chain | example/hybrid/dep_chaining/build.cpp: generators, targets, callbacks, calls of Reg. Not: the clean callback, plugins after Reg::Run, what python/gen.py writes |
| Model_Tests | lib/args: register.cpp Reg::Run and TestInfo::TestRunner, tasks.cpp RunTest, test_info.h; lib/env execute.cpp (streams), logging.cpp/.h (levels), assert_fatal.cpp. A process is any sequence of pieces and an exit; the data race on a shared vector is one atomic append per piece; timestamps of log lines and fmt's exception text are left out |
| Model_Database | plugins: clang_compile_commands.cpp Generate after Reg::Run; lib/target: tasks.cpp EndTask (BuildCompleted), target_getter.cpp IsBuilt/GetCompileCommand. The file is written by Generate and the user only; a target whose Build() was not called has no sources |
| Model_Archive | targets: target_gcc.h static library link command; lib/target: link_target.cpp BuildLink; the program ar itself is modelled after its manual (not part of the code) |
| Model_PostCopy | example: hybrid/generic/build.cpp post_build_cb, gcc/DynamicLib, mingw/DynamicLib, msvc/DynamicLib build.cpp (the copying after the run); lib/target: target_getter.cpp IsBuilt |
| Model_Clean | buildexe/buildexe.cpp clean_cb (the same in the examples), lib/args: register.h CallbackIf, Func (for this callback). Not: symbolic links, errors of remove_all |
| Model_Race | The accesses of every task to the library's own state: lib/target tasks.cpp, friend/*.cpp, custom_generator.cpp (TaskFunctor, GenerateTask), lib/env task_state.cpp, schema target_serialization.cpp. Values are left out and branches go either way. Not: the user's data, taskflow, spdlog, the main thread (it waits) |
| Model_Torn | lib/target tasks.cpp, compile_pch.cpp, compile_object.cpp, link_target.cpp again, with looks and reads that take time |
| Model_Two | lib/target tasks.cpp, schema serialization_interface.h and lib/env util.h again, for several processes that share the build directory |
| Model_Again | lib/args register.cpp (Reg::Run) and tasks.cpp (RunBuild), lib/target tasks.cpp and schema target_serialization.cpp again, for a process that runs more than once |
| Model_GenAgain | lib/args register.cpp (Reg::Run) and tasks.cpp (RunBuild), lib/target custom_generator.cpp again, for a process that runs more than once |
| Model_Late | lib/target build.cpp, tasks.cpp, compile_object.cpp, for calls of api/*.h between Build() and the run |
| Model_GenLate | lib/target custom_generator.cpp, file_generator.cpp, template_generator.cpp, for calls between Build() and the run |
| Model_Dup | lib/target build.cpp and tasks.cpp again, for a target on which Build() is called several times before the run |
| Model_GenDup | lib/target custom_generator.cpp again, for a generator on which Build() is called several times before the run |

## What is not modelled

* Windows: drive letters, `\\`, host checks other than Linux.
* Contents of files and what compilers do with them; file versions are last-write
  times, artifacts are their provenance.
* Real time: a check or a command reads its inputs at one instant, except in Model_Torn (C132).
* Memory exhaustion, exceptions from allocation, data races on `std::string`
  beyond the task state.
* taskflow's thread pool (its contract is used: every task once, after its
  predecessors), fmt's format specifications, CLI11's parser beyond the flags used.
* Logging (except what Reg::Run's tests print), plugins/graph output, `Info` text, the CMake build of BuildCC itself.

## Statements that are false of the code

For these the property stays in `properties.jsonl` as a user would expect it, a
theorem `..._refuted` exhibits or characterises the failure, and where a
restricted version holds it is proved as `..._partial`. MANIFEST.json lists them
as `partial`.

## Results

| id | property | status | theorems | note |
|---|---|---|---|---|
| C01 | A successful build leaves every object file current | proved | `C01_objects_current` | Over the Quiet regime of Spec_Target.v (edits while no run has looked at the files yet, arbitrary times; no kill between executing a command and writing the state file; see C07 for the rest). Object paths of the sources distinct; PCH not switched off; templates do not mention options the stage does not track (C11-C13 refute the unrestricted claims). |
| C02 | A successful build leaves the linked target current | proved | `C02_target_current` | The order of the objects on the link line is the iteration order of an unordered_map and may be any permutation. |
| C03 | A successful build leaves the precompiled header current | proved | `C03_pch_current` |  |
| C04 | Nothing changed means nothing is executed | proved | `C04_nothing_executed`, `C04_next_run_succeeds`, `C04_duplicate_source_refuted` | The last theorem records the finding mentioned in the property: with a source added twice every run recompiles it. |
| C05 | Only changed sources are recompiled | proved | `C05_compiled_exactly` |  |
| C06 | A source whose compile failed is compiled again by the next run | proved | `C06_failed_source_recompiled`, `C06_failed_pch_recompiled`, `C06_failed_link_relinked` |  |
| C07 | Crash safety while the configuration is kept | proved | `C07_crash_safe` | Forward regime: kills at any moment, including while writing the state file, failed and silently truncated writes. |
| C08 | Crash safety across configuration changes | partial | `C08_config_change_refuted`, `C07_crash_safe`, `C08_changed_options_partial` | False as stated: concrete history (options changed in an interrupted run and then changed back). Holds if the interrupted configuration is used again (C07), and from any state of the disk at all if the options of the run differ from those recorded (C08_changed_options_partial). |
| C09 | An edit made while a build is running is not lost | partial | `C09_edits_not_lost_partial`, `C09_header_in_pch_window_refuted`, `C07_crash_safe` | False for a header edited between the PCH stage and the object stage of a target with a PCH; proved for every other edit. |
| C10 | The result of the parallel compile does not depend on the schedule | proved | `C10_schedule_independent`, `C10_run_schedule_independent` |  |
| C100 | A failure stops builders that have not begun | proved | `C100_failure_stops_generators` |  |
| C101 | The bootstrap program tracks every header of the library | partial | `C101_tracked_files_partial`, `C101_options`, `C101_generator_headers_refuted`, `C101_stale_after_edit_refuted` | The directories that are tracked are stated exactly. The full statement is false: buildcc_cb never globs lib/target/include/target/custom_generator, so its headers are tracked by no target and an edit of one rebuilds nothing. |
| C102 | The bootstrap program leaves everything current | proved | `C102_bootstrap_current`, `C102_callbacks` |  |
| C103 | A second bootstrap does nothing | proved | `C103_bootstrap_idle` | State files that were silently cut short when written are excluded. |
| C104 | A target depends on nothing it was not told | proved | `C104_only_what_was_told` |  |
| C105 | A script that declares its dependencies is always built correctly | proved | `C105_covered_script_current`, `C105_covered_script_idle`, `C105_call_by_call` | The idle part excludes state files that were silently cut short when written. That the rule is needed is C92. |
| C106 | Relative paths of files lead back to the file | proved | `C106_relative_and_back` | For a directory above, the way back ends in a slash (C106_case). |
| C107 | A program with generated sources is built from what was generated | proved | `C107_from_generated_sources`, `C107_current`, `C107_idle` | The idle part excludes state files that were silently cut short when written and commands of 4 GB. |
| C108 | Edits of the script that generates sources are noticed | partial | `C108_script_edits_missed_refuted` | Does not hold: the generators declare no inputs, so edits of python/gen.py are never noticed. |
| C109 | Tests run after a successful build, each once | proved | `C109_after_the_build`, `C109_at_most_once`, `C109_returns`, `C109_ends`, `C109_goes_on`, `C109_workers` | Stated for every registration program, order of tests_ and schedule of the workers. |
| C11 | Switching precompiled headers off is noticed | partial | `C11_pch_removed_refuted`, `C01_objects_current` | False: concrete history. C01 holds as long as the PCH stays in use. |
| C110 | The output of a successful test is shown | partial | `C110_seen`, `C110_text_partial`, `C110_pieces_refuted`, `C110_hidden_refuted` | Does not hold: kept output that arrives in several pieces is printed with blanks between them, and log level Warning hides it. C110_seen says exactly what is shown. |
| C111 | The output of a failing test is shown | partial | `C111_seen`, `C111_not_redirected_partial`, `C111_failures_silent_refuted` | Does not hold: the runner ends the program before it prints the kept output. Holds for DefaultBehaviour. |
| C112 | Output redirected to a user's vector | partial | `C112_own_vector_partial`, `C112_other_vectors`, `C112_shared_vector_refuted` | Does not hold if two streams are given the same vector (a data race in the code); holds otherwise. |
| C113 | The compilation database follows the targets over any number of runs | partial | `C113_database_current_partial`, `C113_every_source_partial`, `C113_built_targets`, `C113_ended_before_generate_refuted`, `C113_deleted_refuted`, `C113_left_out_refuted`, `C113_no_pch_any_more_refuted`, `C113_cut_short_refuted` | Generate rewrites the file only if an added target was built in the same process. Proved for all histories in which a process that built something goes on to Generate (or leaves some added target unfinished); each missing hypothesis has a refutation. |
| C114 | A static library consists of the object files of its sources | partial | `C114_library_exact_partial`, `C114_library_exact_after_crashes_partial`, `C114_linked_library`, `C114_only_links`, `C114_removed_source_refuted` | ar is modelled after its manual (external program). Holds if no source was ever removed from the target; a removed source stays in the library (refuted), because the link command updates the existing file. |
| C115 | A shared library copied beside the executable that uses it is the library that was built | partial | `C115_copy_current_partial`, `C115_never_replaced`, `C115_not_removed_refuted`, `C115_ended_early_refuted`, `C115_copy_failed_refuted`, `C115_deleted_refuted`, `C115_by_name_refuted` | The example programs copy the library only if the executable was built in the same process. Proved for all histories in which a process that built the executable goes on to copy with success (or leaves the executable unfinished); each missing hypothesis has a refutation, also that the gcc and msvc examples, which do not remove the old copy, throw on every later build. |
| C116 | A run of a whole program comes to an end, and succeeds if nothing goes wrong in it | proved | `C116_never_stuck`, `C116_bounded`, `C116_completes`, `C116_succeeds` | For programs whose registered dependencies cover the files that builders share (as in C92). |
| C117 | A run of a custom generator comes to an end, and succeeds if nothing goes wrong in it | proved | `C117_never_stuck`, `C117_bounded`, `C117_completes`, `C117_succeeds`, `C117_inputs_needed`, `C117_utf8_needed` |  |
| C118 | A run of a program with targets and generators comes to an end, and succeeds if nothing goes wrong in it | proved | `C118_never_stuck`, `C118_bounded`, `C118_completes`, `C118_succeeds` | For programs whose registered dependencies cover the files that builders share (as in C98); never stuck and completion where written files get later times (the regime Forward). |
| C119 | --clean repairs everything in the build directory | proved | `C119_clean_recovers`, `C119_in_build_dir`, `C119_state_files`, `C119_without_refuted` | The conclusion is that of C98; C119_without_refuted shows that it fails without --clean. |
| C12 | A change of PCH language is noticed | partial | `C12_pch_language_refuted`, `C03_pch_current` | False: concrete history. C03 holds as long as the language stays the same. |
| C120 | --clean makes every target of the script start anew | partial | `C120_elsewhere_refuted`, `C120_as_new_partial` | False for targets with a build directory of their own; proved for targets and generators in the build directory of the project. |
| C121 | --clean deletes no source file | partial | `C121_sources_refuted`, `C121_exact`, `C121_sources_partial` | False if the build directory given contains the project; proved that exactly the files in the build directory are deleted, and that sources stay if the build directory is given by one name. |
| C122 | The ids of a generator are exactly what its calls describe | proved | `C122_ids_exact`, `C122_ids_total` | The specification Spec_GenIds.described is a relation; C122_ids_total shows that it covers every sequence of calls. |
| C123 | State files are read by their meaning | proved | `C123_reads_exactly`, `C123_rewritten_target`, `C123_rewritten_generator`, `C123_accepted_iff` | The parser is that of nlohmann/json, a dependency that is not in the repository: Model_Json models its documented behaviour. |
| C124 | Declaring a dependency takes time linear in the graph | partial | `C124_linear_refuted`, `C124_cost_exact`, `C124_linear_partial` | False: the search keeps no record of visited builders, so it takes one round for every chain of dependents (C124_cost_exact), which can be 2^n for 7 n + 2 builders and dependencies (C124_linear_refuted). Linear while no builder is a dependency of two others. |
| C125 | A successful build leaves what a build from scratch would make | partial | `C125_same_time_refuted`, `C125_made_from_partial`, `C125_forward_partial`, `C125_history_independent_partial` | False when a file is replaced by another with the same time stamp (C125_same_time_refuted). Holds when times tell contents apart, in particular when every edit gives a later time. Junk left by failed commands is represented by provenance records with the empty command, which is never run. |
| C126 | A whole program's output is a function of its targets and their input files | partial | `C126_same_time_refuted`, `C126_whole_program_partial`, `C126_forward_partial`, `C126_function_of_inputs_partial` | False when a source is replaced by another with the same time stamp (C126_same_time_refuted; also without the dependencies of C92). Holds when times tell apart what users and generators write; nothing is assumed about the contents of what links write. The files generators write count as inputs. |
| C127 | The generated precompiled header includes exactly the given files | partial | `C127_quotation_refuted`, `C127_header_partial`, `C127_guarded_partial`, `C127_built_partial` | False for a path with a quotation mark. Holds for all paths without quotation marks and line feeds. |
| C128 | Targets can be created exactly while a project is initialised | proved | `C128_created_after_init`, `C128_directories` |  |
| C129 | The parallel tasks of a build never race for the library's own data | partial | `C129_failure_flag_refuted`, `C129_everything_else_partial` | False for the failure flag: get_task_state reads it without the lock under which set_task_state writes it (two failing compilations suffice). Holds for everything else. Data-dependent branches are over-approximated, so the positive part covers every path. |
| C13 | A change of toolchain executable or command template is noticed | partial | `C13_toolchain_change_refuted`, `C13_untracked_option_refuted`, `C01_objects_current` | False: concrete histories for another compiler, another template, and a template using an untracked option. C01 holds for a fixed toolchain and templates. |
| C130 | No record of a compiled source is lost, and no schedule deadlocks | proved | `C130_no_record_lost`, `C130_never_stuck` |  |
| C131 | What a task reads does not depend on the schedule | proved | `C131_reads_independent_of_schedule` | The failure flag and the list of recorded sources are the two exceptions named in the statement; for the list see C130 and C10. |
| C132 | Edits in the middle of a check or of a compilation are caught by the next run | proved | `C132_edits_half_way`, `C132_one_instant` | Edits give later times (the regime Forward of Spec_Target). The restriction on headers with a PCH is the window of C09, in which it is false. |
| C133 | Several builds at once in one build directory | partial | `C133_different_options_refuted`, `C133_failed_command_refuted`, `C133_same_build_partial` | False: nothing locks the build directory. With different options at the same time, or when a command of one process fails, a later build finds nothing to do although an object is not current. Proved for any number of processes with the same options on files that exist and do not change, when all commands succeed (processes may be killed between steps). Missing: reads and writes of the state file that overlap. |
| C134 | Calling Run again in one process | partial | `C134_again_is_fresh_build`, `C134_again_is_new_process`, `C134_repeated_run_current_partial`, `C134_failed_rerun_refuted`, `C134_killed_rerun_refuted`, `C134_put_back_refuted`, `C134_next_process_partial`, `C134_idle_rerun_refuted`, `C134_next_process_rebuilds_refuted` | The repeated runs themselves are safe: after a run that built something a repeated run is a complete build (it executes everything again, so the third part of the statement is false), after a run that built nothing it is like a new process. Later processes are not safe: the state file of the earlier run is still there while the repeated run rewrites everything, so a failed or killed repeated run, or a source put back with its old time, leads to a success with stale artifacts. Proved safe when times only increase and every repeated run comes to a successful end. |
| C135 | Calling Run again in one process with a generator | partial | `C135_generator_current_partial`, `C135_put_back_refuted`, `C135_killed_rerun_refuted`, `C135_idle_rerun_refuted` | False as stated: a repeated run compares with the state file as it was when the process began. An input put back with its old time between two runs is not noticed, a repeated run invokes callbacks again although nothing changed, and if it is killed the next process finds the state file of the earlier run and does nothing. Proved when times only increase and every repeated run that was dirty writes its state file (it may fail, first runs may be killed anywhere). |
| C136 | Calls on a target after its Build() | partial | `C136_late_same_course`, `C136_late_commands`, `C136_late_files_count_partial`, `C136_late_option_lost_refuted`, `C136_late_flag_refuted`, `C136_late_source_fails`, `C136_late_run_ends`, `C136_late_source_refuted` | False as stated: no call looks at whether Build() was called. The commands are those of the calls before Build(), the decisions and the state file those of all calls. Headers, dependencies and further PCH files therefore count (proved for every history without edits during a run). An option given late reaches no command, and after that run a program that gives it before Build() finds nothing to do (universal theorem and a concrete case). A source given late makes the run fail (and come to its end) if it has to be compiled; if an earlier run has compiled it, the run succeeds and links without it. |
| C137 | Calls on a generator after its Build() | partial | `C137_custom_late_counts`, `C137_custom_late_current_partial`, `C137_refused_ends`, `C137_refused_build`, `C137_derived_late_lost_refuted`, `C137_derived_late_pattern`, `C137_late_command_refuted`, `C137_late_template_refuted`, `C137_lost_command_noticed`, `C137_build_twice_refused`, `C137_file_calls`, `C137_template_calls`, `C137_custom_calls` | Holds for CustomGenerator: the process is exactly the one with the calls before Build(), and refused calls end it. False for the two derived classes: inputs, outputs, commands and templates given late are accepted and change nothing (universal theorem, concrete cases); a late pattern reaches only the callbacks. Unlike with a target the loss is not recorded, so a later process that gives the command before Build() runs its callback. A second Build() of the derived classes is refused. |
| C138 | Calling Build() more than once on one target does not change what the run does | partial | `C138_once_refuted`, `C138_failed_refuted`, `C138_success_current_partial`, `C138_nothing_executed`, `C138_then_nothing_executed`, `C138_processes_current_partial`, `C138_comes_to_end`, `C138_once_per_call` | False: with two calls every command of a first build is executed twice, and when a command of the second chain fails after the first chain stored the state, the next process finds nothing to do although an object is not current. Proved for any number of calls and any interleaving when all commands succeed on files that exist and do not change: success means current and nothing left to do; after a successful build nothing is executed, also when that build itself had several calls; one process after the other, each with any number of calls and with edits in between, each success leaves everything current; whatever the commands do the run comes to its end and no command is executed more often than Build() was called. Missing: overlapping accesses of two chains within one step (a data race in the code). |
| C139 | Calling Build() more than once on one generator does not change what the run does | partial | `C139_once_refuted`, `C139_failed_refuted`, `C139_success_current_partial`, `C139_nothing_invoked`, `C139_then_nothing_invoked`, `C139_killed_current_partial`, `C139_processes_current_partial`, `C139_comes_to_end`, `C139_once_per_call` | False: with two calls every callback of a first build is invoked twice, and when a callback of the second generate task fails after the first stored the state and the second cannot store its own, the next process finds nothing to do although an id is not current. Proved for any number of calls and any interleaving, with callbacks that leave the inputs alone: success means every id is current and the next process invokes nothing; after a successful run nothing is invoked or stored; the run comes to its end; no callback is invoked more often than Build() was called; after any number of processes, each killed at a moment at which nothing had failed or come to its end, the next successful process leaves every id current. Simplified: the steps of two generate tasks are not interleaved within one step of Model_Gen. |
| C14 | A deleted output is rebuilt | partial | `C14_deleted_output_refuted`, `C53_clean_build`, `C08_changed_options_partial` | False: concrete histories for all three kinds of outputs. Holds if the state file is deleted too (C53) or a recorded option changes too (C08_changed_options_partial). |
| C15 | No later stage runs after a failure and the failure is reported | proved | `C15_failure_stops`, `C15_link_has_all_objects` |  |
| C16 | Stored target state reads back unchanged (values) | proved | `C16_target_value_roundtrip` |  |
| C17 | Stored generator state reads back unchanged (values) | proved | `C17_generator_value_roundtrip` |  |
| C18 | The stored file reads back unchanged (text) | proved | `C18_store_iff_utf8`, `C18_target_text_roundtrip`, `C18_generator_store_iff_utf8`, `C18_generator_text_roundtrip` | nlohmann dump(4)/parse modelled byte by byte; text that is not valid UTF-8 makes Store throw (first theorem). |
| C19 | A truncated stored file is never mistaken for a valid one | proved | `C19_truncated_target_rejected`, `C19_truncated_generator_rejected` | The consequence for the next run (everything is built from scratch) is part of the target model: a missing store. |
| C20 | A stored file with a missing or ill-typed field is rejected, extra fields are ignored | proved | `C20_accepted_iff_all_fields`, `C20_only_known_keys`, `C20_load_atomic` | The field "type" accepts any shape (unknown values become the undefined type), as the field table in the specification says. |
| C21 | Path normalisation is idempotent and canonical | proved | `C21_normalisation_idempotent`, `C21_normalisation_canonical`, `C21_normalisation_keeps_location`, `C21_same_location_same_text` | POSIX paths, libstdc++ lexically_normal; location semantics assume no symbolic links. |
| C22 | Distinct in-root sources get distinct object files inside the build directory | proved | `C22_object_path_mirrors`, `C22_object_path_injective` |  |
| C23 | Distinct out-of-root sources get distinct object files | partial | `C23_out_of_root_refuted`, `C23_in_root_dotdot_name_refuted`, `C23_collision_characterised`, `C23_no_underscore_partial` | False as stated: /p/a.b/x.cpp and /p/a_b/x.cpp share an object path. Exact collision condition proved, and injectivity when no directory name contains an underscore. |
| C24 | Paths in generated commands survive word splitting | partial | `C24_unquoted_refuted`, `C24_quoted_partial` | False as stated: sources, include and library directories and libraries are not quoted. Proved for compilers, objects, PCH and target. |
| C25 | The generated PCH source is written where the PCH command reads it | partial | `C25_pch_source_refuted`, `C25_pch_source_no_space_partial` | False when the build directory contains a space: the quoted display string is used as a file name. Proved to be the only case. |
| C26 | Command construction substitutes exactly the named fields | proved | `C26_construct_expands`, `C26_construct_ok_iff`, `C26_only_mentioned_fields`, `C26_order_independent` | fmt patterns with format specifications, positional fields or nested fields are outside the modelled fragment and are reported as a separate outcome of the scanner. |
| C27 | Default arguments: first value wins | proved | `C27_first_default_wins`, `C27_construct_uses_first`, `C27_defaults_nodup` |  |
| C28 | Copy replaces exactly the selected options | partial | `C28_copy_exact_partial`, `C28_repeated_move_refuted`, `C28_entries_determine` | False as stated for the rvalue overload with a repeated option (it ends up empty); proved otherwise. libstdc++ moved-from state. |
| C29 | Insert appends exactly the selected options | partial | `C29_insert_exact_partial`, `C29_repeated_move_refuted` | False as stated for the rvalue overload with a repeated flags option (empty strings are appended); proved otherwise. |
| C30 | File classification is consistent | proved | `C30_classes`, `C30_valid_source`, `C30_valid_header`, `C30_expects` | Paths whose last component is not . or .. |
| C31 | Toolchain search returns exactly the complete directories, in order | proved | `C31_find_exact`, `C31_verify_exact` | POSIX; errors while an open directory is being read are not modelled. |
| C32 | Storage references are type-safe and stable | proved | `C32_lookup_exact`, `C32_alive_while_held` | Types are their typeid names. |
| C33 | Storage destroys every object exactly once | partial | `C33_duplicate_add_leaks_refuted`, `C33_destroyed_at_most_once`, `C33_clear_destroys_all_partial` | False as stated: the object of a second Add with the same identifier is never destroyed. Proved for distinct identifiers; at-most-once always. |
| C34 | The accepted dependency graph is acyclic | proved | `C34_acyclic`, `C34_graph_well_formed` | Apart from self-dependencies, see C36. |
| C35 | A dependency that would close a cycle is rejected, any other is accepted | proved | `C35_dep_decides` |  |
| C36 | A builder cannot depend on itself | partial | `C36_self_dependency_refuted`, `C36_self_dependency_hangs_refuted`, `C36_self_dependency_not_executed_refuted` | False: Dep(t, t) is accepted. |
| C37 | Dependencies finish before dependents start | proved | `C37_dependencies_first`, `C37_executed_once`, `C37_everything_executed`, `C37_execution_completes`, `C37_execution_bounded` | Completion assumes no self-dependency (C36). |
| C38 | Command line conditions gate registration | proved | `C38_registered_exactly`, `C38_toolchain_off`, `C38_test_decides`, `C38_unregistered_fatal`, `C38_duplicate_build_fatal`, `C38_uninitialised_fatal` |  |
| C39 | A successful generator run leaves every output current | proved | `C39_generator_current` | Schedules in which no file is written after an id that reads it has looked at it (C40). |
| C40 | Generator ids that consume another id's output are regenerated | partial | `C40_chained_refuted`, `C40_producers_first_partial` | False as stated: the reader can run first, and the written times are those read after all callbacks. Proved for producer-first schedules. |
| C41 | Generator: nothing changed means no callback runs | proved | `C41_nothing_to_do`, `C41_next_run_succeeds` |  |
| C42 | Generator: exactly the affected ids run | proved | `C42_exactly_outdated`, `C42_removed_forgotten` |  |
| C43 | Generator: a failed or skipped id runs again | proved | `C43_recorded_means_generated`, `C43_failed_runs_again`, `C43_still_outdated` |  |
| C44 | Template outputs follow their pattern values | partial | `C44_pattern_value_refuted`, `C44_same_values_partial`, `C44_templates_in_call_order` | False as stated: pattern values are not recorded. Proved if they are the same in all runs. |
| C45 | FileGenerator runs its commands in order and stops at the first failure | proved | `C45_commands_in_call_order`, `C45_callback_in_order`, `C45_success_means_all`, `C45_present_commands_executed`, `C45_changed_commands_run`, `C45_every_program`, `C45_inputs_and_outputs` | Commands that MessagePack can represent; empty commands are fatal in the code. |
| C46 | Removing or adding a blob handler is noticed | partial | `C46_removed_refuted`, `C46_removed_never_noticed`, `C46_added_refuted`, `C46_rejected_blob_fails` | False in both directions. |
| C47 | Splitting and trimming of strings | proved | `C47_split_inverts_join`, `C47_split_join_trailing`, `C47_split_no_delimiter`, `C47_split_loses_nothing`, `C47_trim_exact`, `C47_trim_idempotent` |  |
| C48 | compile_commands.json is valid JSON with one entry per source | partial | `C48_valid_json_partial`, `C48_blank_refuted`, `C48_quote_refuted`, `C48_backslash_refuted`, `C48_written_iff_built` | False as stated: values are not escaped. Proved when nothing needs escaping and the build directory has no blank. |
| C49 | Host executable search returns exactly the matching entries | proved | `C49_search_exact`, `C49_found_iff`, `C49_searches_append`, `C49_unsupported`, `C49_added_variables` | regex_match is a parameter; expressions that do not compile are not modelled. |
| C50 | Failures are sticky | proved | `C50_failure_sticky`, `C50_success_without_calls`, `C50_no_deadlock` | Reads and writes of the state are taken as atomic; in the source the read is outside the lock. |
| C51 | A target build never gets stuck | proved | `C51_never_stuck`, `C51_run_bounded` |  |
| C52 | A build in which nothing goes wrong succeeds | proved | `C52_good_run_succeeds` |  |
| C53 | Without its state file a target is rebuilt completely | proved | `C53_clean_build` | Configurations whose sources have distinct object paths and templates that mention tracked options only, as in C01. |
| C54 | Run reports success only if everything succeeded, and tests run only then | proved | `C54_run_reports`, `C54_first_failing_test`, `C54_command_text` |  |
| C55 | A found toolchain directory really holds the executables | partial | `C55_not_an_executable_refuted`, `C55_dotted_name_refuted`, `C55_complete_found_partial` | False in both directions; proved that complete directories are found if no executable name has a dot. |
| C56 | Verify can be repeated | partial | `C56_verify_twice_refuted` | False: a second Verify always fails. |
| C57 | A deleted generator output is generated again | partial | `C57_deleted_output_refuted` | False for every program and history. |
| C58 | Killed generator runs | partial | `C58_killed_refuted`, `C58_killed_partial` | False across programs; proved if the killed program is run again. |
| C59 | One template can be expanded to several outputs | partial | `C59_template_twice_refuted` | False: Build is fatal. |
| C60 | User blobs round trip | proved | `C60_blob_round_trip` | Strings shorter than 2^32 bytes, fewer than 2^32 of them. |
| C61 | Commands of gcc targets have exactly the configured arguments | proved | `C61_compile_arguments`, `C61_compile_constructed`, `C61_pch_arguments`, `C61_executable_arguments`, `C61_static_arguments`, `C61_dynamic_arguments`, `C61_mingw_dynamic_arguments` | Sources, directories and libraries without spaces (C24). |
| C62 | Libraries added to a target are linked | partial | `C62_libs_ignored_refuted`, `C62_executable_libs_partial` | False for static and dynamic libraries; proved for executables. |
| C63 | gcc finds the precompiled header | proved | `C63_gch_beside_header`, `C63_file_names` |  |
| C64 | A target consists of exactly what the calls describe | proved | `C64_options_exact`, `C64_refused_iff`, `C64_built_as_described` |  |
| C65 | Every source of a target can be compiled | partial | `C65_sources_compilable_partial`, `C65_headers_valid`, `C65_foreign_source_refuted` | Proved for the Add and Glob calls; false for Copy and Insert from a target with another toolchain. |
| C66 | Adding a source twice is harmless | partial | `C66_repeated_source_refuted`, `C66_distinct_sources_partial` | False: every successful run of such a target compiles and links. C04 needs the sources to be distinct. |
| C67 | Toolchains created by id are the toolchains asked for | proved | `C67_created_iff`, `C67_created_as_asked`, `C67_other_class_refused`, `C67_name_taken` |  |
| C68 | A toolchain uses the configuration it is given | partial | `C68_config_used_refuted`, `C68_usual_config_partial` | False: the configuration is replaced by that of the id. Proved if it is the one of the id. |
| C69 | A toolchain selected on the command line has the usual executables | partial | `C69_default_tools_refuted`, `C69_named_tools_partial` | False: the executables are empty names and Verify is always fatal. Proved if they are named. |
| C70 | The reported compiler version is what the compiler prints | partial | `C70_output_only_refuted`, `C70_whole_output_partial` | False if the output arrives in several pieces; proved for one piece. |
| C71 | Verify runs the compiler it reports | partial | `C71_blank_in_path_refuted`, `C71_verify_asks_compiler_partial`, `C71_msvc_environment_partial` | False for directories with blanks; proved for compiler paths that are one plain shell word. |
| C72 | Generic targets are the targets of their toolchain | proved | `C72_generic_is_the_class`, `C72_artifact` |  |
| C73 | Options of a target | proved | `C73_options` |  |
| C74 | A target writes only into its own build directory | partial | `C74_outside_refuted`, `C74_inside_partial` | False for the PCH placeholder source when the path has a blank; proved otherwise. |
| C75 | Targets do not overwrite each other's files | partial | `C75_shared_refuted`, `C75_apart_partial` | False if a toolchain name has a slash; proved for names that are one path component (and no blanks with PCHs). |
| C76 | The unique id identifies a target | partial | `C76_same_id_refuted`, `C76_id_partial` | False if a toolchain name has a ']'; proved otherwise. |
| C77 | Commands of msvc targets | proved | `C77_msvc_commands` |  |
| C78 | From calls to compiler arguments | proved | `C78_compile_arguments` | For sources and directories without blanks and shell characters, as C61. |
| C79 | buildexe builds what its command line asks for | proved | `C79_header_directory`, `C79_immediate_options`, `C79_script_options` | The buildcc include directories appear twice; this is part of the statement. |
| C80 | The header of library directories is valid C++ | partial | `C80_header_refuted`, `C80_blank_refuted`, `C80_header_partial` | False for names that are not identifiers and paths with blanks; proved for identifiers that are not reserved words and plain paths. |
| C81 | buildexe does not rebuild what has not changed | partial | `C81_script_refuted`, `C81_script_always_recompiled`, `C81_immediate_partial` | False in script mode (all sources are compiled in every run); proved in immediate mode. |
| C82 | buildexe executes only what it has built | proved | `C82_executed_after_build`, `C82_success_iff` |  |
| C83 | Configuration files reach the script | partial | `C83_config_blank_refuted`, `C83_run_words_partial` | False for names with blanks; proved for plain shell words. |
| C84 | BUILDCC_HOME and its libraries | proved | `C84_home`, `C84_libraries` |  |
| C85 | The check of the host toolchain | partial | `C85_host_target`, `C85_blank_refuted`, `C85_executed_partial` | Target proved; the execution is false for build directories with blanks and proved for plain words. |
| C86 | A failing script makes buildexe fail | partial | `C86_script_status_refuted` | False: the exit status is not used. |
| C87 | Toolchains from the command line | proved | `C87_toolchain_from_line`, `C87_others_untouched`, `C87_accepted_iff`, `C87_ids`, `C87_levels` | For different variables per toolchain. |
| C88 | The initial toolchain is the fallback | partial | `C88_initial_ignored_refuted`, `C88_state_partial` | False: state and configuration of initial are ignored; proved: the command line, otherwise the old value of the variable. |
| C89 | Settings are those of the last command line | partial | `C89_earlier_stays_refuted`, `C89_first_partial`, `C89_dirs_partial` | False for clean and log level after an earlier use; proved for the first use, and for the directories always. |
| C90 | Commands of targets from the command line | partial | `C90_empty_command_refuted`, `C90_commands_partial` | False if a command is neither given nor initial (it is empty); proved otherwise. |
| C91 | From the command line to the directories of a target | proved | `C91_end_to_end`, `C91_needs_parse` |  |
| C92 | A whole program is current after a successful run | proved | `C92_whole_program_current`, `C92_dependency_needed_refuted` | The second theorem shows that the hypothesis about dependencies is needed. |
| C93 | The verdict of a run | proved | `C93_verdict`, `C93_verdict_generators` |  |
| C94 | A second run of a program does nothing | proved | `C94_nothing_to_do` | Runs whose state files were silently cut short when written are excluded. |
| C95 | A failure stops what has not begun | proved | `C95_failure_stops` |  |
| C96 | A pattern's text is fixed when it is added | proved | `C96_patterns_named`, `C96_meaning_kept`, `C96_new_generator` |  |
| C97 | AddPatterns does not depend on the order of its map | partial | `C97_order_refuted`, `C97_accepted_orders_agree_partial`, `C97_any_order_partial` | False if one pattern of the map mentions another (one order is fatal); proved: orders that are accepted agree, and maps without such mentions do not depend on the order. |
| C98 | Programs with generators are current after a successful run | proved | `C98_program_with_generators_current` |  |
| C99 | Nothing is redone in programs with generators | proved | `C99_nothing_to_do_with_generators` | State files that were silently cut short when written and callbacks without handler are excluded. |
