{"id": "C01", "title": "A successful build leaves every object file current", "statement": "When Target::Build + the taskflow run ends with TaskState SUCCESS, every source of the target has an object file that was produced by exactly the compile command the target would issue now, from the versions (last-write times) of the source, headers, compile dependencies and precompiled header that are on disk now. Holds whatever earlier runs did: other flags, other sources, failed compiles, failed links, failures in other targets, file edits and timestamp roll-backs between runs. (Excluded and listed as separate findings: switching PCH off, changing toolchain/command templates, deleting outputs, two sources sharing an object path.)", "quantifier": "every history of runs of any length, every configuration per run, every file edit between runs, every command outcome, every order in which the parallel compiles finish", "why_tests_cant": "a unit test replays one or two runs with one mocked outcome; staleness only shows up for particular sequences of config changes, failures and edits", "anchors": ["buildcc/lib/target/src/target/tasks.cpp: CompileObject::Task, Target::EndTask", "buildcc/lib/target/src/target/friend/compile_object.cpp: BuildObjectCompile, RecompileSources", "buildcc/schema/src/target_serialization.cpp: UpdateStore, AddSource"]}
{"id": "C02", "title": "A successful build leaves the linked target current", "statement": "When the run ends with SUCCESS, the target file was linked by exactly the link command the target would issue now, from the object files that are on disk now and from the versions of the library and link dependencies on disk now.", "quantifier": "every history of runs, configurations, edits between runs, command outcomes and compile schedules", "why_tests_cant": "needs all combinations of which stage was dirty or failed in which earlier run", "anchors": ["buildcc/lib/target/src/target/friend/link_target.cpp: LinkTarget::BuildLink", "buildcc/lib/target/src/target/tasks.cpp: LinkTarget::Task, Target::EndTask", "buildcc/schema/src/target_serialization.cpp: UpdateTargetCompiled, UpdateStore"]}
{"id": "C03", "title": "A successful build leaves the precompiled header current", "statement": "If the target has PCH files and the run ends with SUCCESS, the precompiled header was produced by exactly the PCH command issued now from the current versions of the headers and PCH files.", "quantifier": "every history of runs, configurations (with the PCH language unchanged), edits between runs and command outcomes", "why_tests_cant": "same reason: a stale PCH appears only after particular sequences of failures and edits", "anchors": ["buildcc/lib/target/src/target/friend/compile_pch.cpp: CompilePch::BuildCompile", "buildcc/lib/target/src/target/tasks.cpp: CompilePch::Task", "buildcc/schema/src/target_serialization.cpp: UpdatePchCompiled"]}
{"id": "C04", "title": "Nothing changed means nothing is executed", "statement": "If a run succeeded and neither the configuration nor any tracked file has changed since it started, the next run executes no command at all, does not rewrite the stored state, and succeeds. (Requires that no source path was added twice; with a duplicate the target is rebuilt on every run, which is recorded as a finding.)", "quantifier": "every configuration without duplicate sources, every reachable disk state after a successful run, every schedule of the first run", "why_tests_cant": "tests check one small target; the claim is about all configurations and about the order in which the first run's parallel compiles happened to record their sources", "anchors": ["buildcc/lib/target/src/target/friend/compile_object.cpp: RecompileSources", "buildcc/lib/target/src/target/friend/link_target.cpp: BuildLink", "buildcc/lib/target/src/target/friend/compile_pch.cpp: BuildCompile", "buildcc/schema/include/schema/path.h: GetUnorderedPathInfos"]}
{"id": "C05", "title": "Only changed sources are recompiled", "statement": "If, since the stored run, only source files were edited, added or removed (flags, include dirs, headers, PCH and compile dependencies are unchanged), then the sources whose compile command is executed are exactly the added ones and those whose last-write time differs from the recorded one.", "quantifier": "every stored state, every current source list without duplicates, every file system", "why_tests_cant": "the claim quantifies over all pairs of old and new source lists", "anchors": ["buildcc/lib/target/src/target/friend/compile_object.cpp: RecompileSources, CompileSources"]}
{"id": "C06", "title": "A source whose compile failed is compiled again by the next run", "statement": "If the compile command of a source failed in a run (with or without other failures), no later run reports success before the compile command of that source has been executed successfully (or the source removed).", "quantifier": "every schedule, every subset of failing sources, every later configuration", "why_tests_cant": "subsets of failures and interleavings are exponential in the number of sources", "anchors": ["buildcc/lib/target/src/target/tasks.cpp: CompileObject::Task", "buildcc/schema/src/target_serialization.cpp: AddSource"]}
{"id": "C07", "title": "Crash safety while the configuration is kept", "statement": "If the process is killed at any point of any runs (including in the middle of writing the stored state), and the configuration passed to the interrupted runs is the one passed to the later run, then C01-C03 still hold for the first later run that reports success, provided last-write times only move forward.", "quantifier": "every crash point in every run, every number of crashes, every edit between and during runs with increasing timestamps", "why_tests_cant": "crash points cannot be enumerated by unit tests; the property is about all of them", "anchors": ["buildcc/lib/target/src/target/tasks.cpp: Target::EndTask", "buildcc/lib/env/include/env/util.h: save_file", "buildcc/schema/include/schema/interface/serialization_interface.h: LoadFromFile"]}
{"id": "C08", "title": "Crash safety across configuration changes", "statement": "Same as C07 but the configuration of the interrupted run may differ from the one used before and after it (e.g. flags changed, build killed, flags reverted). (Suspected false: the stored state is only written at the end, so reverted flags match it while objects were rebuilt with other flags.)", "quantifier": "every crash point, every configuration history", "why_tests_cant": "needs a three-run history with a kill in the middle", "anchors": ["buildcc/lib/target/src/target/tasks.cpp: Target::EndTask", "buildcc/lib/target/src/target/friend/compile_object.cpp: BuildObjectCompile"]}
{"id": "C09", "title": "An edit made while a build is running is not lost", "statement": "If a source, header, compile dependency, library or PCH file is modified while a run is in progress (with a new last-write time), the run may or may not see the modification, but the next run that reports success leaves objects, PCH and target current with respect to it.", "quantifier": "every point of the run at which the edit can happen, every schedule", "why_tests_cant": "the race window is between hashing, executing and storing; tests do not interleave", "anchors": ["buildcc/lib/target/src/target/friend/compile_object.cpp: PreObjectCompile", "buildcc/lib/target/src/target/friend/compile_pch.cpp: PreCompile", "buildcc/lib/target/src/target/tasks.cpp: CompileObject::Task"]}
{"id": "C10", "title": "The result of the parallel compile does not depend on the schedule", "statement": "For given inputs and per-source outcomes, every order in which the parallel source compiles run leads to the same task state, the same set of recorded sources, the same set of executed commands and the same object files.", "quantifier": "every permutation of the selected sources and every outcome assignment", "why_tests_cant": "n! schedules", "anchors": ["buildcc/lib/target/src/target/tasks.cpp: CompileObject::Task", "buildcc/schema/src/target_serialization.cpp: AddSource"]}
{"id": "C11", "title": "Switching precompiled headers off is noticed", "statement": "If a target was built with PCH files and the next configuration has none (everything else equal), the next successful run leaves all objects compiled with the commands issued now, i.e. without the PCH flags. (Suspected false: the PCH list is compared only by the PCH task, which is not scheduled then.)", "quantifier": "every target with PCH whose PCH files are all removed", "why_tests_cant": "no test removes all PCH files", "anchors": ["buildcc/lib/target/src/target/build.cpp: Target::Build", "buildcc/lib/target/src/target/friend/compile_object.cpp: BuildObjectCompile"]}
{"id": "C12", "title": "A change of PCH language is noticed", "statement": "If the sources change so that the PCH has to be compiled with the C++ compiler instead of the C compiler (or vice versa), the next successful run leaves a PCH produced by the command issued now. (Suspected false.)", "quantifier": "every pair of configurations that differ in whether a C++ source is present", "why_tests_cant": "tests use one language per target", "anchors": ["buildcc/lib/target/src/target/friend/compile_pch.cpp: ConstructCompileCommand, BuildCompile", "buildcc/lib/target/src/common/target_state.cpp: SourceDetected"]}
{"id": "C13", "title": "A change of toolchain executable or command template is noticed", "statement": "If the compiler path or a TargetConfig command template changes, the next successful run leaves artifacts produced by the commands issued now. (Suspected false: they are not part of the stored state.)", "quantifier": "every pair of configurations differing only in templates or executables", "why_tests_cant": "tests never change them between runs", "anchors": ["buildcc/lib/target/src/target/friend/compile_object.cpp: BuildObjectCompile", "buildcc/schema/include/schema/target_schema.h: TargetSchema"]}
{"id": "C14", "title": "A deleted output is rebuilt", "statement": "If an object file, the PCH or the linked target is deleted after a successful run, the next run that reports success has rebuilt it. (Suspected false: only the stored flags are consulted, see the TODO comments.)", "quantifier": "every deleted artifact after every successful run", "why_tests_cant": "tests delete whole build directories, including the stored state", "anchors": ["buildcc/lib/target/src/target/friend/link_target.cpp: BuildLink", "buildcc/lib/target/src/target/friend/compile_pch.cpp: BuildCompile", "buildcc/lib/target/src/target/friend/compile_object.cpp: RecompileSources"]}
{"id": "C15", "title": "No later stage runs after a failure and the failure is reported", "statement": "Once any command of a target failed, no later stage of the target executes a command in that run, the link command is never executed while a selected source has not been compiled successfully in this run or recorded earlier, and the run does not report success.", "quantifier": "every schedule, every set of failing commands, failures reported by other targets at any time", "why_tests_cant": "all failure points and interleavings", "anchors": ["buildcc/lib/target/src/target/tasks.cpp: CompilePch::Task, CompileObject::Task, LinkTarget::Task, EndTask", "buildcc/lib/env/src/task_state.cpp: set_task_state", "buildcc/lib/args/src/tasks.cpp: RunBuild"]}
{"id": "C16", "title": "Stored target state reads back unchanged (values)", "statement": "Converting any target schema to JSON and back gives the same schema: every one of its 21 fields, including an undefined type, is preserved.", "quantifier": "every target schema value", "why_tests_cant": "unbounded strings and lists", "anchors": ["buildcc/schema/include/schema/target_schema.h: to_json, from_json", "buildcc/schema/include/schema/path.h: PathInfo, PathList, PathInfoList", "buildcc/schema/include/schema/target_type.h"]}
{"id": "C17", "title": "Stored generator state reads back unchanged (values)", "statement": "Converting any custom generator schema (any set of ids with inputs, outputs and user blobs) to JSON and back gives the same ids with the same contents.", "quantifier": "every custom generator schema", "why_tests_cant": "unbounded maps, lists and blobs", "anchors": ["buildcc/schema/include/schema/custom_generator_schema.h"]}
{"id": "C18", "title": "The stored file reads back unchanged (text)", "statement": "Loading the text that storing wrote yields exactly the stored schema, for all strings that are valid UTF-8 including quotes, backslashes and control characters.", "quantifier": "every schema, every string content", "why_tests_cant": "all byte sequences; escaping bugs hide in single characters", "anchors": ["buildcc/schema/src/target_serialization.cpp: Store, Load", "buildcc/schema/src/custom_generator_serialization.cpp"]}
{"id": "C19", "title": "A truncated stored file is never mistaken for a valid one", "statement": "If only a strict prefix of the stored text reaches the disk, loading fails and the next run rebuilds everything from scratch.", "quantifier": "every schema and every truncation point", "why_tests_cant": "every byte offset of every file", "anchors": ["buildcc/schema/src/target_serialization.cpp: Load", "buildcc/schema/include/schema/interface/serialization_interface.h: LoadFromFile", "buildcc/lib/target/src/target/friend/compile_object.cpp: BuildObjectCompile"]}
{"id": "C20", "title": "A stored file with a missing or ill-typed field is rejected, extra fields are ignored", "statement": "Loading a JSON object fails if any of the expected keys is missing or has the wrong shape, never partially updates the loaded state, and does not depend on unknown keys or key order.", "quantifier": "every JSON value", "why_tests_cant": "all malformed documents", "anchors": ["buildcc/schema/include/schema/target_schema.h: from_json", "buildcc/schema/src/target_serialization.cpp: Load"]}
{"id": "C21", "title": "Path normalisation is idempotent and canonical", "statement": "path_as_string(path_as_string(p)) = path_as_string(p) for every path; the result has no '.' component except the path '.' itself, no empty component, no '..' after a name, and no '..' directly under the root.", "quantifier": "every path string", "why_tests_cant": "unbounded component sequences", "anchors": ["buildcc/schema/include/schema/path.h: PathInfo::ToPathString"]}
{"id": "C22", "title": "Distinct in-root sources get distinct object files inside the build directory", "statement": "For sources under the target root whose relative path contains no '..', the object path lies under the target build directory, mirrors the relative directory, and two different sources never share an object path.", "quantifier": "every target root, build directory, pair of sources", "why_tests_cant": "all pairs of paths", "anchors": ["buildcc/lib/target/src/target/friend/compile_object.cpp: ConstructObjectPath"]}
{"id": "C23", "title": "Distinct out-of-root sources get distinct object files", "statement": "Two different sources outside the target root never share an object path. (Suspected false: every '.' of the relative path is replaced by '_'.)", "quantifier": "every pair of sources whose relative path contains '..'", "why_tests_cant": "collisions need specific directory names", "anchors": ["buildcc/lib/target/src/target/friend/compile_object.cpp: ConstructObjectPath"]}
{"id": "C24", "title": "Paths in generated commands survive word splitting", "statement": "In the compile, PCH and link commands, every path (input, output, include dirs, libraries) is seen by the command interpreter as a single word even if it contains spaces. (Suspected false: only fs::path values are quoted, the compile input, include dirs, lib dirs and libraries are formatted as plain strings.)", "quantifier": "every path containing spaces", "why_tests_cant": "tests mock command execution, so the text is never split", "anchors": ["buildcc/lib/target/src/target/friend/compile_object.cpp: CacheCompileCommands", "buildcc/lib/target/src/target/friend/link_target.cpp: CacheLinkCommand", "buildcc/lib/target/src/target/build.cpp: Target::Build", "buildcc/lib/target/include/target/common/util.h: aggregate"]}
{"id": "C25", "title": "The generated PCH source is written where the PCH command reads it", "statement": "When the PCH stage creates its placeholder source, it writes the file named by the path the PCH command compiles. (Suspected false when the build directory contains a space: the quoted display string is used as file name.)", "quantifier": "every build directory", "why_tests_cant": "tests use directories without spaces for PCH", "anchors": ["buildcc/lib/target/src/target/friend/compile_pch.cpp: BuildCompile"]}
{"id": "C26", "title": "Command construction substitutes exactly the named fields", "statement": "Command::Construct on a pattern of literal text and {name} fields returns the pattern with each field replaced by the argument of that name and the literal text unchanged ({{ and }} giving braces); the result depends only on the arguments the pattern mentions and does not re-interpret substituted text; a field without an argument is fatal.", "quantifier": "every pattern, every argument map, every iteration order of the maps", "why_tests_cant": "all patterns and all argument values (which may themselves contain braces)", "anchors": ["buildcc/lib/env/src/command.cpp: Command::Construct"]}
{"id": "C27", "title": "Default arguments: first value wins", "statement": "After any sequence of AddDefaultArgument(s) calls GetDefaultValueByKey and Construct use the value given first for each key; later values and arguments passed to Construct never replace it; unknown keys are fatal.", "quantifier": "every sequence of AddDefaultArgument(s)/Construct calls", "why_tests_cant": "all call histories", "anchors": ["buildcc/lib/env/src/command.cpp: AddDefaultArgument, AddDefaultArguments, GetDefaultValueByKey, Construct"]}
{"id": "C28", "title": "Copy replaces exactly the selected options", "statement": "target.Copy(other, options) makes every selected option equal to other's and leaves every other option, and everything outside the 17 options, unchanged, regardless of the order or repetition of options.", "quantifier": "every pair of targets, every option list", "why_tests_cant": "2^17 option sets times all contents", "anchors": ["buildcc/lib/target/src/api/sync_api.cpp: SyncApi::SpecializedCopy"]}
{"id": "C29", "title": "Insert appends exactly the selected options", "statement": "target.Insert(other, options) appends other's entries to every selected option once per occurrence, keeps existing entries and their order, and leaves every unselected option unchanged.", "quantifier": "every pair of targets, every option list", "why_tests_cant": "2^17 option sets times all contents", "anchors": ["buildcc/lib/target/src/api/sync_api.cpp: SyncApi::SpecializedInsert"]}
{"id": "C30", "title": "File classification is consistent", "statement": "With any ToolchainConfig, IsValidSource accepts exactly the files GetFileExt classifies as C, Cpp or Asm, IsValidHeader accepts exactly those with a header extension, each file has exactly one class, and the precedence for overlapping extension sets is C, C++, Asm, Header.", "quantifier": "every config (including overlapping extension sets) and every path", "why_tests_cant": "all extension sets", "anchors": ["buildcc/lib/toolchain/src/common/toolchain_config.cpp: GetFileExt, IsValidSource, IsValidHeader"]}
{"id": "C31", "title": "Toolchain search returns exactly the complete directories, in order", "statement": "Find is fatal iff a listed environment variable is not set; otherwise it returns, in order of absolute search paths followed by environment variable paths, exactly those readable directories that contain, for each of the five toolchain executables, a regular file of that name up to its extension; Verify selects the first of them, runs the information callback on it and changes the executables only on success.", "quantifier": "every search configuration, environment and directory content", "why_tests_cant": "all file systems", "anchors": ["buildcc/lib/toolchain/src/api/toolchain_find.cpp: ToolchainFind::Find, ContainsToolchainExecutables", "buildcc/lib/toolchain/src/api/toolchain_verify.cpp: Verify"]}
{"id": "C32", "title": "Storage references are type-safe and stable", "statement": "After any sequence of Add/Clear, Ref<T>(id)/ConstRef<T>(id) returns the object first added under id since the last Clear, and only if it was added with type T; otherwise it is fatal.", "quantifier": "every history of Add, Ref, Contains, Valid, Clear", "why_tests_cant": "all call histories", "anchors": ["buildcc/lib/env/include/env/storage.h: ScopedStorage"]}
{"id": "C33", "title": "Storage destroys every object exactly once", "statement": "Every object created by Storage::Add is destroyed exactly once, by the next Clear (or at exit). (Suspected false for a second Add with the same identifier: the new object is never stored and leaks.)", "quantifier": "every history of Add and Clear", "why_tests_cant": "all call histories", "anchors": ["buildcc/lib/env/include/env/storage.h: ScopedStorage::Add, Clear"]}
{"id": "C34", "title": "The accepted dependency graph is acyclic", "statement": "After any sequence of Build and Dep calls that were not rejected, the dependency relation between distinct registered builders has no cycle, so the build can always be scheduled.", "quantifier": "every sequence of Reg Build/Dep calls", "why_tests_cant": "all graphs and insertion orders", "anchors": ["buildcc/lib/args/src/register.cpp: Reg::Instance::Dep, DepDetectCyclicDependency, DepDetectDuplicate"]}
{"id": "C35", "title": "A dependency that would close a cycle is rejected, any other is accepted", "statement": "Dep(t, d) for distinct registered builders is fatal iff it was already added or d already (transitively) depends on t; the search terminates on every reachable graph.", "quantifier": "every reachable dependency graph, every pair of builders", "why_tests_cant": "all graphs", "anchors": ["buildcc/lib/args/src/register.cpp: DepDetectCyclicDependency, DepDetectDuplicate"]}
{"id": "C36", "title": "A builder cannot depend on itself", "statement": "Dep(t, t) is rejected. (Suspected false: the search starts at the successors of t and never compares t itself.)", "quantifier": "every registered builder", "why_tests_cant": "no test does it", "anchors": ["buildcc/lib/args/src/register.cpp: DepDetectCyclicDependency"]}
{"id": "C37", "title": "Dependencies finish before dependents start", "statement": "In every execution of the registered graph by any number of workers, a target's tasks start only after all tasks of all its transitive dependencies ended, and every registered builder is executed exactly once.", "quantifier": "every accepted graph and every work-conserving schedule", "why_tests_cant": "all interleavings", "anchors": ["buildcc/lib/args/src/register.cpp: Reg::Instance::Dep", "buildcc/lib/args/src/tasks.cpp: RunBuild"]}
{"id": "C38", "title": "Command line conditions gate registration", "statement": "For a toolchain with build=false nothing is registered (no callback, build, dependency or test); with build=true and test=false everything except tests is registered; tests require both; a test or dependency on an unregistered builder and duplicate registrations are fatal.", "quantifier": "every condition and every sequence of registration calls", "why_tests_cant": "all call sequences", "anchors": ["buildcc/lib/args/src/register.cpp: ToolchainInstance::Dep, ToolchainInstance::Test, Instance::Test, BuildStoreTask", "buildcc/lib/args/include/args/register.h: ToolchainInstance, CallbackInstance"]}
{"id": "C39", "title": "A successful generator run leaves every output current", "statement": "When a CustomGenerator run ends with SUCCESS, for every id the last successful callback ran with the current input list and input versions, output list and blob, whatever earlier runs did (failures, edits between runs, id changes). Assumes no id's callback or another process modifies an input during the run.", "quantifier": "every history of runs, id sets, outcomes and schedules", "why_tests_cant": "all histories and schedules", "anchors": ["buildcc/lib/target/src/custom_generator/custom_generator.cpp: GenerateTask, TaskFunctor, Comparator, ComputeBuild"]}
{"id": "C40", "title": "Generator ids that consume another id's output are regenerated", "statement": "If one id's output is another id's input, then after a run that reports success every id has been generated from the current inputs. (Suspected false: input times are re-read after all callbacks ran and are stored as if they had been consumed.)", "quantifier": "every generator with chained ids and every schedule", "why_tests_cant": "depends on schedule and on timing of the hash", "anchors": ["buildcc/lib/target/src/custom_generator/custom_generator.cpp: GenerateTask", "buildcc/lib/target/include/target/custom_generator.h: ConvertToInternal"]}
{"id": "C41", "title": "Generator: nothing changed means no callback runs", "statement": "If a generator run succeeded and ids, inputs, outputs, blobs and input versions are unchanged, the next run invokes no callback, does not rewrite the stored state and succeeds.", "quantifier": "every id set and every schedule", "why_tests_cant": "all configurations", "anchors": ["buildcc/lib/target/src/custom_generator/custom_generator.cpp: Comparator::IsChanged, ComputeBuild, GenerateTask"]}
{"id": "C42", "title": "Generator: exactly the affected ids run", "statement": "In a run in which no callback fails, the callbacks invoked are exactly those of ids that are new or whose inputs, input versions, outputs or blob differ from the stored ones; removed ids are forgotten.", "quantifier": "every stored state and current id set", "why_tests_cant": "all pairs of states", "anchors": ["buildcc/lib/target/src/custom_generator/custom_generator.cpp: Comparator, TaskFunctor"]}
{"id": "C43", "title": "Generator: a failed or skipped id runs again", "statement": "If the callback of an id failed, or was skipped because another id failed first, the id is not recorded as generated, and it runs again in the next run unless the generator recorded nothing at all because nothing was run.", "quantifier": "every subset of failing ids and every schedule", "why_tests_cant": "exponential", "anchors": ["buildcc/lib/target/src/custom_generator/custom_generator.cpp: TaskFunctor::operator(), GenerateTask"]}
{"id": "C44", "title": "Template outputs follow their pattern values", "statement": "After a successful TemplateGenerator run each output equals the current template with the current pattern values substituted. (Suspected false when only a pattern value changes: it is not part of the tracked state.)", "quantifier": "every template set and every history of pattern values", "why_tests_cant": "tests build each template once", "anchors": ["buildcc/lib/target/src/generator/template_generator.cpp: Build, template_generate_cb"]}
{"id": "C45", "title": "FileGenerator runs its commands in order and stops at the first failure", "statement": "When regeneration is needed the commands are executed in the order of AddCommand up to and including the first failing one, and the generator reports success iff all succeeded; changing, adding, removing or reordering commands triggers regeneration.", "quantifier": "every command list and outcome", "why_tests_cant": "all lists and outcomes", "anchors": ["buildcc/lib/target/src/generator/file_generator.cpp: FileGeneratorGenerateCb, AddCommand, Build"]}
{"id": "C46", "title": "Removing or adding a blob handler is noticed", "statement": "If an id gains or loses its blob handler between runs, its callback is invoked in the next run. (Suspected false: a missing handler disables the comparison, and an added one rejects the stored empty blob as corrupted.)", "quantifier": "every id with inputs and outputs unchanged", "why_tests_cant": "tests keep the handler", "anchors": ["buildcc/lib/target/src/custom_generator/custom_generator.cpp: Comparator::IsChanged", "buildcc/lib/target/include/target/custom_generator/custom_blob_handler.h: CheckChanged"]}
{"id": "C47", "title": "Splitting and trimming of strings", "statement": "env::split inverts joining with the delimiter for every list of pieces that contain no delimiter (up to one trailing empty piece), never yields a piece containing the delimiter; trim removes exactly the leading and trailing whitespace and is idempotent.", "quantifier": "every string and delimiter", "why_tests_cant": "all strings", "anchors": ["buildcc/lib/env/include/env/util.h: split, ltrim, rtrim, trim"]}
{"id": "C48", "title": "compile_commands.json is valid JSON with one entry per source", "statement": "ClangCompileCommands::Generate writes a valid JSON array with one object per source of each target, holding directory, command and file. (Suspected false: values are inserted without JSON escaping, and paths with spaces carry quotes.)", "quantifier": "every target list", "why_tests_cant": "tests do not parse the output", "anchors": ["buildcc/plugins/src/clang_compile_commands.cpp: ClangCompileCommands::Generate"]}
{"id": "C49", "title": "Host executable search returns exactly the matching entries", "statement": "BuildccFind::Search appends to GetPathMatches exactly the entries of the directories listed in the environment variables whose name matches, skipping missing variables and unreadable directories, and returns true iff GetPathMatches is then non-empty; repeated searches in a changing environment only append.", "quantifier": "every environment, directory content and pattern", "why_tests_cant": "all environments", "anchors": ["buildcc/plugins/src/buildcc_find.cpp: SearchEnv, BuildccFind::Search"]}
{"id": "C50", "title": "Failures are sticky", "statement": "During a build the task state never returns from FAILURE to SUCCESS, so Reg::Run never reports success after any task failed, for any interleaving of set_task_state calls made by the library.", "quantifier": "every interleaving of task-state reads and writes", "why_tests_cant": "thread interleavings", "anchors": ["buildcc/lib/env/src/task_state.cpp", "buildcc/lib/args/src/tasks.cpp: RunBuild"]}
{"id": "C51", "title": "A target build never gets stuck", "statement": "From every point of every run there is a next step unless the run is over, and a run is over after at most six steps plus one per source.", "quantifier": "every history of runs, edits, failures and crashes", "why_tests_cant": "all histories", "anchors": ["buildcc/lib/target/src/target/build.cpp: Target::Build", "buildcc/lib/target/src/target/friend/compile_pch.cpp", "buildcc/lib/target/src/target/friend/compile_object.cpp", "buildcc/lib/target/src/target/friend/link_target.cpp"]}
{"id": "C52", "title": "A build in which nothing goes wrong succeeds", "statement": "If every tracked file exists, every command and the write of the state file succeed, and all recorded strings are valid UTF-8, then the run reports success, whatever happened in earlier runs (failures, crashes, truncated state files).", "quantifier": "every earlier history and every schedule of the run", "why_tests_cant": "all histories", "anchors": ["buildcc/lib/target/src/target/build.cpp: Target::Build", "buildcc/lib/target/src/target/tasks.cpp"]}
{"id": "C53", "title": "Without its state file a target is rebuilt completely", "statement": "If there is no state file (first build, or it was deleted), then after a successful run PCH, objects and target are all current, whatever object files, PCH and target were left on disk by other configurations, other toolchains or interrupted runs.", "quantifier": "every content of the build directory, every configuration and schedule", "why_tests_cant": "tests start from empty directories or from the files of the same configuration", "anchors": ["buildcc/lib/target/src/target/build.cpp: Target::Build", "buildcc/lib/target/src/target/friend/compile_pch.cpp", "buildcc/lib/target/src/target/friend/compile_object.cpp", "buildcc/lib/target/src/target/friend/link_target.cpp"]}
{"id": "C54", "title": "Run reports success only if everything succeeded, and tests run only then", "statement": "Reg::Run returns normally only if every registered builder that was executed reported success and every registered test command succeeded; no test command is started before all builders are done, and each registered test is run exactly once in such a run.", "quantifier": "every registration history, execution order and outcome of builders and tests", "why_tests_cant": "all graphs, orders and outcomes", "anchors": ["buildcc/lib/args/src/tasks.cpp: RunBuild, RunTest", "buildcc/lib/args/src/register.cpp: Reg::Run"]}
{"id": "C55", "title": "A found toolchain directory really holds the executables", "statement": "Every directory returned by Toolchain::Find holds files named like the five executables, and every readable searched directory holding them as regular files is returned. (Suspected false: names are compared without the file extension, so gcc.txt counts as gcc and gcc-10.2 is never found.)", "quantifier": "every search configuration, environment, directory content and executable names", "why_tests_cant": "all names", "anchors": ["buildcc/lib/toolchain/src/api/toolchain_find.cpp: ContainsToolchainExecutables"]}
{"id": "C56", "title": "Verify can be repeated", "statement": "Calling Verify again after a successful Verify on an unchanged machine succeeds again. (Suspected false: the executables have become absolute paths, which no directory entry is called.)", "quantifier": "every machine, toolchain and pair of configurations", "why_tests_cant": "tests call it once per toolchain", "anchors": ["buildcc/lib/toolchain/src/api/toolchain_verify.cpp: Verify, CreateToolchainExecutables"]}
{"id": "C57", "title": "A deleted generator output is generated again", "statement": "If an output of a generator id is deleted after a successful run, the next run generates it again. (Suspected false: only inputs, output names and the blob are compared.)", "quantifier": "every history, program and deleted output", "why_tests_cant": "all histories", "anchors": ["buildcc/lib/target/src/custom_generator/custom_generator.cpp"]}
{"id": "C58", "title": "Killed generator runs", "statement": "If a generator run is killed, outputs are current again after the next successful run, also when the killed run and the next one belong to different programs. (Suspected false across programs: a callback's effect is not recorded before the end of the run.)", "quantifier": "every kill point and every history", "why_tests_cant": "crash points", "anchors": ["buildcc/lib/target/src/custom_generator/custom_generator.cpp"]}
{"id": "C59", "title": "One template can be expanded to several outputs", "statement": "AddTemplate may be called several times with the same template and different outputs, each of which is then generated. (Suspected false: the template's path is the id, and ids must be distinct.)", "quantifier": "every sequence of AddTemplate calls", "why_tests_cant": "all sequences of calls", "anchors": ["buildcc/lib/target/src/generator/template_generator.cpp: AddTemplate, Build"]}
{"id": "C60", "title": "User blobs round trip", "statement": "What a generator callback deserializes from its blob is exactly the list of strings the handler was constructed with; the handler accepts its own blob and finds no change in it.", "quantifier": "every list of strings that MessagePack can represent", "why_tests_cant": "all strings and lengths, including the boundaries of the length encodings", "anchors": ["buildcc/lib/target/src/generator/file_generator.cpp: FileGeneratorUserBlobHandler"]}
{"id": "C61", "title": "Commands of gcc targets have exactly the configured arguments", "statement": "For gcc (and MinGW) targets the compile command of a source consists of the compiler of its language, preprocessor flags, include directories, common flags, PCH options (only if there are precompiled headers), the flags of its language and no other language, output and input, in this order; the PCH and link commands likewise with their options, every object once and the libraries.", "quantifier": "every target configuration, source and flag list that the shell splits without expansion", "why_tests_cant": "all configurations; tests compare a few command texts", "anchors": ["buildcc/targets/include/targets/target_gcc.h", "buildcc/targets/include/targets/target_mingw.h", "buildcc/lib/target/src/target/build.cpp: Target::Build", "buildcc/lib/target/src/target/friend/compile_object.cpp: CacheCompileCommands", "buildcc/lib/target/src/target/friend/compile_pch.cpp: ConstructCompileCommand", "buildcc/lib/target/src/target/friend/link_target.cpp: CacheLinkCommand", "buildcc/lib/target/src/target/target.cpp: SelectCompileFlags, SelectCompiler"]}
{"id": "C62", "title": "Libraries added to a target are linked", "statement": "Libraries, external libraries and library directories added to a target are arguments of its link command. (Suspected false for static and dynamic library targets, whose templates do not mention them.)", "quantifier": "every target kind and configuration", "why_tests_cant": "tests never run the commands", "anchors": ["buildcc/targets/include/targets/target_gcc.h: kGccStaticLibLinkCommand, kGccDynamicLibLinkCommand"]}
{"id": "C63", "title": "gcc finds the precompiled header", "statement": "The header that the sources of a gcc target include through -include is the one the PCH is compiled from, and the compiled PCH is that path with .gch appended, for every build directory.", "quantifier": "every build directory (dots, spaces, trailing separators)", "why_tests_cant": "all paths", "anchors": ["buildcc/targets/include/targets/target_gcc.h: DefaultGccOptions", "buildcc/lib/target/src/target/friend/compile_pch.cpp: ConstructCompilePath"]}
{"id": "C64", "title": "A target consists of exactly what the calls describe", "statement": "After any sequence of calls on a new target (AddSource, GlobSources, AddHeader, AddIncludeDir with or without globbing, AddPch, AddLibDir, AddLibDep, Add...Dependency, Add...Flag and their absolute variants) every option holds the flags of the toolchain followed by exactly what the calls name, in call order, normalised; the calls are refused iff one of them names a file that is no source (header) or a directory that cannot be listed; and these options are what is built.", "quantifier": "every sequence of calls, every directory listing, every toolchain configuration", "why_tests_cant": "all call sequences and directory contents; tests use a handful of fixed ones", "anchors": ["buildcc/lib/target/include/target/api/source_api.h", "buildcc/lib/target/include/target/api/include_api.h", "buildcc/lib/target/include/target/api/pch_api.h", "buildcc/lib/target/include/target/api/lib_api.h", "buildcc/lib/target/include/target/api/deps_api.h", "buildcc/lib/toolchain/include/toolchain/api/flag_api.h", "buildcc/lib/target/src/target_info/target_info.cpp: TargetInfo::Initialize"]}
{"id": "C65", "title": "Every source of a target can be compiled", "statement": "Every source of a target is a file the target's toolchain has a compiler for, and every header and PCH file is a header, however the path was spelled when it was added. (Suspected false when sources are taken over by Copy or Insert from a target with another toolchain.)", "quantifier": "every sequence of calls and spelling of paths", "why_tests_cant": "path normalisation happens after the check; all spellings", "anchors": ["buildcc/lib/target/include/target/api/source_api.h: AddSourceAbsolute", "buildcc/lib/toolchain/src/common/toolchain_config.cpp: ExpectsValidSource", "buildcc/lib/target/src/api/sync_api.cpp"]}
{"id": "C66", "title": "Adding a source twice is harmless", "statement": "A source that is named twice (for example by AddSource and again by GlobSources) behaves as if named once: a run after which nothing changed executes nothing. (Suspected false: the recorded entry is consumed by the first occurrence.)", "quantifier": "every target with a repeated source, every state and run", "why_tests_cant": "a statement about every run", "anchors": ["buildcc/lib/target/src/target/friend/compile_object.cpp: RecompileSources", "buildcc/lib/target/include/target/api/source_api.h: GlobSources"]}
{"id": "C67", "title": "Toolchains created by id are the toolchains asked for", "statement": "Creating a toolchain by id succeeds iff the id can be created (gcc, msvc, mingw always; clang and custom with executables; undefined never) and the name is not in use; the toolchain has the id, name and executables asked for (or the usual ones of the id), and whatever is stored before and afterwards it is found under its name as a toolchain of its class, and no second one can take the name, until the storage is cleared.", "quantifier": "every history of creations, other stored objects and clears", "why_tests_cant": "all histories; tests create a few", "anchors": ["buildcc/toolchains/src/toolchain_aggregate.cpp: Toolchain_generic::New, AddIf", "buildcc/toolchains/include/toolchains/toolchain_gcc.h", "buildcc/toolchains/include/toolchains/toolchain_custom.h", "buildcc/lib/env/include/env/storage.h"]}
{"id": "C68", "title": "A toolchain uses the configuration it is given", "statement": "A ToolchainConfig passed when a toolchain is created determines its extensions and prefixes. (Suspected false: Initialize assigns the configuration of the id.)", "quantifier": "every id and configuration", "why_tests_cant": "all configurations", "anchors": ["buildcc/toolchains/src/toolchain_gcc.cpp: Initialize", "buildcc/toolchains/src/toolchain_aggregate.cpp: Toolchain_custom::Initialize", "buildcc/toolchains/src/toolchain_msvc.cpp: Initialize"]}
{"id": "C69", "title": "A toolchain selected on the command line has the usual executables", "statement": "A toolchain selected through the arguments by its id and name, without executables, is the usual toolchain of that id. (Suspected false: empty names are passed as executables.)", "quantifier": "every id, name and machine", "why_tests_cant": "a statement about every machine it is verified on", "anchors": ["buildcc/lib/args/include/args/args.h: ArgToolchain::ConstructToolchain"]}
{"id": "C70", "title": "The reported compiler version is what the compiler prints", "statement": "The version and architecture Verify reports for gcc, mingw and clang are what the compiler found prints for -dumpversion and -dumpmachine, however the output is delivered. (Suspected false: only the first piece read from the pipe is used.)", "quantifier": "every machine, output and delivery of the output", "why_tests_cant": "depends on how the reads are split", "anchors": ["buildcc/toolchains/src/toolchain_infos.cpp: GetGccCompilerVersion, GetGccTargetArchitecture", "buildcc/lib/env/src/execute.cpp"]}
{"id": "C71", "title": "Verify runs the compiler it reports", "statement": "Verify reports the first searched directory that holds all executables, sets the executables to those in it, and obtains the version by running exactly the compiler in it with -dumpversion and -dumpmachine. (Suspected false for directories with blanks: the path is not quoted.)", "quantifier": "every machine, directory and search configuration", "why_tests_cant": "all paths", "anchors": ["buildcc/lib/toolchain/src/api/toolchain_verify.cpp: Verify", "buildcc/toolchains/src/toolchain_infos.cpp: GetGccToolchainInfo"]}
{"id": "C72", "title": "Generic targets are the targets of their toolchain", "statement": "A generic target (by kind or Target_generic), with or without its own configuration, is the same target as the gcc, MinGW or msvc class gives for the toolchain's id: same paths, commands and options. For other ids creation is fatal.", "quantifier": "every project, name, kind, toolchain, environment and configuration", "why_tests_cant": "the options are copied from a temporary target; every list of toolchain flags is covered", "anchors": ["buildcc/targets/include/targets/target_generic.h: ExecutableTarget_generic, StaticTarget_generic, DynamicTarget_generic, Target_generic"]}
{"id": "C73", "title": "Options of a target", "statement": "Each option of a target holds exactly the flags of its toolchain, then those of its class, then what the calls on the target added, in this order and once each.", "quantifier": "every toolchain, class, kind and list of calls", "why_tests_cant": "all lists of flags and calls", "anchors": ["buildcc/targets/include/targets/target_gcc.h", "buildcc/targets/include/targets/target_msvc.h", "buildcc/targets/include/targets/target_generic.h", "buildcc/lib/target/src/target/target.cpp: Target::Initialize"]}
{"id": "C74", "title": "A target writes only into its own build directory", "statement": "Every file a target writes (state file, output, objects, PCH files) lies in <build>/<toolchain>/<target>, wherever its sources are. (Suspected false for the PCH placeholder source when the path has blanks: it is saved under the quoted path.)", "quantifier": "every project, toolchain, target name and list of calls", "why_tests_cant": "all source paths, including ones outside the project and with '..'", "anchors": ["buildcc/lib/target/src/target/friend/compile_object.cpp: ConstructObjectPath", "buildcc/lib/target/src/target/friend/compile_pch.cpp", "buildcc/lib/target/src/target/friend/link_target.cpp: ConstructOutputPath"]}
{"id": "C75", "title": "Targets do not overwrite each other's files", "statement": "Two targets with different names or toolchain names and the same build directory never write the same file. (Suspected false if a toolchain name has a '/'.)", "quantifier": "every two targets, their sources and the working directory", "why_tests_cant": "all pairs of targets and paths", "anchors": ["buildcc/lib/target/include/target/target.h: Target", "buildcc/lib/target/src/target/friend/compile_object.cpp: ConstructObjectPath"]}
{"id": "C76", "title": "The unique id identifies a target", "statement": "Two targets have the same unique id exactly if their toolchain names and target names are the same. (Suspected false if a toolchain name has a ']'.)", "quantifier": "every two targets", "why_tests_cant": "all pairs of names", "anchors": ["buildcc/lib/target/include/target/target.h: Target"]}
{"id": "C77", "title": "Commands of msvc targets", "statement": "The compile, PCH and link commands of msvc targets can always be constructed and consist of the documented groups of arguments: compiler or linker, preprocessor flags, /I directories, flags by language, PCH options only with PCHs, /Fo, /OUT, libraries (executables only) and objects.", "quantifier": "every configuration of a target and every source", "why_tests_cant": "all configurations, with any characters in the values", "anchors": ["buildcc/targets/include/targets/target_msvc.h", "buildcc/lib/target/src/target/friend/compile_object.cpp: CacheCompileCommands", "buildcc/lib/target/src/target/friend/compile_pch.cpp: ConstructCompileCommand", "buildcc/lib/target/src/target/friend/link_target.cpp: CacheLinkCommand"]}
{"id": "C78", "title": "From calls to compiler arguments", "statement": "The compiler of a gcc target is run on a source with exactly: the preprocessor flags, the include directories, the common flags, the PCH flags if it has PCHs and the flags of the source's language, where flags are the toolchain's, the class's and those of the calls in this order, then -o object -c source.", "quantifier": "every toolchain, list of calls and source without characters special to the shell", "why_tests_cant": "all lists of calls and flags", "anchors": ["buildcc/targets/include/targets/target_gcc.h", "buildcc/lib/target/src/target/friend/compile_object.cpp: CacheCompileCommands", "buildcc/lib/target/include/target/api/"]}
{"id": "C79", "title": "buildexe builds what its command line asks for", "statement": "The target buildexe builds has exactly the options of the toolchain and its class followed by those of the command line, in order and each once; buildexe refuses exactly the uninitialised project, the unsupported toolchain and the source that is no source file. In script mode exactly the options of the buildcc target, the build directory with its headers, and the sources, headers and directories of the library files are added.", "quantifier": "every command line, toolchain, buildcc target, list of library files and directory contents", "why_tests_cant": "all combinations of option lists", "anchors": ["buildexe/src/build_env_setup.cpp: UserTargetSetup, UserTargetWithBuildccSetup, UserTargetCb, DepUserTargetCb"]}
{"id": "C80", "title": "The header of library directories is valid C++", "statement": "The header buildexe generates declares one constant for each directory in {BUILDCC_HOME}/libs, with its name and its path as value. (Suspected false for names that are no identifiers and paths with blanks.)", "quantifier": "every set of libraries and every home directory", "why_tests_cant": "all names and paths", "anchors": ["buildexe/src/build_env_setup.cpp: DepUserTargetCb", "buildexe/src/args_setup.cpp: ArgLibsInfo"]}
{"id": "C81", "title": "buildexe does not rebuild what has not changed", "statement": "Running buildexe a second time with the same command line and unchanged files executes no compile or link command. (Suspected false in script mode, where each run writes the generated header, a tracked input, again.)", "quantifier": "every command line and history of runs", "why_tests_cant": "all histories and command lines", "anchors": ["buildexe/src/build_env_setup.cpp: DepUserTargetCb", "buildcc/lib/target/src/target/friend/tasks.cpp"]}
{"id": "C82", "title": "buildexe executes only what it has built", "statement": "A command is executed only in script mode, the program that checks the toolchain only after it was built, and the script only after the toolchain was verified and checked and every target built. buildexe returns success exactly if all steps up to the compile commands succeeded.", "quantifier": "every command line and every outcome of building, executing and looking up files", "why_tests_cant": "all combinations of failures", "anchors": ["buildexe/buildexe.cpp: main", "buildexe/src/toolchain_setup.cpp: host_toolchain_verify", "buildexe/src/build_env_setup.cpp: RunUserTarget"]}
{"id": "C83", "title": "Configuration files reach the script", "statement": "A script is run with its path and one --config argument for each configuration file, unchanged and in order. (Suspected false for names with blanks.)", "quantifier": "every list of configuration files and every target", "why_tests_cant": "all file names", "anchors": ["buildexe/src/build_env_setup.cpp: RunUserTarget"]}
{"id": "C84", "title": "BUILDCC_HOME and its libraries", "statement": "buildexe accepts BUILDCC_HOME exactly if the variable is set, and it and its directories buildcc, libs and extensions exist. The libraries are exactly the directories in libs, and the files used from a library are exactly those given for it, below its directory.", "quantifier": "every environment, directory contents and list of files given for each library", "why_tests_cant": "all directory contents", "anchors": ["buildexe/src/build_env_home.cpp: BuildccHome::Init", "buildexe/src/args_setup.cpp: ArgLibsInfo"]}
{"id": "C85", "title": "The check of the host toolchain", "statement": "For every toolchain buildexe supports, the check builds exactly its generated source with the options of the toolchain and C++17, inside the build directory, and executes the result; other toolchains are refused. (Suspected false for the execution if the build directory has a blank.)", "quantifier": "every project directory and toolchain with its usual configuration", "why_tests_cant": "all paths and toolchains", "anchors": ["buildexe/src/toolchain_setup.cpp: host_toolchain_verify"]}
{"id": "C86", "title": "A failing script makes buildexe fail", "statement": "If the script that was executed does not succeed, buildexe does not return success. (Suspected false.)", "quantifier": "every script run", "why_tests_cant": "all runs", "anchors": ["buildexe/buildexe.cpp: main", "buildexe/src/build_env_setup.cpp: RunUserTarget"]}
{"id": "C87", "title": "Toolchains from the command line", "statement": "After Args::Init, AddToolchain calls and Parse, every toolchain variable holds the id, name and executables given on the command line (ids in any letter case or as numbers) and otherwise those of the initial value; variables that were not added do not change; the command line is accepted exactly if all names differ, the two directories are given and every id and log level exists.", "quantifier": "every list of added toolchains and targets and every command line", "why_tests_cant": "all command lines", "anchors": ["buildcc/lib/args/src/args.cpp: AddToolchain", "buildcc/lib/args/src/parse.cpp: Parse"]}
{"id": "C88", "title": "The initial toolchain is the fallback", "statement": "The build and test state and the configuration of the initial value are used unless the command line says otherwise. (Suspected false: they are ignored.)", "quantifier": "every list of added toolchains and every command line", "why_tests_cant": "all command lines", "anchors": ["buildcc/lib/args/src/args.cpp: AddToolchain"]}
{"id": "C89", "title": "Settings are those of the last command line", "statement": "Clean, GetLogLevel, GetProjectRootDir and GetProjectBuildDir report what the last parsed command line said, or the default. (Suspected false after Deinit and Init.)", "quantifier": "every sequence of uses of Args", "why_tests_cant": "all histories", "anchors": ["buildcc/lib/args/src/args.cpp: Clean, GetLogLevel, Deinit"]}
{"id": "C90", "title": "Commands of targets from the command line", "statement": "The TargetConfig of an added target has the compile and link command of the command line, otherwise the initial one, otherwise the usual one. (Suspected false for the last case: the command is empty.)", "quantifier": "every list of added targets and every command line", "why_tests_cant": "all command lines", "anchors": ["buildcc/lib/args/include/args/args.h: ArgTarget::GetTargetConfig", "buildcc/lib/args/src/args.cpp: AddTarget"]}
{"id": "C91", "title": "From the command line to the directories of a target", "statement": "Reg::Init ends the process iff no command line has been parsed since the last Deinit; otherwise a target of a toolchain constructed from the command line reads below <cwd>/<root_dir> and builds in <cwd>/<build_dir>/<toolchain name>/<target name>, with the executables given. A second Reg::Init changes nothing.", "quantifier": "every working directory, command line, toolchain and target", "why_tests_cant": "all command lines and directories", "anchors": ["buildcc/lib/args/src/register.cpp: SystemInit, Reg::Init", "buildcc/lib/args/include/args/args.h: ConstructToolchain"]}
{"id": "C92", "title": "A whole program is current after a successful run", "statement": "A program registers targets and generators with Reg; every file one builder writes and another one tracks is covered by a (direct or transitive) Dep. Then after a successful Reg::Run every registered target's PCH, objects and output are current, and each target was linked with exactly those outputs of other targets that are on disk now. Without the Dep this is false.", "quantifier": "every number of targets and generators, every dependency graph, every history of earlier runs (also killed or failed ones), edits and option changes, every number of workers and every interleaving of the builders' steps", "why_tests_cant": "all interleavings of all programs over all histories", "anchors": ["buildcc/lib/args/src/register.cpp: Reg::Run, Reg::Instance::Dep", "buildcc/lib/args/src/tasks.cpp: RunBuild", "buildcc/lib/target/src/target/build.cpp: Build"]}
{"id": "C93", "title": "The verdict of a run", "statement": "When the executor has finished, the global task state Reg::Run looks at is SUCCESS iff every registered builder's task reported success, although the builders share it and set it concurrently.", "quantifier": "every program, history and interleaving", "why_tests_cant": "all interleavings", "anchors": ["buildcc/lib/args/src/register.cpp: Reg::Run", "buildcc/lib/env/src/task_state.cpp"]}
{"id": "C94", "title": "A second run of a program does nothing", "statement": "After a successful run of a program with any number of targets, further runs of it execute no command for any target and change no state file or artifact as long as no tracked file changes and no state file is deleted, whatever the interleaving and even if the runs are killed.", "quantifier": "every program, history before the first run, and every sequence of later runs", "why_tests_cant": "all histories and interleavings", "anchors": ["buildcc/lib/args/src/register.cpp: Reg::Run", "buildcc/lib/target/src/target/tasks.cpp"]}
{"id": "C95", "title": "A failure stops what has not begun", "statement": "Once a builder has failed during Reg::Run, a target whose task has not begun executes no command, changes no state file or artifact and does not report success.", "quantifier": "every program, history, and moment of failure", "why_tests_cant": "all interleavings", "anchors": ["buildcc/lib/args/src/tasks.cpp: RunBuild", "buildcc/lib/target/src/target/tasks.cpp", "buildcc/lib/env/src/task_state.cpp"]}
{"id": "C96", "title": "A pattern's text is fixed when it is added", "statement": "AddPattern expands its pattern with the names known at that moment (project_root_dir, project_build_dir, current_root_dir, current_build_dir, then those added before); a name already taken keeps its text; an unknown name is fatal. Afterwards every text (input, output, command, ParsePattern) is expanded with the resulting names, and a text that could be expanded keeps its expansion whatever is added later.", "quantifier": "every generator and every sequence of additions", "why_tests_cant": "all sequences of calls and all texts", "anchors": ["buildcc/lib/target/src/custom_generator/custom_generator.cpp: AddPattern, AddPatterns, ParsePattern, Initialize", "buildcc/lib/env/src/command.cpp: AddDefaultArgument, Construct"]}
{"id": "C97", "title": "AddPatterns does not depend on the order of its map", "statement": "AddPatterns takes an unordered_map; what it does is a function of the map's contents. (Suspected false: a pattern may mention another name of the same map.)", "quantifier": "every map and every iteration order of it", "why_tests_cant": "the iteration order differs between standard libraries and runs", "anchors": ["buildcc/lib/target/src/custom_generator/custom_generator.cpp: AddPatterns"]}
{"id": "C98", "title": "Programs with generators are current after a successful run", "statement": "A program of any targets and custom generators is registered; the registered dependencies cover every file one builder writes and another one reads. Whenever Reg::Run succeeds, everything each registered target asked for is current and linked with what the other targets made now, and for every id of every registered generator the last callback succeeded and was given the present inputs, outputs and blob.", "quantifier": "every program, every history of edits, deletions of state files, failures, interrupted and complete runs, every number of workers and interleaving of all builders' steps", "why_tests_cant": "all interleavings of several builders over all histories", "anchors": ["buildcc/lib/args/src/register.cpp: Reg::Instance::RunBuild, Run", "buildcc/lib/args/src/tasks.cpp: BuildTask", "buildcc/lib/target/src/custom_generator/custom_generator.cpp: Build, GenerateTask, TaskRunner", "buildcc/lib/target/src/target/build.cpp"]}
{"id": "C99", "title": "Nothing is redone in programs with generators", "statement": "After such a run, as long as no tracked file and no input is changed, no state file deleted and the program is the same, no number of further runs (complete or killed) executes a command, invokes a callback or changes a state file or artifact.", "quantifier": "the same, and every sequence of further runs", "why_tests_cant": "all numbers of further runs and interleavings", "anchors": ["buildcc/lib/args/src/register.cpp: Reg::Instance::RunBuild, Run", "buildcc/lib/target/src/custom_generator/custom_generator.cpp: BuildGenerate, TaskRunner"]}
{"id": "C100", "title": "A failure stops builders that have not begun", "statement": "Once a target or generator has failed during Reg::Run, a target or generator whose task has not begun executes no command and no callback, leaves its state file and artifacts alone and does not report success.", "quantifier": "every program, history, number of workers and interleaving", "why_tests_cant": "the moment of the failure relative to all other steps", "anchors": ["buildcc/lib/env/src/task_state.cpp: set_task_state, get_task_state", "buildcc/lib/target/src/custom_generator/custom_generator.cpp: GenerateTask", "buildcc/lib/target/src/target/tasks.cpp"]}
{"id": "C101", "title": "The bootstrap program tracks every header of the library", "statement": "libbuildcc as the bootstrap package describes it is compiled from, and tracks, every source and header of buildcc's library directories and of its header-only third-party libraries, so that an edit of any of them rebuilds it.", "quantifier": "every repository root, toolchain, host and contents of the directories", "why_tests_cant": "every contents of the globbed directories and every later edit", "anchors": ["bootstrap/src/build_buildcc.cpp: buildcc_cb, BuildBuildCC::Setup", "bootstrap/src/build_tpl.cpp", "bootstrap/src/build_nlohmann_json.cpp", "bootstrap/src/build_fmtlib.cpp", "bootstrap/src/build_spdlog.cpp", "bootstrap/src/build_cli11.cpp", "bootstrap/src/build_taskflow.cpp"]}
{"id": "C102", "title": "The bootstrap program leaves everything current", "statement": "After every successful run of the bootstrap program everything the two libraries and the example asked for is current and each was linked with exactly the libraries that are on disk now; the dependencies the program registers suffice.", "quantifier": "every root, toolchain, host, history of edits, files that come and go, kills and failed runs, every number of workers and interleaving", "why_tests_cant": "all histories and interleavings of the three builders", "anchors": ["bootstrap/main.buildcc.cpp: main, hybrid_simple_example_cb", "bootstrap/src/build_buildcc.cpp: BuildBuildCC::Initialize, Setup"]}
{"id": "C103", "title": "A second bootstrap does nothing", "statement": "After such a run no number of further runs, complete or killed, executes a command or changes a state file or artifact as long as no tracked file, option or state file changes.", "quantifier": "the same, and every sequence of further runs", "why_tests_cant": "all numbers of further runs and interleavings", "anchors": ["bootstrap/main.buildcc.cpp: main", "bootstrap/src/build_buildcc.cpp: BuildBuildCC::Setup"]}
{"id": "C104", "title": "A target depends on nothing it was not told", "statement": "The files whose changes rebuild a target are only files the build script named in a call on the target itself, or in a call on an object from which the target copied or inserted that option, directly or through further objects.", "quantifier": "every build script: any number of objects, calls, Copy and Insert by reference or by move, in any order, over any directory contents", "why_tests_cant": "every script and every chain of Copy/Insert", "anchors": ["buildcc/lib/target/include/target/api: source_api.h, include_api.h, lib_api.h, pch_api.h, deps_api.h, sync_api.h", "buildcc/lib/target/src/api/sync_api.cpp: SpecializedCopy, SpecializedInsert"]}
{"id": "C105", "title": "A script that declares its dependencies is always built correctly", "statement": "If a build script registers a dependency whenever a target is told, or a generator reads, a file that another registered builder writes, then after every successful Reg::Run everything registered is current, and until something tracked changes further runs do nothing.", "quantifier": "every script that follows the rule, every toolchain, every history of edits, kills, crashes and failed runs, of processes with different scripts, every number of workers and interleaving", "why_tests_cant": "all scripts following the rule, all histories and interleavings", "anchors": ["buildcc/lib/args/src/register.cpp: Dep, Run", "buildcc/lib/target/src/api/sync_api.cpp", "buildcc/lib/target/include/target/api/lib_api.h: AddLibDep"]}
{"id": "C106", "title": "Relative paths of files lead back to the file", "statement": "A path obtained as absolute (for instance from a generator) and made relative to the directory of a target can be given to AddSource and the other calls that take relative paths: the target tracks exactly that file, unless it is the directory itself or lies above it.", "quantifier": "all absolute normalised directories and files", "why_tests_cant": "all pairs of paths, of any depth and any common prefix", "anchors": ["example/hybrid/dep_chaining/build.cpp: cpp_target_cb, c_target_cb", "buildcc/lib/target/include/target/api/source_api.h: AddSource", "buildcc/schema/include/schema/path.h"]}
{"id": "C107", "title": "A program with generated sources is built from what was generated", "statement": "In the example with generated sources, for every command line, each target is compiled from the file its generator writes and tracks nothing else; after every successful run the generated files and everything built from them are current, and further runs do nothing until a generated file or a state file changes.", "quantifier": "every root and build directory, every combination of requested toolchains, every history of edits, kills, crashes, failed runs and other command lines, every number of workers and interleaving", "why_tests_cant": "all directories, command lines, histories and interleavings", "anchors": ["example/hybrid/dep_chaining/build.cpp", "buildcc/lib/target/src/generator/file_generator.cpp", "buildcc/lib/args/src/register.cpp: Dep, Run"]}
{"id": "C108", "title": "Edits of the script that generates sources are noticed", "statement": "In the example with generated sources, an edit of the script the generators execute makes the next run generate the sources again.", "quantifier": "every history of the example followed by edits of the script and further runs", "why_tests_cant": "all histories", "anchors": ["example/hybrid/dep_chaining/build.cpp: cpp_generator_cb, c_generator_cb", "buildcc/lib/target/src/generator/file_generator.cpp: AddCommand"]}
{"id": "C109", "title": "Tests run after a successful build, each once", "statement": "Reg::Run executes tests only after everything was built and after the user's callback, which is called once; when it returns, every registered test was executed exactly once, with its command in its working directory, and succeeded; it ends the program exactly if the build or a test failed or a test has no command.", "quantifier": "every registration program, every number of workers, every order and interleaving of tests, every log level and every way the tests write and exit", "why_tests_cant": "all interleavings of parallel tests; unit tests register a handful of tests that do not interact", "anchors": ["buildcc/lib/args/src/register.cpp: Reg::Run, Instance::Test, TestInfo::TestRunner", "buildcc/lib/args/src/tasks.cpp: RunTest", "buildcc/lib/env/src/execute.cpp: Command::Execute"]}
{"id": "C110", "title": "The output of a successful test is shown", "statement": "With a log level that shows information, the text a successful test writes to the streams its TestOutput asks for is shown unchanged. (Suspected false if the output arrives in several pieces.)", "quantifier": "every test, kind of output, way of splitting the output into pieces, log level and interleaving", "why_tests_cant": "how a pipe splits output depends on timing", "anchors": ["buildcc/lib/args/include/args/register/test_info.h: TestOutput", "buildcc/lib/args/src/register.cpp: TestInfo::TestRunner", "buildcc/lib/env/src/execute.cpp: Command::Execute", "buildcc/lib/env/src/logging.cpp: log_info"]}
{"id": "C111", "title": "The output of a failing test is shown", "statement": "What a failing test writes is shown, so that the user can see why it failed. (Suspected false for the default output.)", "quantifier": "every test, kind of output and interleaving", "why_tests_cant": "all interleavings and outputs; the tests of the project do not look at the console", "anchors": ["buildcc/lib/args/src/register.cpp: TestInfo::TestRunner", "buildcc/lib/env/src/assert_fatal.cpp: assert_throw"]}
{"id": "C112", "title": "Output redirected to a user's vector", "statement": "A vector given with UserRedirect receives exactly what the test writes to that stream, in order, after its previous contents; other vectors are left alone. (Suspected false if tests share a vector.)", "quantifier": "every assignment of vectors to streams of tests and every interleaving", "why_tests_cant": "all interleavings of parallel tests", "anchors": ["buildcc/lib/args/include/args/register/test_info.h: TestOutput", "buildcc/lib/args/src/register.cpp: TestInfo::TestRunner"]}
{"id": "C113", "title": "The compilation database follows the targets over any number of runs", "statement": "When ClangCompileCommands::Generate returns after a successful Reg::Run, compile_commands.json lists, for the added targets in order, exactly the sources each of them has in this program, each with the command that compiles it now, whether Generate has written the file in this run or left the one of an earlier run alone. This needs: every added target is built by the run, no earlier program ended between a finished build and Generate, targets that used a PCH go on to use one, the file is not deleted and no write of it is cut short; without each of these it does not hold.", "quantifier": "every set of targets and options, every history of runs, edits, option changes, failures and kills", "why_tests_cant": "The file is only rewritten when some target was built in this run, so whether it is right depends on the whole history of runs and on what the state files of all targets say; tests run Generate once.", "anchors": ["buildcc/plugins/src/clang_compile_commands.cpp: Generate", "buildcc/lib/target/src/target/tasks.cpp: EndTask", "buildcc/lib/target/src/api/target_getter.cpp: IsBuilt, GetCompileCommand", "example/hybrid/single/build.cpp: main"]}
{"id": "C114", "title": "A static library consists of the object files of its sources", "statement": "After a successful build of a gcc static library target, the library on disk contains one member for the current object file of every source of the target, also when sources have the same file name, and nothing else, whatever was built, killed or failed before, as long as no source was ever removed from the target and nobody else deletes or writes it. After a source was removed its object file stays in the library.", "quantifier": "every static library target, every history of runs, edits, added sources, failures and kills", "why_tests_cant": "The archiver updates the existing file and nothing deletes it, so its contents depend on every earlier build; tests look at the archive after one build at most.", "anchors": ["buildcc/targets/include/targets/target_gcc.h: kGccStaticLibLinkCommand", "buildcc/lib/target/src/target/friend/link_target.cpp: BuildLink", "buildcc/lib/target/src/target/friend/compile_object.cpp: GetCompiledSources, ConstructObjectPath"]}
{"id": "C115", "title": "A shared library copied beside the executable that uses it is the library that was built", "statement": "A build program that, after the run, copies a shared library beside the executable whenever the executable was built in this process, has there the library that is on disk, from the moment the copying returns until the process ends, whatever was edited, built, killed or failed in this and all earlier runs, as long as it removes the old copy first or never builds again, the executable uses the library as a library file, every process that builds the executable goes on to copy, and nobody else touches the copy. If the program does not remove the old copy it throws every time it should replace it; after that, and whenever one of the other conditions fails, a later run that succeeds leaves an old copy or none.", "quantifier": "every program of this form, every project with an executable and a library, every history of runs, edits, failures and kills", "why_tests_cant": "The copy is made only in processes that build the executable, so whether it is right depends on what every earlier process did after its build; tests run one process from a clean directory.", "anchors": ["example/hybrid/generic/build.cpp: post_build_cb", "example/gcc/DynamicLib/build.cpp: main", "example/mingw/DynamicLib/build.cpp: main", "example/msvc/DynamicLib/build.cpp: main", "buildcc/lib/target/src/api/target_getter.cpp: IsBuilt"]}
{"id": "C116", "title": "A run of a whole program comes to an end, and succeeds if nothing goes wrong in it", "statement": "While Reg::Run executes the registered builders, in every reachable situation (after any earlier runs, edits, kills and failures, and with any interleaving so far) some builder can go on or the execution is over: nothing deadlocks. The execution is over after at most two steps for each registered builder and, for each target, as many steps as it has source files and six, besides the writes of generators. If in the run every command and every write of a state file succeeds, no generator fails, every tracked file that no registered target makes exists when its target starts, no command is empty and all strings are UTF-8, then the build succeeds, whatever failed before.", "quantifier": "every program with targets and generators whose dependencies cover the files they share, every history, number of workers and interleaving", "why_tests_cant": "Tests execute a few small graphs once; that no interleaving of the taskflows of several targets can get stuck, and that no earlier failed or killed run can make a later good one fail, are statements about all of them.", "anchors": ["buildcc/lib/args/src/register.cpp: Reg::Run", "buildcc/lib/args/src/tasks.cpp: BuildTask, RunBuild", "buildcc/lib/target/src/target/tasks.cpp: PchTask, ObjectTask, TargetTask, EndTask", "buildcc/lib/env/src/task_state.cpp: set_task_state"]}
{"id": "C117", "title": "A run of a custom generator comes to an end, and succeeds if nothing goes wrong in it", "statement": "After Build(), the generate task can always go on until it is over, whatever happened in this or in earlier processes, and it is over after at most two steps for each id and two more. If every callback succeeds, the state file can be written, all inputs exist and stay, ids and paths are UTF-8, and every blob handler accepts its own data and the blob stored for its id, the run succeeds, whatever failed before. Conversely, after a successful run all inputs of all ids exist, also of ids whose callback was not invoked, and a run that invokes a callback fails if some id or path is not UTF-8.", "quantifier": "every generator, every set of ids, every history of runs, edits, failures and kills, every order of the ids", "why_tests_cant": "Tests run a few generators once or twice; that no order of subtasks gets stuck and that no earlier failure can make a later good run fail are statements about all histories.", "anchors": ["buildcc/lib/target/src/custom_generator/custom_generator.cpp: GenerateTask, TaskFunctor, ComputeBuild", "buildcc/lib/target/include/target/custom_generator.h: UserIdInfo::ConvertToInternal", "buildcc/lib/target/include/target/custom_generator/custom_blob_handler.h: CheckChanged, GetSerializedData"]}
{"id": "C118", "title": "A run of a program with targets and generators comes to an end, and succeeds if nothing goes wrong in it", "statement": "Once Reg::Run has started executing a program of targets and custom generators whose registered dependencies cover the files they share, some builder can always go on until the executor has nothing left to do, whatever failed or was killed before and however targets, subtasks of generators and other builders are interleaved. The run is over after at most two steps for each registered builder, the number of its sources and six for each target, and two for each id and two more for each generator. If in this run commands and callbacks succeed, state files can be written and the files needed that are not made by registered targets exist when a task starts, the task state is SUCCESS throughout, also if earlier runs failed.", "quantifier": "every set of targets and generators with covering dependencies, every number of workers, every interleaving, every history of runs, edits, failures and kills", "why_tests_cant": "Tests execute a few programs with one schedule each; the absence of deadlock and of failures caused by earlier runs or by the interleaving are statements about all schedules and histories.", "anchors": ["buildcc/lib/args/src/tasks.cpp: BuildTask", "buildcc/lib/args/src/register.cpp: Run", "buildcc/lib/target/src/custom_generator/custom_generator.cpp: GenerateTask, TaskFunctor", "buildcc/lib/target/src/target/tasks.cpp", "buildcc/lib/env/src/task_state.cpp"]}
{"id": "C119", "title": "--clean repairs everything in the build directory", "statement": "A build script whose targets and generators have their outputs and state files in the build directory is started with --clean. Whatever was on disk before (deleted or replaced outputs, damaged or outdated state files), after a successful Reg::Run every registered target and generator is current, and each target was linked with the outputs of other targets that are on disk now. Targets and generators created with the project's TargetEnv and names without '/' have their files there.", "quantifier": "every content of the disk, every set of targets and generators with covering dependencies, every interleaving", "why_tests_cant": "The claim is about arbitrary damage on disk; a test damages one file in one way.", "anchors": ["buildexe/buildexe.cpp: clean_cb", "example/hybrid/simple/build.cpp: clean_cb", "buildcc/lib/args/include/args/register.h: CallbackIf, CallbackInstance::Func", "buildcc/lib/target/include/target/target.h: Target", "buildcc/lib/target/include/target/custom_generator.h: CustomGenerator"]}
{"id": "C120", "title": "--clean makes every target of the script start anew", "statement": "After --clean the program starts as if it had never been built, for all its targets and generators. (Suspected false: targets created with a TargetEnv of their own build elsewhere.)", "quantifier": "every content of the disk, every set of targets and generators, every choice of build directories", "why_tests_cant": "Tests use targets in the build directory of the project.", "anchors": ["buildexe/buildexe.cpp: clean_cb", "buildcc/lib/target/include/target/common/target_env.h: TargetEnv", "buildexe/src/build_env_setup.cpp: ConstructUserTargetWithBuildcc"]}
{"id": "C121", "title": "--clean deletes no source file", "statement": "--clean deletes the files in the build directory given on the command line and no others; in particular no source of the project. (Suspected false: nothing keeps the build directory from being the project directory or one above it.)", "quantifier": "every command line, every project", "why_tests_cant": "Tests use one build directory, with a name of its own.", "anchors": ["buildexe/buildexe.cpp: clean_cb", "buildcc/lib/args/src/register.cpp: Init", "buildcc/lib/args/src/args.cpp: RootArgs"]}
{"id": "C122", "title": "The ids of a generator are exactly what its calls describe", "statement": "After any sequence of AddPattern and AddIdInfo calls on a generator, its ids are those of the AddIdInfo calls, in order, each with its inputs and outputs expanded with the patterns known at that call; patterns added later change nothing. A call with an id already taken, or with an input or output that mentions an unknown name, is fatal.", "quantifier": "every generator, every sequence of calls with patterns of literals, doubled braces and named fields", "why_tests_cant": "The outcome depends on the whole sequence of calls; tests call each function a few times.", "anchors": ["buildcc/lib/target/src/custom_generator/custom_generator.cpp: CustomGenerator::AddIdInfo, CustomGenerator::AddPattern", "buildcc/lib/command/src/command.cpp: Command::Construct"]}
{"id": "C123", "title": "State files are read by their meaning", "statement": "A state file of a target or generator is read as exactly the value its text denotes by the grammar of JSON (RFC 8259): layout, escapes, a byte order mark and repeated members make no difference, so a file written anew by another program loads the same state; a text that is not JSON, or lacks one of the expected fields, counts as no stored state.", "quantifier": "every text", "why_tests_cant": "There are infinitely many texts of every value, and of nothing; tests try a few.", "anchors": ["buildcc/schema/src/target_serialization.cpp: TargetSerialization::Load", "buildcc/schema/src/custom_generator_serialization.cpp: CustomGeneratorSerialization::Load", "buildcc/schema/include/schema/interface/serialization_interface.h: LoadFromFile"]}
{"id": "C124", "title": "Declaring a dependency takes time linear in the graph", "statement": "Deciding whether a Dep call is accepted takes a number of steps proportional to the number of builders and dependencies registered so far.", "quantifier": "every registered graph and every Dep call on it", "why_tests_cant": "Graphs of the size used in tests are decided at once however the check is written; the growth shows only over a family of graphs.", "anchors": ["buildcc/lib/args/src/register.cpp: DepDetectCyclicDependency, Reg::Instance::Dep", "buildcc/lib/args/include/args/register.h: Reg::Call::Dep"]}
{"id": "C125", "title": "A successful build leaves what a build from scratch would make", "statement": "After a successful run of a target the precompiled header, the objects and the linked file have exactly the contents that running all its commands on the present contents of its files gives, whatever edits, configurations, failed commands and killed runs came before; so two build directories with the same files and options hold the same bytes.", "quantifier": "every history of edits with their contents, runs, failures and crashes, and every deterministic toolchain that reads only the declared files", "why_tests_cant": "Contents do not occur in the build's decisions at all, only time stamps do; whether these suffice depends on every earlier edit and run.", "anchors": ["buildcc/lib/target/src/target/compile_object.cpp: CompileObject::BuildObjectCompile, RecompileSources", "buildcc/lib/target/src/target/compile_pch.cpp: CompilePch::BuildCompile", "buildcc/lib/target/src/target/link_target.cpp: LinkTarget::BuildLink", "buildcc/schema/include/schema/path.h: PathInfo, ComputeHashForAll"]}
{"id": "C126", "title": "A whole program's output is a function of its targets and their input files", "statement": "After a successful run of a program with any number of targets that use each other's outputs, and generators, every precompiled header, object and linked file has exactly the contents its commands make of the present contents of the files, including the other targets' outputs; so two such runs over equal input files leave equal bytes, whatever the histories of their build directories, the numbers of workers and the orders in which the executor took the tasks.", "quantifier": "every two programs with the same targets and options, all their histories with contents, all schedules and numbers of workers, and every deterministic toolchain that reads only the declared files", "why_tests_cant": "The schedule, the history and the contents vary independently and no decision of the build looks at contents; a test sees one schedule of one history.", "anchors": ["buildcc/lib/args/src/register.cpp: Reg::Run", "buildcc/lib/args/src/tasks.cpp: BuildTask, Reg::Instance::RunBuild", "buildcc/lib/target/src/target/friend/compile_object.cpp: CompileObject::BuildObjectCompile", "buildcc/lib/target/src/target/friend/link_target.cpp: LinkTarget::BuildLink"]}
{"id": "C127", "title": "The generated precompiled header includes exactly the given files", "statement": "The header a target with precompiled header files generates is read by a preprocessor as including exactly those files, each once per mention and in their order, whatever characters their paths contain.", "quantifier": "every list of paths", "why_tests_cant": "Paths are arbitrary strings that pass through two formatting steps; a test fixes a few.", "anchors": ["buildcc/lib/target/src/target/friend/compile_pch.cpp: AggregateToFile, kFormat"]}
{"id": "C128", "title": "Targets can be created exactly while a project is initialised", "statement": "Whatever sequence of Project::Init and Project::Deinit came before, creating a target by any class succeeds only if an Init was not followed by a Deinit, is otherwise a fatal error, and the target gets the directories of the last Init.", "quantifier": "every sequence of calls, every kind of target, toolchain and name", "why_tests_cant": "The state is three static variables shared by the whole process; tests initialise once.", "anchors": ["buildcc/lib/env/src/env.cpp: Project::Init, Project::Deinit, Project::IsInit", "buildcc/lib/target/src/target/target.cpp: Target::Initialize"]}
{"id": "C129", "title": "The parallel tasks of a build never race for the library's own data", "statement": "While a build runs with any number of workers, no two of its tasks access the same piece of the library's own state (a target's or generator's lists, flags and records, the failure flag) at the same time with one of them writing it.", "quantifier": "every program of targets and generators with any dependencies, every number of sources and ids, every path through the code (each branch, loop count and exception) and every interleaving of single reads, writes and lock operations", "why_tests_cant": "A data race shows only in rare interleavings and then as arbitrary behaviour; no test controls the schedule.", "anchors": ["buildcc/lib/target/src/target/tasks.cpp: CompilePch::Task, CompileObject::Task, LinkTarget::Task, Target::EndTask, Target::TaskDeps", "buildcc/lib/env/src/task_state.cpp: get_task_state, set_task_state", "buildcc/schema/src/target_serialization.cpp: AddSource, UpdateStore", "buildcc/lib/target/src/custom_generator/custom_generator.cpp: TaskFunctor, GenerateTask"]}
{"id": "C130", "title": "No record of a compiled source is lost, and no schedule deadlocks", "statement": "However the compilations of a target interleave, down to single reads and writes, the list of compiled sources that is stored holds exactly the entries that were added, in the order they were added; and until every task has ended some task can always go on.", "quantifier": "every program whose dependencies are acyclic, every path through the code and every interleaving", "why_tests_cant": "Lost updates and deadlocks depend on interleavings inside single statements, which no test controls.", "anchors": ["buildcc/schema/src/target_serialization.cpp: AddSource", "buildcc/schema/include/schema/target_serialization.h: add_source_mutex", "buildcc/lib/target/src/target/tasks.cpp: CompileObject::Task", "buildcc/lib/env/src/task_state.cpp: set_task_state"]}
{"id": "C131", "title": "What a task reads does not depend on the schedule", "statement": "In two runs of a program in which every task makes the same accesses, however they interleave, each read of the library's state (other than the failure flag and the list of recorded sources, whose order may differ) sees the same write: the order in which workers happen to take tasks cannot change a decision.", "quantifier": "every program, every two interleavings of the same accesses, every read", "why_tests_cant": "The interleavings are exponentially many and a wrong one shows only in a rare run.", "anchors": ["buildcc/lib/target/src/target/tasks.cpp: Target::TaskDeps, CompileObject::Task", "buildcc/lib/target/src/custom_generator/custom_generator.cpp: GenerateTask, TaskFunctor"]}
{"id": "C132", "title": "Edits in the middle of a check or of a compilation are caught by the next run", "statement": "A check looks at one file after the other and a compiler reads one file after the other; files may be saved at any moment in between, so that an object is made from a new source and an old header, or a recorded time is older than what the compiler read. Whatever such runs left behind, the next successful run in which no tracked file is edited leaves every artifact up to date. (With a precompiled header, the headers are not edited between the PCH's check and the objects' check.)", "quantifier": "every history of runs, crashes, failures and edits with increasing time stamps; every version that each look and each read can have found", "why_tests_cant": "The windows are microseconds wide and there is one per pair of files; a test cannot place an edit in each of them.", "anchors": ["buildcc/lib/target/src/target/tasks.cpp: Target::PchTask, ObjectTask, TargetTask", "buildcc/lib/target/src/target/friend/compile_object.cpp: CompileObject::PreObjectCompile, BuildObjectCompile", "buildcc/lib/target/src/target/friend/compile_pch.cpp: CompilePch::PreCompile", "buildcc/lib/target/src/target/friend/link_target.cpp: LinkTarget::PreLink"]}
{"id": "C133", "title": "Several builds at once in one build directory", "statement": "The same build program may be started several times at once on one build directory (two terminals, an IDE and a terminal). Once one of the processes has reported success, every artifact is up to date, stays so whatever the others still do, and a build started later has nothing to execute.", "quantifier": "every number of processes, every interleaving of their steps, every moment at which a process starts or is killed, every earlier history of the build directory", "why_tests_cant": "The interleavings of several processes are unbounded and a test cannot schedule them; nothing in the code locks the directory.", "anchors": ["buildcc/lib/target/src/target/tasks.cpp: Target::PchTask, ObjectTask, TargetTask, EndTask", "buildcc/schema/include/schema/interface/serialization_interface.h: LoadFromFile, StoreToFile", "buildcc/lib/env/include/env/util.h: save_file, load_file"]}
{"id": "C134", "title": "Calling Run again in one process", "statement": "A build program may call Reg::Run more than once (a program that watches the files and builds again). Each time a run reports success and no file was edited meanwhile, every artifact is up to date; a later process is as safe as after ordinary builds; and a run after which nothing changed is followed by runs that execute nothing.", "quantifier": "every number of runs per process and of processes, every edit between and during the runs, every command result, every point at which a process is killed", "why_tests_cant": "The state carried from one run to the next inside the process and on disk has unboundedly many histories; the tests call Run once.", "anchors": ["buildcc/lib/args/src/register.cpp: Reg::Run", "buildcc/lib/args/src/tasks.cpp: Reg::Instance::RunBuild", "buildcc/lib/target/src/target/tasks.cpp: CompilePch::Task, CompileObject::Task, LinkTarget::Task, Target::EndTask", "buildcc/schema/src/target_serialization.cpp: UpdateStore, AddSource", "buildcc/lib/target/include/target/interface/builder_interface.h: dirty_"]}
{"id": "C135", "title": "Calling Run again in one process with a generator", "statement": "A build program with a custom generator may call Reg::Run more than once. Each time a run reports success and no file was edited meanwhile, the outputs of every id are up to date with its inputs and blob, in this process and in later ones; and a run after which nothing changed is followed by runs that invoke no callback.", "quantifier": "every number of runs per process and of processes, every set of ids, every edit between and during the runs, every callback result, every point at which a process is killed", "why_tests_cant": "The loaded state is that of the beginning of the process and the written one that of the last run; their combinations over unboundedly many runs are not enumerable, and the tests build each object once.", "anchors": ["buildcc/lib/target/src/custom_generator/custom_generator.cpp: CustomGenerator::Build, GenerateTask, BuildGenerate", "buildcc/lib/args/src/register.cpp: Reg::Run", "buildcc/schema/src/custom_generator_serialization.cpp: UpdateStore, StoreToFile"]}
{"id": "C136", "title": "Calls on a target after its Build()", "statement": "A call that describes a target (AddSource, AddHeader, AddCppCompileFlag, AddLibDep, ...) and is made after Build() and before the run is either refused or counts as if it had been made before Build(): a run that reports success leaves every artifact built as described.", "quantifier": "every sequence of calls before Build() and after it, every earlier history of the build directory, every schedule and result of the commands of the run", "why_tests_cant": "The commands were fixed by Build() while the checks and the state file look at the description at the time of the run; which combinations of calls and histories hide the difference is a statement about all of them, and the tests make all calls before Build().", "anchors": ["buildcc/lib/target/src/target/build.cpp: Target::Build", "buildcc/lib/target/src/target/tasks.cpp: CompileObjectTask, EndTask", "buildcc/lib/target/src/target/friend/compile_object.cpp: CompileObject::GetObjectData, CompileSources, RecompileSources", "buildcc/lib/target/include/target/api/source_api.h: AddSource"]}
{"id": "C137", "title": "Calls on a generator after its Build()", "statement": "A call that configures a CustomGenerator, FileGenerator or TemplateGenerator (AddPattern, AddIdInfo, AddInput, AddOutput, AddCommand, AddTemplate) and is made after Build() and before the run is either refused or counts as if it had been made before Build(): a run that reports success has generated what the calls ask for.", "quantifier": "every class of generator, every sequence of calls before and after Build(), every earlier history of the build directory, every order and result of the callbacks", "why_tests_cant": "Which members are read by Build() and which by the task decides whether a late call counts; that it counts (or has no effect at all) for every sequence of calls and every history is not enumerable, and the tests make all calls before Build().", "anchors": ["buildcc/lib/target/src/custom_generator/custom_generator.cpp: CustomGenerator::AddIdInfo, AddPattern, Build, GenerateTask", "buildcc/lib/target/src/generator/file_generator.cpp: FileGenerator::AddInput, AddOutput, AddCommand, Build", "buildcc/lib/target/src/generator/template_generator.cpp: TemplateGenerator::AddTemplate, Build"]}
{"id": "C138", "title": "Calling Build() more than once on one target does not change what the run does", "statement": "A program that calls Build() on the same target several times before Run() builds what it would have built with one call: each command is executed at most once, after a reported success every output is current and the next run has nothing to execute, after a failure the next run repeats what is missing, and when everything was current nothing is executed at all.", "quantifier": "every number of calls, every interleaving of the resulting task chains, every configuration and earlier history of the build directory, every result of the commands", "why_tests_cant": "Each call adds another chain of tasks that share one target object; whether the outputs are right then depends on the interleaving, and the tests call Build() once per target.", "anchors": ["buildcc/lib/target/src/target/build.cpp: Target::Build", "buildcc/lib/target/src/target/tasks.cpp: CompilePch::Task, CompileObject::Task, LinkTarget::Task, Target::EndTask", "buildcc/lib/target/include/target/interface/builder_interface.h: BuilderInterface"]}
{"id": "C139", "title": "Calling Build() more than once on one generator does not change what the run does", "statement": "A program that calls Build() on the same CustomGenerator several times before Run() gets what it would have got with one call: each callback is invoked at most once, after a reported success every id is current and the next run invokes nothing, after a failure the next run repeats what is missing, and when everything was current no callback is invoked at all; the run comes to its end.", "quantifier": "every number of calls, every interleaving of the resulting generate tasks, every set of ids and earlier history of the build directory, every result of the callbacks", "why_tests_cant": "Each call adds another generate task that shares one generator object; what is stored then depends on the interleaving, and the tests call Build() once per generator.", "anchors": ["buildcc/lib/target/src/custom_generator/custom_generator.cpp: CustomGenerator::Build, CustomGenerator::GenerateTask", "buildcc/lib/target/include/target/interface/builder_interface.h: BuilderInterface"]}
