{
 "claims": [
  {
   "property": "C01",
   "status": "proved",
   "theorems": [
    "C01_objects_current"
   ],
   "note": "Over the Quiet regime of Spec_Target.v (edits while no run has looked at the files yet, arbitrary times; no kill between executing a command and writing the state file; see C07 for the rest). Object paths of the sources distinct; PCH not switched off; templates do not mention options the stage does not track (C11-C13 refute the unrestricted claims)."
  },
  {
   "property": "C02",
   "status": "proved",
   "theorems": [
    "C02_target_current"
   ],
   "note": "The order of the objects on the link line is the iteration order of an unordered_map and may be any permutation."
  },
  {
   "property": "C03",
   "status": "proved",
   "theorems": [
    "C03_pch_current"
   ],
   "note": ""
  },
  {
   "property": "C04",
   "status": "proved",
   "theorems": [
    "C04_nothing_executed",
    "C04_next_run_succeeds",
    "C04_duplicate_source_refuted"
   ],
   "note": "The last theorem records the finding mentioned in the property: with a source added twice every run recompiles it."
  },
  {
   "property": "C05",
   "status": "proved",
   "theorems": [
    "C05_compiled_exactly"
   ],
   "note": ""
  },
  {
   "property": "C06",
   "status": "proved",
   "theorems": [
    "C06_failed_source_recompiled",
    "C06_failed_pch_recompiled",
    "C06_failed_link_relinked"
   ],
   "note": ""
  },
  {
   "property": "C07",
   "status": "proved",
   "theorems": [
    "C07_crash_safe"
   ],
   "note": "Forward regime: kills at any moment, including while writing the state file, failed and silently truncated writes."
  },
  {
   "property": "C08",
   "status": "partial",
   "theorems": [
    "C08_config_change_refuted",
    "C07_crash_safe",
    "C08_changed_options_partial"
   ],
   "note": "False as stated: concrete history (options changed in an interrupted run and then changed back). Holds if the interrupted configuration is used again (C07), and from any state of the disk at all if the options of the run differ from those recorded (C08_changed_options_partial)."
  },
  {
   "property": "C09",
   "status": "partial",
   "theorems": [
    "C09_edits_not_lost_partial",
    "C09_header_in_pch_window_refuted",
    "C07_crash_safe"
   ],
   "note": "False for a header edited between the PCH stage and the object stage of a target with a PCH; proved for every other edit."
  },
  {
   "property": "C10",
   "status": "proved",
   "theorems": [
    "C10_schedule_independent",
    "C10_run_schedule_independent"
   ],
   "note": ""
  },
  {
   "property": "C100",
   "status": "proved",
   "theorems": [
    "C100_failure_stops_generators"
   ],
   "note": ""
  },
  {
   "property": "C101",
   "status": "partial",
   "theorems": [
    "C101_tracked_files_partial",
    "C101_options",
    "C101_generator_headers_refuted",
    "C101_stale_after_edit_refuted"
   ],
   "note": "The directories that are tracked are stated exactly. The full statement is false: buildcc_cb never globs lib/target/include/target/custom_generator, so its headers are tracked by no target and an edit of one rebuilds nothing."
  },
  {
   "property": "C102",
   "status": "proved",
   "theorems": [
    "C102_bootstrap_current",
    "C102_callbacks"
   ],
   "note": ""
  },
  {
   "property": "C103",
   "status": "proved",
   "theorems": [
    "C103_bootstrap_idle"
   ],
   "note": "State files that were silently cut short when written are excluded."
  },
  {
   "property": "C104",
   "status": "proved",
   "theorems": [
    "C104_only_what_was_told"
   ],
   "note": ""
  },
  {
   "property": "C105",
   "status": "proved",
   "theorems": [
    "C105_covered_script_current",
    "C105_covered_script_idle",
    "C105_call_by_call"
   ],
   "note": "The idle part excludes state files that were silently cut short when written. That the rule is needed is C92."
  },
  {
   "property": "C106",
   "status": "proved",
   "theorems": [
    "C106_relative_and_back"
   ],
   "note": "For a directory above, the way back ends in a slash (C106_case)."
  },
  {
   "property": "C107",
   "status": "proved",
   "theorems": [
    "C107_from_generated_sources",
    "C107_current",
    "C107_idle"
   ],
   "note": "The idle part excludes state files that were silently cut short when written and commands of 4 GB."
  },
  {
   "property": "C108",
   "status": "partial",
   "theorems": [
    "C108_script_edits_missed_refuted"
   ],
   "note": "Does not hold: the generators declare no inputs, so edits of python/gen.py are never noticed."
  },
  {
   "property": "C109",
   "status": "proved",
   "theorems": [
    "C109_after_the_build",
    "C109_at_most_once",
    "C109_returns",
    "C109_ends",
    "C109_goes_on",
    "C109_workers"
   ],
   "note": "Stated for every registration program, order of tests_ and schedule of the workers."
  },
  {
   "property": "C11",
   "status": "partial",
   "theorems": [
    "C11_pch_removed_refuted",
    "C01_objects_current"
   ],
   "note": "False: concrete history. C01 holds as long as the PCH stays in use."
  },
  {
   "property": "C110",
   "status": "partial",
   "theorems": [
    "C110_seen",
    "C110_text_partial",
    "C110_pieces_refuted",
    "C110_hidden_refuted"
   ],
   "note": "Does not hold: kept output that arrives in several pieces is printed with blanks between them, and log level Warning hides it. C110_seen says exactly what is shown."
  },
  {
   "property": "C111",
   "status": "partial",
   "theorems": [
    "C111_seen",
    "C111_not_redirected_partial",
    "C111_failures_silent_refuted"
   ],
   "note": "Does not hold: the runner ends the program before it prints the kept output. Holds for DefaultBehaviour."
  },
  {
   "property": "C112",
   "status": "partial",
   "theorems": [
    "C112_own_vector_partial",
    "C112_other_vectors",
    "C112_shared_vector_refuted"
   ],
   "note": "Does not hold if two streams are given the same vector (a data race in the code); holds otherwise."
  },
  {
   "property": "C113",
   "status": "partial",
   "theorems": [
    "C113_database_current_partial",
    "C113_every_source_partial",
    "C113_built_targets",
    "C113_ended_before_generate_refuted",
    "C113_deleted_refuted",
    "C113_left_out_refuted",
    "C113_no_pch_any_more_refuted",
    "C113_cut_short_refuted"
   ],
   "note": "Generate rewrites the file only if an added target was built in the same process. Proved for all histories in which a process that built something goes on to Generate (or leaves some added target unfinished); each missing hypothesis has a refutation."
  },
  {
   "property": "C114",
   "status": "partial",
   "theorems": [
    "C114_library_exact_partial",
    "C114_library_exact_after_crashes_partial",
    "C114_linked_library",
    "C114_only_links",
    "C114_removed_source_refuted"
   ],
   "note": "ar is modelled after its manual (external program). Holds if no source was ever removed from the target; a removed source stays in the library (refuted), because the link command updates the existing file."
  },
  {
   "property": "C115",
   "status": "partial",
   "theorems": [
    "C115_copy_current_partial",
    "C115_never_replaced",
    "C115_not_removed_refuted",
    "C115_ended_early_refuted",
    "C115_copy_failed_refuted",
    "C115_deleted_refuted",
    "C115_by_name_refuted"
   ],
   "note": "The example programs copy the library only if the executable was built in the same process. Proved for all histories in which a process that built the executable goes on to copy with success (or leaves the executable unfinished); each missing hypothesis has a refutation, also that the gcc and msvc examples, which do not remove the old copy, throw on every later build."
  },
  {
   "property": "C116",
   "status": "proved",
   "theorems": [
    "C116_never_stuck",
    "C116_bounded",
    "C116_completes",
    "C116_succeeds"
   ],
   "note": "For programs whose registered dependencies cover the files that builders share (as in C92)."
  },
  {
   "property": "C117",
   "status": "proved",
   "theorems": [
    "C117_never_stuck",
    "C117_bounded",
    "C117_completes",
    "C117_succeeds",
    "C117_inputs_needed",
    "C117_utf8_needed"
   ],
   "note": ""
  },
  {
   "property": "C118",
   "status": "proved",
   "theorems": [
    "C118_never_stuck",
    "C118_bounded",
    "C118_completes",
    "C118_succeeds"
   ],
   "note": "For programs whose registered dependencies cover the files that builders share (as in C98); never stuck and completion where written files get later times (the regime Forward)."
  },
  {
   "property": "C119",
   "status": "proved",
   "theorems": [
    "C119_clean_recovers",
    "C119_in_build_dir",
    "C119_state_files",
    "C119_without_refuted"
   ],
   "note": "The conclusion is that of C98; C119_without_refuted shows that it fails without --clean."
  },
  {
   "property": "C12",
   "status": "partial",
   "theorems": [
    "C12_pch_language_refuted",
    "C03_pch_current"
   ],
   "note": "False: concrete history. C03 holds as long as the language stays the same."
  },
  {
   "property": "C120",
   "status": "partial",
   "theorems": [
    "C120_elsewhere_refuted",
    "C120_as_new_partial"
   ],
   "note": "False for targets with a build directory of their own; proved for targets and generators in the build directory of the project."
  },
  {
   "property": "C121",
   "status": "partial",
   "theorems": [
    "C121_sources_refuted",
    "C121_exact",
    "C121_sources_partial"
   ],
   "note": "False if the build directory given contains the project; proved that exactly the files in the build directory are deleted, and that sources stay if the build directory is given by one name."
  },
  {
   "property": "C122",
   "status": "proved",
   "theorems": [
    "C122_ids_exact",
    "C122_ids_total"
   ],
   "note": "The specification Spec_GenIds.described is a relation; C122_ids_total shows that it covers every sequence of calls."
  },
  {
   "property": "C123",
   "status": "proved",
   "theorems": [
    "C123_reads_exactly",
    "C123_rewritten_target",
    "C123_rewritten_generator",
    "C123_accepted_iff"
   ],
   "note": "The parser is that of nlohmann/json, a dependency that is not in the repository: Model_Json models its documented behaviour."
  },
  {
   "property": "C124",
   "status": "partial",
   "theorems": [
    "C124_linear_refuted",
    "C124_cost_exact",
    "C124_linear_partial"
   ],
   "note": "False: the search keeps no record of visited builders, so it takes one round for every chain of dependents (C124_cost_exact), which can be 2^n for 7 n + 2 builders and dependencies (C124_linear_refuted). Linear while no builder is a dependency of two others."
  },
  {
   "property": "C125",
   "status": "partial",
   "theorems": [
    "C125_same_time_refuted",
    "C125_made_from_partial",
    "C125_forward_partial",
    "C125_history_independent_partial"
   ],
   "note": "False when a file is replaced by another with the same time stamp (C125_same_time_refuted). Holds when times tell contents apart, in particular when every edit gives a later time. Junk left by failed commands is represented by provenance records with the empty command, which is never run."
  },
  {
   "property": "C126",
   "status": "partial",
   "theorems": [
    "C126_same_time_refuted",
    "C126_whole_program_partial",
    "C126_forward_partial",
    "C126_function_of_inputs_partial"
   ],
   "note": "False when a source is replaced by another with the same time stamp (C126_same_time_refuted; also without the dependencies of C92). Holds when times tell apart what users and generators write; nothing is assumed about the contents of what links write. The files generators write count as inputs."
  },
  {
   "property": "C127",
   "status": "partial",
   "theorems": [
    "C127_quotation_refuted",
    "C127_header_partial",
    "C127_guarded_partial",
    "C127_built_partial"
   ],
   "note": "False for a path with a quotation mark. Holds for all paths without quotation marks and line feeds."
  },
  {
   "property": "C128",
   "status": "proved",
   "theorems": [
    "C128_created_after_init",
    "C128_directories"
   ],
   "note": ""
  },
  {
   "property": "C129",
   "status": "partial",
   "theorems": [
    "C129_failure_flag_refuted",
    "C129_everything_else_partial"
   ],
   "note": "False for the failure flag: get_task_state reads it without the lock under which set_task_state writes it (two failing compilations suffice). Holds for everything else. Data-dependent branches are over-approximated, so the positive part covers every path."
  },
  {
   "property": "C13",
   "status": "partial",
   "theorems": [
    "C13_toolchain_change_refuted",
    "C13_untracked_option_refuted",
    "C01_objects_current"
   ],
   "note": "False: concrete histories for another compiler, another template, and a template using an untracked option. C01 holds for a fixed toolchain and templates."
  },
  {
   "property": "C130",
   "status": "proved",
   "theorems": [
    "C130_no_record_lost",
    "C130_never_stuck"
   ],
   "note": ""
  },
  {
   "property": "C131",
   "status": "proved",
   "theorems": [
    "C131_reads_independent_of_schedule"
   ],
   "note": "The failure flag and the list of recorded sources are the two exceptions named in the statement; for the list see C130 and C10."
  },
  {
   "property": "C132",
   "status": "proved",
   "theorems": [
    "C132_edits_half_way",
    "C132_one_instant"
   ],
   "note": "Edits give later times (the regime Forward of Spec_Target). The restriction on headers with a PCH is the window of C09, in which it is false."
  },
  {
   "property": "C133",
   "status": "partial",
   "theorems": [
    "C133_different_options_refuted",
    "C133_failed_command_refuted",
    "C133_same_build_partial"
   ],
   "note": "False: nothing locks the build directory. With different options at the same time, or when a command of one process fails, a later build finds nothing to do although an object is not current. Proved for any number of processes with the same options on files that exist and do not change, when all commands succeed (processes may be killed between steps). Missing: reads and writes of the state file that overlap."
  },
  {
   "property": "C134",
   "status": "partial",
   "theorems": [
    "C134_again_is_fresh_build",
    "C134_again_is_new_process",
    "C134_repeated_run_current_partial",
    "C134_failed_rerun_refuted",
    "C134_killed_rerun_refuted",
    "C134_put_back_refuted",
    "C134_next_process_partial",
    "C134_idle_rerun_refuted",
    "C134_next_process_rebuilds_refuted"
   ],
   "note": "The repeated runs themselves are safe: after a run that built something a repeated run is a complete build (it executes everything again, so the third part of the statement is false), after a run that built nothing it is like a new process. Later processes are not safe: the state file of the earlier run is still there while the repeated run rewrites everything, so a failed or killed repeated run, or a source put back with its old time, leads to a success with stale artifacts. Proved safe when times only increase and every repeated run comes to a successful end."
  },
  {
   "property": "C135",
   "status": "partial",
   "theorems": [
    "C135_generator_current_partial",
    "C135_put_back_refuted",
    "C135_killed_rerun_refuted",
    "C135_idle_rerun_refuted"
   ],
   "note": "False as stated: a repeated run compares with the state file as it was when the process began. An input put back with its old time between two runs is not noticed, a repeated run invokes callbacks again although nothing changed, and if it is killed the next process finds the state file of the earlier run and does nothing. Proved when times only increase and every repeated run that was dirty writes its state file (it may fail, first runs may be killed anywhere)."
  },
  {
   "property": "C136",
   "status": "partial",
   "theorems": [
    "C136_late_same_course",
    "C136_late_commands",
    "C136_late_files_count_partial",
    "C136_late_option_lost_refuted",
    "C136_late_flag_refuted",
    "C136_late_source_fails",
    "C136_late_run_ends",
    "C136_late_source_refuted"
   ],
   "note": "False as stated: no call looks at whether Build() was called. The commands are those of the calls before Build(), the decisions and the state file those of all calls. Headers, dependencies and further PCH files therefore count (proved for every history without edits during a run). An option given late reaches no command, and after that run a program that gives it before Build() finds nothing to do (universal theorem and a concrete case). A source given late makes the run fail (and come to its end) if it has to be compiled; if an earlier run has compiled it, the run succeeds and links without it."
  },
  {
   "property": "C137",
   "status": "partial",
   "theorems": [
    "C137_custom_late_counts",
    "C137_custom_late_current_partial",
    "C137_refused_ends",
    "C137_refused_build",
    "C137_derived_late_lost_refuted",
    "C137_derived_late_pattern",
    "C137_late_command_refuted",
    "C137_late_template_refuted",
    "C137_lost_command_noticed",
    "C137_build_twice_refused",
    "C137_file_calls",
    "C137_template_calls",
    "C137_custom_calls"
   ],
   "note": "Holds for CustomGenerator: the process is exactly the one with the calls before Build(), and refused calls end it. False for the two derived classes: inputs, outputs, commands and templates given late are accepted and change nothing (universal theorem, concrete cases); a late pattern reaches only the callbacks. Unlike with a target the loss is not recorded, so a later process that gives the command before Build() runs its callback. A second Build() of the derived classes is refused."
  },
  {
   "property": "C138",
   "status": "partial",
   "theorems": [
    "C138_once_refuted",
    "C138_failed_refuted",
    "C138_success_current_partial",
    "C138_nothing_executed",
    "C138_then_nothing_executed",
    "C138_processes_current_partial",
    "C138_comes_to_end",
    "C138_once_per_call"
   ],
   "note": "False: with two calls every command of a first build is executed twice, and when a command of the second chain fails after the first chain stored the state, the next process finds nothing to do although an object is not current. Proved for any number of calls and any interleaving when all commands succeed on files that exist and do not change: success means current and nothing left to do; after a successful build nothing is executed, also when that build itself had several calls; one process after the other, each with any number of calls and with edits in between, each success leaves everything current; whatever the commands do the run comes to its end and no command is executed more often than Build() was called. Missing: overlapping accesses of two chains within one step (a data race in the code)."
  },
  {
   "property": "C139",
   "status": "partial",
   "theorems": [
    "C139_once_refuted",
    "C139_failed_refuted",
    "C139_success_current_partial",
    "C139_nothing_invoked",
    "C139_then_nothing_invoked",
    "C139_killed_current_partial",
    "C139_processes_current_partial",
    "C139_comes_to_end",
    "C139_once_per_call"
   ],
   "note": "False: with two calls every callback of a first build is invoked twice, and when a callback of the second generate task fails after the first stored the state and the second cannot store its own, the next process finds nothing to do although an id is not current. Proved for any number of calls and any interleaving, with callbacks that leave the inputs alone: success means every id is current and the next process invokes nothing; after a successful run nothing is invoked or stored; the run comes to its end; no callback is invoked more often than Build() was called; after any number of processes, each killed at a moment at which nothing had failed or come to its end, the next successful process leaves every id current. Simplified: the steps of two generate tasks are not interleaved within one step of Model_Gen."
  },
  {
   "property": "C14",
   "status": "partial",
   "theorems": [
    "C14_deleted_output_refuted",
    "C53_clean_build",
    "C08_changed_options_partial"
   ],
   "note": "False: concrete histories for all three kinds of outputs. Holds if the state file is deleted too (C53) or a recorded option changes too (C08_changed_options_partial)."
  },
  {
   "property": "C15",
   "status": "proved",
   "theorems": [
    "C15_failure_stops",
    "C15_link_has_all_objects"
   ],
   "note": ""
  },
  {
   "property": "C16",
   "status": "proved",
   "theorems": [
    "C16_target_value_roundtrip"
   ],
   "note": ""
  },
  {
   "property": "C17",
   "status": "proved",
   "theorems": [
    "C17_generator_value_roundtrip"
   ],
   "note": ""
  },
  {
   "property": "C18",
   "status": "proved",
   "theorems": [
    "C18_store_iff_utf8",
    "C18_target_text_roundtrip",
    "C18_generator_store_iff_utf8",
    "C18_generator_text_roundtrip"
   ],
   "note": "nlohmann dump(4)/parse modelled byte by byte; text that is not valid UTF-8 makes Store throw (first theorem)."
  },
  {
   "property": "C19",
   "status": "proved",
   "theorems": [
    "C19_truncated_target_rejected",
    "C19_truncated_generator_rejected"
   ],
   "note": "The consequence for the next run (everything is built from scratch) is part of the target model: a missing store."
  },
  {
   "property": "C20",
   "status": "proved",
   "theorems": [
    "C20_accepted_iff_all_fields",
    "C20_only_known_keys",
    "C20_load_atomic"
   ],
   "note": "The field \"type\" accepts any shape (unknown values become the undefined type), as the field table in the specification says."
  },
  {
   "property": "C21",
   "status": "proved",
   "theorems": [
    "C21_normalisation_idempotent",
    "C21_normalisation_canonical",
    "C21_normalisation_keeps_location",
    "C21_same_location_same_text"
   ],
   "note": "POSIX paths, libstdc++ lexically_normal; location semantics assume no symbolic links."
  },
  {
   "property": "C22",
   "status": "proved",
   "theorems": [
    "C22_object_path_mirrors",
    "C22_object_path_injective"
   ],
   "note": ""
  },
  {
   "property": "C23",
   "status": "partial",
   "theorems": [
    "C23_out_of_root_refuted",
    "C23_in_root_dotdot_name_refuted",
    "C23_collision_characterised",
    "C23_no_underscore_partial"
   ],
   "note": "False as stated: /p/a.b/x.cpp and /p/a_b/x.cpp share an object path. Exact collision condition proved, and injectivity when no directory name contains an underscore."
  },
  {
   "property": "C24",
   "status": "partial",
   "theorems": [
    "C24_unquoted_refuted",
    "C24_quoted_partial"
   ],
   "note": "False as stated: sources, include and library directories and libraries are not quoted. Proved for compilers, objects, PCH and target."
  },
  {
   "property": "C25",
   "status": "partial",
   "theorems": [
    "C25_pch_source_refuted",
    "C25_pch_source_no_space_partial"
   ],
   "note": "False when the build directory contains a space: the quoted display string is used as a file name. Proved to be the only case."
  },
  {
   "property": "C26",
   "status": "proved",
   "theorems": [
    "C26_construct_expands",
    "C26_construct_ok_iff",
    "C26_only_mentioned_fields",
    "C26_order_independent"
   ],
   "note": "fmt patterns with format specifications, positional fields or nested fields are outside the modelled fragment and are reported as a separate outcome of the scanner."
  },
  {
   "property": "C27",
   "status": "proved",
   "theorems": [
    "C27_first_default_wins",
    "C27_construct_uses_first",
    "C27_defaults_nodup"
   ],
   "note": ""
  },
  {
   "property": "C28",
   "status": "partial",
   "theorems": [
    "C28_copy_exact_partial",
    "C28_repeated_move_refuted",
    "C28_entries_determine"
   ],
   "note": "False as stated for the rvalue overload with a repeated option (it ends up empty); proved otherwise. libstdc++ moved-from state."
  },
  {
   "property": "C29",
   "status": "partial",
   "theorems": [
    "C29_insert_exact_partial",
    "C29_repeated_move_refuted"
   ],
   "note": "False as stated for the rvalue overload with a repeated flags option (empty strings are appended); proved otherwise."
  },
  {
   "property": "C30",
   "status": "proved",
   "theorems": [
    "C30_classes",
    "C30_valid_source",
    "C30_valid_header",
    "C30_expects"
   ],
   "note": "Paths whose last component is not . or .."
  },
  {
   "property": "C31",
   "status": "proved",
   "theorems": [
    "C31_find_exact",
    "C31_verify_exact"
   ],
   "note": "POSIX; errors while an open directory is being read are not modelled."
  },
  {
   "property": "C32",
   "status": "proved",
   "theorems": [
    "C32_lookup_exact",
    "C32_alive_while_held"
   ],
   "note": "Types are their typeid names."
  },
  {
   "property": "C33",
   "status": "partial",
   "theorems": [
    "C33_duplicate_add_leaks_refuted",
    "C33_destroyed_at_most_once",
    "C33_clear_destroys_all_partial"
   ],
   "note": "False as stated: the object of a second Add with the same identifier is never destroyed. Proved for distinct identifiers; at-most-once always."
  },
  {
   "property": "C34",
   "status": "proved",
   "theorems": [
    "C34_acyclic",
    "C34_graph_well_formed"
   ],
   "note": "Apart from self-dependencies, see C36."
  },
  {
   "property": "C35",
   "status": "proved",
   "theorems": [
    "C35_dep_decides"
   ],
   "note": ""
  },
  {
   "property": "C36",
   "status": "partial",
   "theorems": [
    "C36_self_dependency_refuted",
    "C36_self_dependency_hangs_refuted",
    "C36_self_dependency_not_executed_refuted"
   ],
   "note": "False: Dep(t, t) is accepted."
  },
  {
   "property": "C37",
   "status": "proved",
   "theorems": [
    "C37_dependencies_first",
    "C37_executed_once",
    "C37_everything_executed",
    "C37_execution_completes",
    "C37_execution_bounded"
   ],
   "note": "Completion assumes no self-dependency (C36)."
  },
  {
   "property": "C38",
   "status": "proved",
   "theorems": [
    "C38_registered_exactly",
    "C38_toolchain_off",
    "C38_test_decides",
    "C38_unregistered_fatal",
    "C38_duplicate_build_fatal",
    "C38_uninitialised_fatal"
   ],
   "note": ""
  },
  {
   "property": "C39",
   "status": "proved",
   "theorems": [
    "C39_generator_current"
   ],
   "note": "Schedules in which no file is written after an id that reads it has looked at it (C40)."
  },
  {
   "property": "C40",
   "status": "partial",
   "theorems": [
    "C40_chained_refuted",
    "C40_producers_first_partial"
   ],
   "note": "False as stated: the reader can run first, and the written times are those read after all callbacks. Proved for producer-first schedules."
  },
  {
   "property": "C41",
   "status": "proved",
   "theorems": [
    "C41_nothing_to_do",
    "C41_next_run_succeeds"
   ],
   "note": ""
  },
  {
   "property": "C42",
   "status": "proved",
   "theorems": [
    "C42_exactly_outdated",
    "C42_removed_forgotten"
   ],
   "note": ""
  },
  {
   "property": "C43",
   "status": "proved",
   "theorems": [
    "C43_recorded_means_generated",
    "C43_failed_runs_again",
    "C43_still_outdated"
   ],
   "note": ""
  },
  {
   "property": "C44",
   "status": "partial",
   "theorems": [
    "C44_pattern_value_refuted",
    "C44_same_values_partial",
    "C44_templates_in_call_order"
   ],
   "note": "False as stated: pattern values are not recorded. Proved if they are the same in all runs."
  },
  {
   "property": "C45",
   "status": "proved",
   "theorems": [
    "C45_commands_in_call_order",
    "C45_callback_in_order",
    "C45_success_means_all",
    "C45_present_commands_executed",
    "C45_changed_commands_run",
    "C45_every_program",
    "C45_inputs_and_outputs"
   ],
   "note": "Commands that MessagePack can represent; empty commands are fatal in the code."
  },
  {
   "property": "C46",
   "status": "partial",
   "theorems": [
    "C46_removed_refuted",
    "C46_removed_never_noticed",
    "C46_added_refuted",
    "C46_rejected_blob_fails"
   ],
   "note": "False in both directions."
  },
  {
   "property": "C47",
   "status": "proved",
   "theorems": [
    "C47_split_inverts_join",
    "C47_split_join_trailing",
    "C47_split_no_delimiter",
    "C47_split_loses_nothing",
    "C47_trim_exact",
    "C47_trim_idempotent"
   ],
   "note": ""
  },
  {
   "property": "C48",
   "status": "partial",
   "theorems": [
    "C48_valid_json_partial",
    "C48_blank_refuted",
    "C48_quote_refuted",
    "C48_backslash_refuted",
    "C48_written_iff_built"
   ],
   "note": "False as stated: values are not escaped. Proved when nothing needs escaping and the build directory has no blank."
  },
  {
   "property": "C49",
   "status": "proved",
   "theorems": [
    "C49_search_exact",
    "C49_found_iff",
    "C49_searches_append",
    "C49_unsupported",
    "C49_added_variables"
   ],
   "note": "regex_match is a parameter; expressions that do not compile are not modelled."
  },
  {
   "property": "C50",
   "status": "proved",
   "theorems": [
    "C50_failure_sticky",
    "C50_success_without_calls",
    "C50_no_deadlock"
   ],
   "note": "Reads and writes of the state are taken as atomic; in the source the read is outside the lock."
  },
  {
   "property": "C51",
   "status": "proved",
   "theorems": [
    "C51_never_stuck",
    "C51_run_bounded"
   ],
   "note": ""
  },
  {
   "property": "C52",
   "status": "proved",
   "theorems": [
    "C52_good_run_succeeds"
   ],
   "note": ""
  },
  {
   "property": "C53",
   "status": "proved",
   "theorems": [
    "C53_clean_build"
   ],
   "note": "Configurations whose sources have distinct object paths and templates that mention tracked options only, as in C01."
  },
  {
   "property": "C54",
   "status": "proved",
   "theorems": [
    "C54_run_reports",
    "C54_first_failing_test",
    "C54_command_text"
   ],
   "note": ""
  },
  {
   "property": "C55",
   "status": "partial",
   "theorems": [
    "C55_not_an_executable_refuted",
    "C55_dotted_name_refuted",
    "C55_complete_found_partial"
   ],
   "note": "False in both directions; proved that complete directories are found if no executable name has a dot."
  },
  {
   "property": "C56",
   "status": "partial",
   "theorems": [
    "C56_verify_twice_refuted"
   ],
   "note": "False: a second Verify always fails."
  },
  {
   "property": "C57",
   "status": "partial",
   "theorems": [
    "C57_deleted_output_refuted"
   ],
   "note": "False for every program and history."
  },
  {
   "property": "C58",
   "status": "partial",
   "theorems": [
    "C58_killed_refuted",
    "C58_killed_partial"
   ],
   "note": "False across programs; proved if the killed program is run again."
  },
  {
   "property": "C59",
   "status": "partial",
   "theorems": [
    "C59_template_twice_refuted"
   ],
   "note": "False: Build is fatal."
  },
  {
   "property": "C60",
   "status": "proved",
   "theorems": [
    "C60_blob_round_trip"
   ],
   "note": "Strings shorter than 2^32 bytes, fewer than 2^32 of them."
  },
  {
   "property": "C61",
   "status": "proved",
   "theorems": [
    "C61_compile_arguments",
    "C61_compile_constructed",
    "C61_pch_arguments",
    "C61_executable_arguments",
    "C61_static_arguments",
    "C61_dynamic_arguments",
    "C61_mingw_dynamic_arguments"
   ],
   "note": "Sources, directories and libraries without spaces (C24)."
  },
  {
   "property": "C62",
   "status": "partial",
   "theorems": [
    "C62_libs_ignored_refuted",
    "C62_executable_libs_partial"
   ],
   "note": "False for static and dynamic libraries; proved for executables."
  },
  {
   "property": "C63",
   "status": "proved",
   "theorems": [
    "C63_gch_beside_header",
    "C63_file_names"
   ],
   "note": ""
  },
  {
   "property": "C64",
   "status": "proved",
   "theorems": [
    "C64_options_exact",
    "C64_refused_iff",
    "C64_built_as_described"
   ],
   "note": ""
  },
  {
   "property": "C65",
   "status": "partial",
   "theorems": [
    "C65_sources_compilable_partial",
    "C65_headers_valid",
    "C65_foreign_source_refuted"
   ],
   "note": "Proved for the Add and Glob calls; false for Copy and Insert from a target with another toolchain."
  },
  {
   "property": "C66",
   "status": "partial",
   "theorems": [
    "C66_repeated_source_refuted",
    "C66_distinct_sources_partial"
   ],
   "note": "False: every successful run of such a target compiles and links. C04 needs the sources to be distinct."
  },
  {
   "property": "C67",
   "status": "proved",
   "theorems": [
    "C67_created_iff",
    "C67_created_as_asked",
    "C67_other_class_refused",
    "C67_name_taken"
   ],
   "note": ""
  },
  {
   "property": "C68",
   "status": "partial",
   "theorems": [
    "C68_config_used_refuted",
    "C68_usual_config_partial"
   ],
   "note": "False: the configuration is replaced by that of the id. Proved if it is the one of the id."
  },
  {
   "property": "C69",
   "status": "partial",
   "theorems": [
    "C69_default_tools_refuted",
    "C69_named_tools_partial"
   ],
   "note": "False: the executables are empty names and Verify is always fatal. Proved if they are named."
  },
  {
   "property": "C70",
   "status": "partial",
   "theorems": [
    "C70_output_only_refuted",
    "C70_whole_output_partial"
   ],
   "note": "False if the output arrives in several pieces; proved for one piece."
  },
  {
   "property": "C71",
   "status": "partial",
   "theorems": [
    "C71_blank_in_path_refuted",
    "C71_verify_asks_compiler_partial",
    "C71_msvc_environment_partial"
   ],
   "note": "False for directories with blanks; proved for compiler paths that are one plain shell word."
  },
  {
   "property": "C72",
   "status": "proved",
   "theorems": [
    "C72_generic_is_the_class",
    "C72_artifact"
   ],
   "note": ""
  },
  {
   "property": "C73",
   "status": "proved",
   "theorems": [
    "C73_options"
   ],
   "note": ""
  },
  {
   "property": "C74",
   "status": "partial",
   "theorems": [
    "C74_outside_refuted",
    "C74_inside_partial"
   ],
   "note": "False for the PCH placeholder source when the path has a blank; proved otherwise."
  },
  {
   "property": "C75",
   "status": "partial",
   "theorems": [
    "C75_shared_refuted",
    "C75_apart_partial"
   ],
   "note": "False if a toolchain name has a slash; proved for names that are one path component (and no blanks with PCHs)."
  },
  {
   "property": "C76",
   "status": "partial",
   "theorems": [
    "C76_same_id_refuted",
    "C76_id_partial"
   ],
   "note": "False if a toolchain name has a ']'; proved otherwise."
  },
  {
   "property": "C77",
   "status": "proved",
   "theorems": [
    "C77_msvc_commands"
   ],
   "note": ""
  },
  {
   "property": "C78",
   "status": "proved",
   "theorems": [
    "C78_compile_arguments"
   ],
   "note": "For sources and directories without blanks and shell characters, as C61."
  },
  {
   "property": "C79",
   "status": "proved",
   "theorems": [
    "C79_header_directory",
    "C79_immediate_options",
    "C79_script_options"
   ],
   "note": "The buildcc include directories appear twice; this is part of the statement."
  },
  {
   "property": "C80",
   "status": "partial",
   "theorems": [
    "C80_header_refuted",
    "C80_blank_refuted",
    "C80_header_partial"
   ],
   "note": "False for names that are not identifiers and paths with blanks; proved for identifiers that are not reserved words and plain paths."
  },
  {
   "property": "C81",
   "status": "partial",
   "theorems": [
    "C81_script_refuted",
    "C81_script_always_recompiled",
    "C81_immediate_partial"
   ],
   "note": "False in script mode (all sources are compiled in every run); proved in immediate mode."
  },
  {
   "property": "C82",
   "status": "proved",
   "theorems": [
    "C82_executed_after_build",
    "C82_success_iff"
   ],
   "note": ""
  },
  {
   "property": "C83",
   "status": "partial",
   "theorems": [
    "C83_config_blank_refuted",
    "C83_run_words_partial"
   ],
   "note": "False for names with blanks; proved for plain shell words."
  },
  {
   "property": "C84",
   "status": "proved",
   "theorems": [
    "C84_home",
    "C84_libraries"
   ],
   "note": ""
  },
  {
   "property": "C85",
   "status": "partial",
   "theorems": [
    "C85_host_target",
    "C85_blank_refuted",
    "C85_executed_partial"
   ],
   "note": "Target proved; the execution is false for build directories with blanks and proved for plain words."
  },
  {
   "property": "C86",
   "status": "partial",
   "theorems": [
    "C86_script_status_refuted"
   ],
   "note": "False: the exit status is not used."
  },
  {
   "property": "C87",
   "status": "proved",
   "theorems": [
    "C87_toolchain_from_line",
    "C87_others_untouched",
    "C87_accepted_iff",
    "C87_ids",
    "C87_levels"
   ],
   "note": "For different variables per toolchain."
  },
  {
   "property": "C88",
   "status": "partial",
   "theorems": [
    "C88_initial_ignored_refuted",
    "C88_state_partial"
   ],
   "note": "False: state and configuration of initial are ignored; proved: the command line, otherwise the old value of the variable."
  },
  {
   "property": "C89",
   "status": "partial",
   "theorems": [
    "C89_earlier_stays_refuted",
    "C89_first_partial",
    "C89_dirs_partial"
   ],
   "note": "False for clean and log level after an earlier use; proved for the first use, and for the directories always."
  },
  {
   "property": "C90",
   "status": "partial",
   "theorems": [
    "C90_empty_command_refuted",
    "C90_commands_partial"
   ],
   "note": "False if a command is neither given nor initial (it is empty); proved otherwise."
  },
  {
   "property": "C91",
   "status": "proved",
   "theorems": [
    "C91_end_to_end",
    "C91_needs_parse"
   ],
   "note": ""
  },
  {
   "property": "C92",
   "status": "proved",
   "theorems": [
    "C92_whole_program_current",
    "C92_dependency_needed_refuted"
   ],
   "note": "The second theorem shows that the hypothesis about dependencies is needed."
  },
  {
   "property": "C93",
   "status": "proved",
   "theorems": [
    "C93_verdict",
    "C93_verdict_generators"
   ],
   "note": ""
  },
  {
   "property": "C94",
   "status": "proved",
   "theorems": [
    "C94_nothing_to_do"
   ],
   "note": "Runs whose state files were silently cut short when written are excluded."
  },
  {
   "property": "C95",
   "status": "proved",
   "theorems": [
    "C95_failure_stops"
   ],
   "note": ""
  },
  {
   "property": "C96",
   "status": "proved",
   "theorems": [
    "C96_patterns_named",
    "C96_meaning_kept",
    "C96_new_generator"
   ],
   "note": ""
  },
  {
   "property": "C97",
   "status": "partial",
   "theorems": [
    "C97_order_refuted",
    "C97_accepted_orders_agree_partial",
    "C97_any_order_partial"
   ],
   "note": "False if one pattern of the map mentions another (one order is fatal); proved: orders that are accepted agree, and maps without such mentions do not depend on the order."
  },
  {
   "property": "C98",
   "status": "proved",
   "theorems": [
    "C98_program_with_generators_current"
   ],
   "note": ""
  },
  {
   "property": "C99",
   "status": "proved",
   "theorems": [
    "C99_nothing_to_do_with_generators"
   ],
   "note": "State files that were silently cut short when written and callbacks without handler are excluded."
  }
 ]
}