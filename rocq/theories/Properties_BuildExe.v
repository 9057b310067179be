(** C79-C86: buildexe. *)
From Coq Require Import Permutation.
From Verif Require Import Prelude Model_Path Model_Json Model_Schema Model_Command Model_ToolchainConfig Model_Target Model_Gcc
  Model_Find Model_Sync Model_Api Model_Toolchains Model_Targets Model_BuildExe
  Spec_Path Spec_Sync Spec_Shell Spec_Gcc Spec_Api Spec_Toolchains Spec_Targets Spec_Target Spec_BuildExe
  Proof_TargetCase Proof_BuildExe Proof_BuildExe2 Proof_BuildExeCase.

(** C79: the user target has exactly what the command line asks for; in script
    mode also what the buildcc target, the generated header and the files of
    libraries add. *)
Theorem C79_immediate_options : forall p tc a ls,
  (forall t, user_target p tc a ls = Ok t -> k_config tc = usual_config (k_id tc) ->
     te_build (g_env t) = user_dir p tc a /\ te_name (g_env t) = xa_name a /\
     forall x, entries x (g_user t) = initial_entries tc (xa_type a) (user_dir p tc a) x ++
                                      command_line_entries (path_div (pr_root p) (xa_relative a)) a x) /\
  (user_target p tc a ls = Fatal <-> pr_init p = false \/ class_for (k_id tc) = None \/
     exists s, In s (xa_sources a) /\ is_valid_source (k_config tc) (path_div (path_div (pr_root p) (xa_relative a)) s) = false).
Proof. exact immediate_options. Qed.
Print Assumptions C79_immediate_options.
Theorem C79_script_options : forall p tc a b files ls t,
  script_target p tc a b files ls = Ok t -> k_config tc = usual_config (k_id tc) ->
  te_build (g_env t) = user_dir p tc a /\
  forall x, entries x (g_user t) = initial_entries tc (xa_type a) (user_dir p tc a) x ++
    command_line_entries (path_div (pr_root p) (xa_relative a)) a x ++ buildcc_entries tc b x ++
    generated_entries (k_config tc) (user_dir p tc a) ls x ++ library_entries (k_config tc) files x.
Proof. exact script_options. Qed.
Print Assumptions C79_script_options.
(** The directory that is added for a header is the one it is in. *)
Theorem C79_header_directory : forall d n, str_mem ch_slash n = false ->
  (d <> "" -> ends_slash d = false -> parent_path (d +++ "/" +++ n) = d) /\ parent_path ("/" +++ n) = "/" /\ parent_path n = "".
Proof. exact parent_named. Qed.
Print Assumptions C79_header_directory.
Example C79_case :
  on_target (user_target sample_project (sample_toolchain Gcc "gcc") (sample_args false) sample_dirs)
    (fun t => (ts_c_compile_flags (g_user t), ts_include_dirs (g_user t), il_paths (ts_sources (g_user t)))) =
    Some (["-std=c11"; "-ansi"], ["/p/src/inc"], ["/p/src/main.cpp"; "/p/gen/x.c"]) /\
  on_target sample_script (fun t => (il_paths (ts_sources (g_user t)), il_paths (ts_headers (g_user t)), il_paths (ts_libs (g_user t)), ts_external_libs (g_user t))) =
    Some (["/p/src/main.cpp"; "/p/gen/x.c"; "/h/libs/json/src/j.cpp"],
          ["/h/buildcc/b.h"; "/p/_build/gcc/tool/buildexe_lib_dirs.h"; "/h/libs/json/json.hpp"],
          ["/p/_build/gcc/libbuildcc/libbuildcc.a"], ["-lm"; "-ltbb"]) /\
  k_config (sample_toolchain Gcc "gcc") = usual_config (k_id (sample_toolchain Gcc "gcc")) /\
  parent_path "/h/libs/json/json.hpp" = "/h/libs/json" /\ str_mem ch_slash "json.hpp" = false /\ ends_slash "/h/libs/json" = false.
Proof. split; [vm_compute; reflexivity|]. repeat split; vm_compute; reflexivity. Qed.

(** C80: the generated header declares one constant per library, with its path.
    False for libraries whose names are not identifiers, and for paths with blanks
    (the constant then contains quotes that end the literal). *)
Theorem C80_header_refuted : exists libs ents infos, lib_infos libs (Some ents) = Ok infos /\ libraries ents = ["my-lib"] /\ literal_text libs /\
  read_header (lib_dirs_text infos) = None.
Proof. exact header_name_wrong. Qed.
Print Assumptions C80_header_refuted.
Theorem C80_blank_refuted : exists libs ents infos, lib_infos libs (Some ents) = Ok infos /\ libraries ents = ["json"] /\ libs = "/my home/libs" /\
  read_header (lib_dirs_text infos) = None.
Proof. exact header_blank_wrong. Qed.
Print Assumptions C80_blank_refuted.
(** Missing: other names, and paths with blanks, quotes or backslashes. *)
Theorem C80_header_partial : forall libs ents infos, lib_infos libs (Some ents) = Ok infos -> literal_text libs ->
  NoDup (libraries ents) -> Forall (fun n => identifier n = true /\ member_name n = true) (libraries ents) ->
  read_header (lib_dirs_text infos) = Some (map (fun n => (n, to_path_string (path_div libs n))) (libraries ents)).
Proof. exact header_of_libs. Qed.
Print Assumptions C80_header_partial.
Example C80_case :
  match lib_infos "/h/libs" (Some [("json", true); ("README.md", false); ("fmt_9", true)]) with
  | Ok infos => read_header (lib_dirs_text infos) = Some [("json", "/h/libs/json"); ("fmt_9", "/h/libs/fmt_9")] | Fatal => False end /\
  literal_text "/h/libs" /\ Forall (fun n => identifier n = true /\ member_name n = true) ["json"; "fmt_9"] /\ member_name "class" = false.
Proof. split; [vm_compute; reflexivity|]. split; [repeat split|]. split; [repeat constructor|reflexivity]. Qed.

(** C81: running buildexe again without changes compiles nothing. False in script
    mode, where every run writes the header again: all sources are compiled, in
    every run in which its time differs from the one before. *)
Theorem C81_script_refuted : exists t st1 st2 run1 run2,
  sample_script = Ok t /\ exec (g_env t) (init sample_disk) run1 = Some st1 /\ s_ok st1 = true /\ s_pc st1 = Idle /\
  run2 = full_run (cfg_of (g_user t)) (sources (cfg_of (g_user t))) (sources (cfg_of (g_user t))) /\
  exec (g_env t) st1 (EvEdit (to_path_string (lib_dirs_file t)) (Some 2%N) :: run2) = Some st2 /\ s_ok st2 = true /\
  length (s_log st2) = length (s_log st1) + 4.
Proof. exact script_again. Qed.
Print Assumptions C81_script_refuted.
Theorem C81_script_always_recompiled : forall p tc a b files ls t names rg d0 evs h st t' ord cs st2,
  script_target p tc a b files ls = Ok t -> k_config tc = usual_config (k_id tc) ->
  ls (user_dir p tc a) = Some names -> In "buildexe_lib_dirs.h" names ->
  history rg (g_env t) d0 (evs ++ [EvEnd WOk]) h st -> s_ok st = true -> h_edited h = false -> s_cfg st = cfg_of (g_user t) ->
  d_mt (s_disk st) (to_path_string (lib_dirs_file t)) <> Some t' ->
  exec (g_env t) st (EvEdit (to_path_string (lib_dirs_file t)) (Some t') :: EvStart (cfg_of (g_user t)) ord :: EvObjCheck ::
    compiles cs ++ [EvLinkCheck]) = Some st2 ->
  Permutation (map fst cs) (sources (cfg_of (g_user t))).
Proof. exact script_recompiled. Qed.
Print Assumptions C81_script_always_recompiled.
(** Missing: script mode. *)
Theorem C81_immediate_partial : forall p tc a ls1 ls2 t rg d0 evs h st ord,
  user_target p tc a ls1 = Ok t -> history rg (g_env t) d0 (evs ++ [EvEnd WOk]) h st -> s_ok st = true -> h_edited h = false ->
  s_cfg st = cfg_of (g_user t) -> ord_ok ord (sources (cfg_of (g_user t))) = true ->
  user_target p tc a ls2 = Ok t /\
  exists st2, exec (g_env t) st (idle_run (cfg_of (g_user t)) ord) = Some st2 /\ s_ok st2 = true /\ s_log st2 = s_log st /\ s_disk st2 = s_disk st.
Proof. exact immediate_idle. Qed.
Print Assumptions C81_immediate_partial.
Example C81_case : exists t h st, user_target sample_project (sample_toolchain Gcc "gcc") (sample_args false) sample_dirs = Ok t /\
  history Forward (g_env t) sample_disk (full_run (cfg_of (g_user t)) (sources (cfg_of (g_user t))) (sources (cfg_of (g_user t)))) h st /\
  s_ok st = true /\ h_edited h = false /\ s_cfg st = cfg_of (g_user t) /\ length (s_log st) = 3 /\
  ord_ok (sources (cfg_of (g_user t))) (sources (cfg_of (g_user t))) = true.
Proof. exact immediate_case. Qed.
Example C81_script_case : exists t h st, sample_script = Ok t /\
  history Forward (g_env t) sample_disk (full_run (cfg_of (g_user t)) (sources (cfg_of (g_user t))) (sources (cfg_of (g_user t)))) h st /\
  s_ok st = true /\ h_edited h = false /\ s_cfg st = cfg_of (g_user t) /\ d_mt (s_disk st) (to_path_string (lib_dirs_file t)) <> Some 2%N /\
  exists st2, exec (g_env t) st (EvEdit (to_path_string (lib_dirs_file t)) (Some 2%N) :: EvStart (cfg_of (g_user t)) (sources (cfg_of (g_user t))) ::
    EvObjCheck :: compiles (map (fun s => (s, XOk)) (sources (cfg_of (g_user t)))) ++ [EvLinkCheck]) = Some st2.
Proof. exact script_case. Qed.

(** C82: a program is executed only after it was built, the script only after the
    toolchain was checked, and nothing is executed in immediate mode; main returns
    0 only if everything was built. *)
Theorem C82_executed_after_build : forall w p tc a ls l1 c l2, fst (exe_main w p tc a ls) = l1 ++ Executed c :: l2 ->
  xa_script a = true /\
  ((exists t, host_target p tc ls = Ok t /\ c = host_command t /\ w_host_built w = true /\ l1 = [Verified; HostBuild]) \/
   (exists ht t, host_target p tc ls = Ok ht /\ w_execute w (host_command ht) = true /\ prepared w p tc a ls t /\
      c = run_command t (xa_configs a) /\ w_built w = true /\ l1 = [Verified; HostBuild; Executed (host_command ht); BuildAll t])).
Proof. exact executed_after_build. Qed.
Print Assumptions C82_executed_after_build.
Theorem C82_success_iff : forall w p tc a ls, snd (exe_main w p tc a ls) = true <->
  exists t, prepared w p tc a ls t /\ w_verified w = true /\ w_built w = true /\ w_generated w = true /\
    (xa_script a = true -> exists ht, host_target p tc ls = Ok ht /\ w_host_built w = true /\ w_execute w (host_command ht) = true) /\
    fst (exe_main w p tc a ls) = [Verified] ++
      (if xa_script a then match host_target p tc ls with Ok ht => [HostBuild; Executed (host_command ht)] | Fatal => [] end else []) ++
      [BuildAll t] ++ (if xa_script a then [Executed (run_command t (xa_configs a))] else []) ++ [CompileCommands t].
Proof. exact main_success. Qed.
Print Assumptions C82_success_iff.
Example C82_case :
  let r := exe_main (sample_world true) sample_project (sample_toolchain Gcc "gcc") (sample_args true) sample_dirs in
  (map (fun x => match x with Executed c => c | BuildAll t => te_name (g_env t) | _ => "" end) (fst r), snd r) =
  (["";  ""; "/p/_build/verify_host_toolchain/gcc/verify/verify"; "tool"; "/p/_build/gcc/tool/tool --config build.toml"; ""], true) /\
  snd (exe_main (sample_world false) sample_project (sample_toolchain Clang "clang") (sample_args true) sample_dirs) = false.
Proof. cbv zeta. split; vm_compute; reflexivity. Qed.
(** C86: buildexe fails if the script fails. False: the exit status is not used. *)
Theorem C86_script_status_refuted : exists w p tc a ls t, xa_script a = true /\ prepared w p tc a ls t /\
  w_execute w (run_command t (xa_configs a)) = false /\ In (Executed (run_command t (xa_configs a))) (fst (exe_main w p tc a ls)) /\
  snd (exe_main w p tc a ls) = true.
Proof. exact script_status_lost. Qed.
Print Assumptions C86_script_status_refuted.

(** C83: a script is run with one --config option per configuration file. False
    if a file name has a blank. *)
Theorem C83_config_blank_refuted : exists t configs, sample_script = Ok t /\ configs = ["my config.toml"] /\
  shell_words (run_command t configs) = Some ["/p/_build/gcc/tool/tool"; "--config"; "my"; "config.toml"].
Proof. exact config_blank. Qed.
Print Assumptions C83_config_blank_refuted.
(** Missing: names that are not plain shell words. *)
Theorem C83_run_words_partial : forall t configs,
  let out := target_output_path (te_build (g_env t)) (te_name (g_env t)) (te_ext (g_env t)) in
  plain_path (to_path_string out) -> Forall plain_word configs ->
  shell_words (run_command t configs) = Some (to_path_string out :: flat_map (fun c => ["--config"; c]) configs).
Proof. exact run_words. Qed.
Print Assumptions C83_run_words_partial.
Example C83_case : on_target sample_script (fun t => shell_words (run_command t ["a.toml"; "b.toml"])) =
  Some (Some ["/p/_build/gcc/tool/tool"; "--config"; "a.toml"; "--config"; "b.toml"]) /\ Forall plain_word ["a.toml"; "b.toml"].
Proof. split; [vm_compute; reflexivity|]. repeat constructor; discriminate. Qed.

(** C84: BUILDCC_HOME is accepted exactly if it has its three directories; the
    libraries are the directories in libs, and the files given for a library are
    those below its directory. *)
Theorem C84_home : forall done var there m, home_init done var there = Ok m <->
  done = false /\ exists h, var = Some h /\ m = HM h (path_div h "buildcc") (path_div h "libs") (path_div h "extensions") /\
  forall d, In d [h; path_div h "buildcc"; path_div h "libs"; path_div h "extensions"] -> there d = true.
Proof. exact home_iff. Qed.
Print Assumptions C84_home.
Theorem C84_libraries : forall libs ents infos given, lib_infos libs (Some ents) = Ok infos ->
  (forall n, In n (libraries ents) -> str_mem "/"%char n = false) ->
  infos = map (fun n => (n, to_display_string (path_div libs n))) (libraries ents) /\
  lib_files libs ents given = flat_map (fun n => map (path_div (path_div libs n)) (given n)) (libraries ents).
Proof. exact (fun libs ents infos given H S => conj (libs_exact libs ents infos H S) (lib_files_exact libs ents given S)). Qed.
Print Assumptions C84_libraries.
Example C84_case :
  home_init false (Some "/h") (fun d => mem_str d ["/h"; "/h/buildcc"; "/h/libs"]) = Fatal /\
  home_init false (Some "/h") (fun d => mem_str d ["/h"; "/h/buildcc"; "/h/libs"; "/h/extensions"]) = Ok (HM "/h" "/h/buildcc" "/h/libs" "/h/extensions") /\
  lib_files "/h/libs" [("json", true); ("x", false)] (fun n => if String.eqb n "json" then ["a.h"; "src/b.cpp"] else ["z"]) = ["/h/libs/json/a.h"; "/h/libs/json/src/b.cpp"].
Proof. repeat split; vm_compute; reflexivity. Qed.

(** C85: the program that checks the toolchain is built from its one source with
    C++17, for every toolchain buildexe can use, and executed by its path. False
    for the execution if the build directory has a blank. *)
Theorem C85_host_target : forall p tc ls, starts_slash (pr_build p) = true -> k_config tc = usual_config (k_id tc) -> pr_init p = true ->
  match host_flag (k_id tc) with
  | None => host_target p tc ls = Fatal
  | Some flag => exists t, host_target p tc ls = Ok t /\
      te_build (g_env t) = path_div (path_div (host_dir p) (k_name tc)) "verify" /\ te_name (g_env t) = "verify" /\
      forall x, entries x (g_user t) = initial_entries tc KExecutable (te_build (g_env t)) x ++
        match x with SourceFiles => [file_entry (host_file p)] | CppCompileFlags => [plain_entry flag] | _ => [] end
  end.
Proof. exact host_exact. Qed.
Print Assumptions C85_host_target.
Theorem C85_blank_refuted : exists p t, pr_build p = "/my project/_build" /\ host_target p (sample_toolchain Gcc "gcc") sample_dirs = Ok t /\
  shell_words (host_command t) = Some ["/my"; "project/_build/verify_host_toolchain/gcc/verify/verify"].
Proof. exact host_blank. Qed.
Print Assumptions C85_blank_refuted.
(** Missing: build directories that are not plain shell words. *)
Theorem C85_executed_partial : forall t, plain_word (target_output_path (te_build (g_env t)) (te_name (g_env t)) (te_ext (g_env t))) ->
  shell_words (host_command t) = Some [target_output_path (te_build (g_env t)) (te_name (g_env t)) (te_ext (g_env t))].
Proof. exact host_words. Qed.
Print Assumptions C85_executed_partial.
Example C85_case :
  on_target (host_target sample_project (sample_toolchain MinGW "mingw") sample_dirs)
    (fun t => (il_paths (ts_sources (g_user t)), ts_cpp_compile_flags (g_user t), shell_words (host_command t))) =
  Some (["/p/_build/verify_host_toolchain/verify_host_toolchain.cpp"], ["-std=c++17"; "-std=c++17"],
        Some ["/p/_build/verify_host_toolchain/mingw/verify/verify.exe"]) /\
  starts_slash (pr_build sample_project) = true /\ host_flag Clang = None.
Proof. repeat split; vm_compute; reflexivity. Qed.
