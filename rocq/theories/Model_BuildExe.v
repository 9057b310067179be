(** buildexe, the program that builds (and in script mode runs) a target described
    on its command line. Files are under /repo/buildexe.

    Not modelled: CLI11's parsing (the options are given as values), the package
    that builds buildcc itself (its finished target is an argument), logging and
    the Clean callback. *)
From Verif Require Import Prelude Model_Path Model_Json Model_Schema Model_Command Model_ToolchainConfig Model_Target Model_Gcc
  Model_Find Model_Sync Model_Api Model_Toolchains Model_Targets.

(** src/build_env_home.cpp:21-25 BuildccHome: its static variables. *)
Record home := HM { hm_home : string; hm_base : string; hm_libs : string; hm_extensions : string }.
(** build_env_home.cpp:27-49 BuildccHome::Init; [done]: already initialised, [var]:
    the environment variable BUILDCC_HOME, [there]: fs::exists. *)
Definition home_init (done : bool) (var : option string) (there : string -> bool) : outcome home :=
  if done then Fatal
  else match var with
       | None => Fatal
       | Some h =>
           let m := HM h (path_div h "buildcc") (path_div h "libs") (path_div h "extensions") in
           if negb (there (hm_home m)) then Fatal
           else if negb (there (hm_base m)) then Fatal
           else if negb (there (hm_libs m)) then Fatal
           else if negb (there (hm_extensions m)) then Fatal
           else Ok m
       end.

(** src/args_setup.cpp:100-132 ArgLibsInfo::Add. [ents]: the entries of
    {BUILDCC_HOME}/libs, each with whether it is a directory; None: it cannot be
    listed. A library is its name and the text of its path. *)
Definition lib_infos (libs : string) (ents : option (list (string * bool))) : outcome (list (string * string)) :=
  match ents with
  | None => Fatal
  | Some l => Ok (map (fun e => (filename (path_div libs (fst e)), to_display_string (path_div libs (fst e)))) (filter snd l))
  end.
(** args_setup.cpp:120-131: the files given with the option of each library, in
    the order in which the options were added. *)
Definition lib_files (libs : string) (ents : list (string * bool)) (given : string -> list string) : list string :=
  flat_map (fun e => map (path_div (path_div libs (fst e))) (given (filename (path_div libs (fst e))))) (filter snd ents).

(** include/buildexe/args_setup.h:24-73 ArgTargetInfo, ArgTargetInputs,
    ArgScriptInfo, BuildExeMode and the files given to the libs subcommand. *)
Record exe_args := XA {
  xa_name : string;
  xa_type : target_kind;
  xa_relative : string;
  xa_sources : list string;
  xa_include_dirs : list string;
  xa_lib_dirs : list string;
  xa_external_libs : list string;
  xa_preprocessor : list string;
  xa_common : list string;
  xa_asm : list string;
  xa_c : list string;
  xa_cpp : list string;
  xa_link : list string;
  xa_script : bool;
  xa_configs : list string;
  xa_lib_given : string -> list string }.

(** src/build_env_setup.cpp:105-139 UserTargetCb *)
Definition input_calls (a : exe_args) : list call :=
  map (fun s => AddSource s "") (xa_sources a) ++
  map (fun i => AddIncludeDir i false) (xa_include_dirs a) ++
  map AddLibDir (xa_lib_dirs a) ++
  map AddLibDep (xa_external_libs a) ++
  map (AddFlag FPre) (xa_preprocessor a) ++
  map (AddFlag FCommon) (xa_common a) ++
  map (AddFlag FAsm) (xa_asm a) ++
  map (AddFlag FC) (xa_c a) ++
  map (AddFlag FCpp) (xa_cpp a) ++
  map (AddFlag FLink) (xa_link a).

(** build_env_setup.cpp:60-64, 84-89 UserTargetSetup: immediate mode *)
Definition user_target (p : project) (tc : toolchain) (a : exe_args) (ls : listing) : outcome target :=
  match target_generic p (xa_name a) (Some (xa_type a)) tc (env_relative p (xa_relative a)) None with
  | Ok t => describe t ls (input_calls a)
  | Fatal => Fatal
  end.

(** build_env_setup.cpp:143-152 *)
Definition buildcc_options : list sync_option :=
  [ PreprocessorFlags; CppCompileFlags; IncludeDirs; LinkFlags; HeaderFiles; IncludeDirs; LibDeps; ExternalLibDeps ].
(** build_env_setup.cpp:141-160 UserTargetWithBuildccSetup *)
Definition with_buildcc (t b : target) : target :=
  let e := g_env b in
  let u1 := put_libs (g_user t) (il_emplace (ts_libs (g_user t)) (target_output_path (te_build e) (te_name e) (te_ext e)) "") in
  let u2 := fst (insert ByRef u1 (g_user b) buildcc_options) in
  let t2 := with_user t u2 in
  match k_id (g_toolchain t) with
  | MinGW => add_flag_to t2 FLink "-Wl,--allow-multiple-definition"
  | _ => t2
  end.

(** build_env_setup.cpp:168-190: the generated header *)
Definition lib_constant (l : string * string) : string :=
  "static constexpr const char *const " +++ fst l +++ " = " +++ str1 ch_quote +++ snd l +++ str1 ch_quote +++ ";".
Definition crlf : string := String "013" (String "010" "").
Definition newline : string := str1 "010".
Definition lib_dirs_text (ls : list (string * string)) : string :=
  "// Generated by BuildCC" +++ newline +++ "#pragma once" +++ newline +++ newline +++
  "struct BuildExeLibDir {" +++ newline +++ join crlf (map lib_constant ls) +++ newline +++ "};" +++ newline.
(** build_env_setup.cpp:187-191: where it is saved, in every run; the result of
    save_file is ignored. *)
Definition lib_dirs_file (t : target) : string := path_div (te_build (g_env t)) "buildexe_lib_dirs.h".

(** [path::parent_path]: without the last name and the separators before it; "/" is
    its own parent. *)
Fixpoint drop_end_slashes (s : string) : string :=
  match s with
  | EmptyString => EmptyString
  | String c r => match drop_end_slashes r with
                  | EmptyString => if Ascii.eqb c ch_slash then EmptyString else str1 c
                  | r' => String c r'
                  end
  end.
Definition parent_path (s : string) : string :=
  let d := dir_prefix s in
  if nonempty_str (drop_end_slashes d) then drop_end_slashes d else if starts_slash d then "/" else "".
(** build_env_setup.cpp:197-205 *)
Definition lib_file_calls (tc : tconfig) (files : list string) : list call :=
  flat_map (fun f => (if is_valid_source tc f then [AddSourceAbsolute f] else []) ++
                     (if is_valid_header tc f then [AddIncludeDirAbsolute (parent_path f) false; AddHeaderAbsolute f] else [])) files.

(** build_env_setup.cpp:66-74, 162-206: script mode. [b]: the buildcc target;
    [ls]: the directories after the header was saved. *)
Definition script_target (p : project) (tc : toolchain) (a : exe_args) (b : target) (files : list string) (ls : listing) : outcome target :=
  match user_target p tc a ls with
  | Fatal => Fatal
  | Ok t => describe (with_buildcc t b) ls
              (AddIncludeDirAbsolute (te_build (g_env t)) true :: lib_file_calls (k_config tc) files)
  end.

(** build_env_setup.cpp:35-56 RunUserTarget *)
Definition run_command (t : target) (configs : list string) : string :=
  let e := g_env t in
  to_display_string (target_output_path (te_build e) (te_name e) (te_ext e)) +++ " " +++
  join " " (map (fun c => "--config " +++ c) configs).

(** src/toolchain_setup.cpp:30-62: the target of host_toolchain_verify *)
Definition host_target (p : project) (tc : toolchain) (ls : listing) : outcome target :=
  let dir := path_div (pr_build p) "verify_host_toolchain" in
  let file := path_div dir "verify_host_toolchain.cpp" in
  match generic_class p "verify" KExecutable tc (env_absolute (parent_path file) (parent_path file)) None with
  | Fatal => Fatal
  | Ok t =>
      match describe t ls [AddSource file ""] with
      | Fatal => Fatal
      | Ok t1 =>
          match k_id tc with
          | Gcc | MinGW => Ok (add_flag_to t1 FCpp "-std=c++17")
          | Msvc => Ok (add_flag_to t1 FCpp "/std:c++17")
          | Clang | Custom | UndefinedId => Fatal
          end
      end
  end.
(** toolchain_setup.cpp:74-76: path::string() is the path as it is *)
Definition host_command (t : target) : string :=
  let e := g_env t in target_output_path (te_build e) (te_name e) (te_ext e).

(** What main does, in order. [HostBuild]: compiles and links the program that
    checks the toolchain; [BuildAll]: Reg::Run, with the user target. *)
Inductive happened := Verified | HostBuild | Executed (command : string) | BuildAll (t : target) | CompileCommands (t : target).
(** The answers of the outside world. *)
Record world := WD {
  w_home : bool * option string;            (* initialised before; BUILDCC_HOME *)
  w_there : string -> bool;                 (* fs::exists *)
  w_libs : option (list (string * bool));   (* entries of {BUILDCC_HOME}/libs *)
  w_verified : bool;                        (* the toolchain was found *)
  w_host_built : bool;                      (* the host program was built *)
  w_execute : string -> bool;               (* exit status 0 *)
  w_buildcc : outcome target;               (* the buildcc package *)
  w_built : bool;                           (* every registered target was built *)
  w_generated : bool }.                     (* compile commands generated *)
Definition result : Type := list happened * bool.   (* true: main returned 0 *)
Definition after (l : list happened) (r : result) : result := (l ++ fst r, snd r).
Definition need (b : bool) (r : result) : result := if b then r else ([], false).

(** toolchain_setup.cpp:27-79 *)
Definition host_check (w : world) (p : project) (tc : toolchain) (ls : listing) (r : result) : result :=
  match host_target p tc ls with
  | Fatal => ([], false)
  | Ok t => after [HostBuild] (need (w_host_built w)
              (after [Executed (host_command t)] (need (w_execute w (host_command t)) r)))
  end.
(** build_env_setup.cpp:24-33 Setup *)
Definition setup (w : world) (p : project) (tc : toolchain) (a : exe_args) (h : home) (ents : list (string * bool)) (ls : listing) : outcome target :=
  if xa_script a then
    match w_buildcc w with
    | Fatal => Fatal
    | Ok b => script_target p tc a b (lib_files (hm_libs h) ents (xa_lib_given a)) ls
    end
  else user_target p tc a ls.
(** buildexe.cpp:33-75 main; [Reg::Run] ends the program if a target could not be
    built (buildcc/lib/args/src/tasks.cpp:33-41). The result of executing the script
    is not looked at. *)
Definition exe_main (w : world) (p : project) (tc : toolchain) (a : exe_args) (ls : listing) : result :=
  match home_init (fst (w_home w)) (snd (w_home w)) (w_there w) with
  | Fatal => ([], false)
  | Ok h =>
      match lib_infos (hm_libs h) (w_libs w), w_libs w with
      | Ok _, Some ents =>
          need (w_verified w) (after [Verified]
            ((if xa_script a then host_check w p tc ls else fun r => r)
              (match setup w p tc a h ents ls with
               | Fatal => ([], false)
               | Ok t =>
                   after [BuildAll t] (need (w_built w)
                     (after (if xa_script a then [Executed (run_command t (xa_configs a))] else [])
                       (after [CompileCommands t] ([], w_generated w))))
               end)))
      | _, _ => ([], false)
      end
  end.
