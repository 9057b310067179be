(** The package that builds buildcc itself and the bootstrap program.
    Files are under /repo/bootstrap.

    Not modelled: Clean and Verify callbacks, Target::Build() (Model_Target.v), the
    plugins after Reg::Run, flatc (build_flatbuffers.cpp is not used by the
    package). [ls] are the directories at the time of the calls. *)
From Verif Require Import Prelude Model_Path Model_Json Model_Schema Model_Command Model_ToolchainConfig Model_Target Model_Gcc
  Model_Find Model_Sync Model_Api Model_Toolchains Model_Targets Model_Reg.

(** env::is_win(); env::is_linux() || env::is_unix() || env::is_clang()
    (/repo/buildcc/lib/env/include/env/host_os.h, host_compiler.h) *)
Record host := HOST { ho_win : bool; ho_nix : bool }.

(** ** The header-only libraries *)

(** src/build_nlohmann_json.cpp:21-32 *)
Definition json_calls : list call :=
  AddIncludeDir "include" false ::
  map GlobHeaders [ "include/nlohmann"; "include/nlohmann/thirdparty/hedley"; "include/nlohmann/detail";
    "include/nlohmann/detail/conversions"; "include/nlohmann/detail/input"; "include/nlohmann/detail/iterators";
    "include/nlohmann/detail/meta"; "include/nlohmann/detail/meta/call_std"; "include/nlohmann/detail/output" ].
(** src/build_cli11.cpp:21-24 *)
Definition cli11_calls : list call := [ AddIncludeDir "include" false; GlobHeaders "include/CLI" ].
(** src/build_fmtlib.cpp:21-24 *)
Definition fmt_calls : list call := [ AddIncludeDir "include" false; GlobHeaders "include/fmt" ].
(** src/build_spdlog.cpp:21-28 *)
Definition spdlog_calls : list call :=
  AddIncludeDir "include" false ::
  map GlobHeaders [ "include/spdlog"; "include/spdlog/cfg"; "include/spdlog/details"; "include/spdlog/fmt"; "include/spdlog/sinks" ].
(** src/build_taskflow.cpp:21-32 *)
Definition taskflow_calls : list call :=
  AddIncludeDir "" false ::
  map GlobHeaders [ "taskflow"; "taskflow/algorithm"; "taskflow/core"; "taskflow/cuda"; "taskflow/cuda/algorithm";
    "taskflow/dsl"; "taskflow/sycl"; "taskflow/sycl/algorithm"; "taskflow/utility" ].

(** A TargetInfo (target_info.h:50-58) below the directory [root], and the
    callback's calls on it. *)
Definition info (tc : toolchain) (root : string) (ls : listing) (cs : list call) : outcome tschema :=
  api_run (AE (k_config tc) root ls) (new_target (k_flags tc)) cs.

(** ** The two libraries *)

(** src/build_buildcc.cpp:143-163 global_flags_cb *)
Definition global_flags (id : toolchain_id) : list call :=
  match id with
  | Gcc | MinGW => map (AddFlag FCpp) [ "-std=c++17"; "-Os"; "-Wall"; "-Wextra"; "-Werror" ]
  | Msvc => AddFlag FPre "/D_CRT_SECURE_NO_WARNINGS" :: map (AddFlag FCpp) [ "/std:c++17"; "/Ot"; "/W4"; "/WX" ]
  | _ => []
  end.
(** src/build_tpl.cpp:21-35 tpl_cb *)
Definition tpl_calls (h : host) : list call :=
  [ AddSource "process.cpp" ""; AddIncludeDir "" false; AddHeader "process.hpp" "" ] ++
  (if ho_win h then [ AddSource "process_win.cpp" "" ] else []) ++
  (if ho_nix h then [ AddSource "process_unix.cpp" "" ] else []).
(** build_buildcc.cpp:26-78 buildcc_cb, the library itself *)
Definition buildcc_calls : list call :=
  [ AddIncludeDir "" true;
    GlobSources "lib/env/src"; AddIncludeDir "lib/env/include" false; GlobHeaders "lib/env/include/env";
    GlobSources "schema/src"; AddIncludeDir "schema/include" false; GlobHeaders "schema/include/schema";
    GlobHeaders "schema/include/schema/interface";
    GlobSources "lib/toolchain/src/api"; GlobSources "lib/toolchain/src/common"; GlobSources "lib/toolchain/src/toolchain";
    AddIncludeDir "lib/toolchain/include" false; GlobHeaders "lib/toolchain/include/toolchain";
    GlobHeaders "lib/toolchain/include/toolchain/api"; GlobHeaders "lib/toolchain/include/toolchain/common";
    GlobSources "lib/target/src/common"; GlobSources "lib/target/src/custom_generator"; GlobSources "lib/target/src/generator";
    GlobSources "lib/target/src/api"; GlobSources "lib/target/src/target_info"; GlobSources "lib/target/src/target";
    GlobSources "lib/target/src/target/friend";
    AddIncludeDir "lib/target/include" false; GlobHeaders "lib/target/include/target"; GlobHeaders "lib/target/include/target/api";
    GlobHeaders "lib/target/include/target/common"; GlobHeaders "lib/target/include/target/friend";
    GlobHeaders "lib/target/include/target/interface";
    GlobSources "lib/args/src"; AddIncludeDir "lib/args/include" false; GlobHeaders "lib/args/include/args";
    GlobSources "toolchains/src"; AddIncludeDir "toolchains/include" false; GlobHeaders "toolchains/include/toolchains";
    AddIncludeDir "targets/include" false; GlobHeaders "targets/include/targets";
    GlobSources "plugins/src"; AddIncludeDir "plugins/include" false; GlobHeaders "plugins/include/plugins" ].
(** build_buildcc.cpp:82-85 *)
Definition insert_options : list sync_option := [ IncludeDirs; HeaderFiles ].
(** build_buildcc.cpp:106-136 *)
Definition host_calls (h : host) (id : toolchain_id) : list call :=
  (if ho_win h then
     match id with
     | MinGW => [ AddFlag FPre "-DFMT_HEADER_ONLY=1"; AddFlag FPre "-DSPDLOG_FMT_EXTERNAL"; AddFlag FLink "-Wl,--allow-multiple-definition" ]
     | Msvc => [ AddFlag FPre "/DFMT_HEADER_ONLY=1"; AddFlag FPre "/DSPDLOG_FMT_EXTERNAL" ]
     | _ => []
     end
   else []) ++
  (if ho_nix h then
     match id with
     | Gcc => [ AddFlag FPre "-DFMT_HEADER_ONLY=1"; AddFlag FPre "-DSPDLOG_FMT_EXTERNAL"; AddLibDep "-lpthread" ]
     | _ => []
     end
   else []).

(** target.Insert(other, options) *)
Definition insert_from (t : target) (u : tschema) (xs : list sync_option) : target :=
  with_user t (fst (insert ByRef (g_user t) u xs)).
Definition bind {A B} (r : outcome A) (f : A -> outcome B) : outcome B :=
  match r with Ok a => f a | Fatal => Fatal end.

(** ** The package *)

(** include/bootstrap/build_buildcc.h:40-92 BuildBuildCC: the targets it owns. *)
Record package := PKG { pk_tpl : target; pk_buildcc : target }.
(** build_buildcc.cpp:165-211 Initialize; [root], [build]: the directories of the
    TargetEnv it is given. *)
Definition package_new (p : project) (tc : toolchain) (root build : string) : outcome package :=
  bind (generic_class p "libtpl" KStatic tc (env_absolute (path_div (path_div root "third_party") "tiny-process-library") build) None)
    (fun tpl => bind (generic_class p "libbuildcc" KStatic tc (env_absolute (path_div root "buildcc") build) None)
      (fun b => Ok (PKG tpl b))).
(** build_buildcc.cpp:21-139 buildcc_cb *)
Definition buildcc_cb (b : target) (h : host) (ls : listing) (json fmt spdlog cli11 taskflow : tschema) (tpl : target) : outcome target :=
  bind (describe b ls buildcc_calls) (fun b1 =>
    let b2 := fold_left (fun t u => insert_from t u insert_options) [json; fmt; spdlog; cli11; taskflow] b1 in
    bind (describe b2 ls [AddLibDepTarget (g_env tpl)]) (fun b3 =>
      describe (insert_from b3 (g_user tpl) insert_options) ls (host_calls h (k_id (g_toolchain b))))).
(** build_buildcc.cpp:213-236 Setup, if the toolchain's state says build (otherwise
    it does nothing). *)
Definition package_setup (k : package) (tc : toolchain) (root : string) (h : host) (ls : listing) : outcome package :=
  let third lib := path_div (path_div root "third_party") lib in
  bind (info tc (third "json") ls json_calls) (fun json =>
  bind (info tc (third "CLI11") ls cli11_calls) (fun cli11 =>
  bind (info tc (third "fmt") ls fmt_calls) (fun fmt =>
  bind (info tc (third "spdlog") ls spdlog_calls) (fun spdlog =>
  bind (info tc (third "taskflow") ls taskflow_calls) (fun taskflow =>
  bind (describe (pk_tpl k) ls (global_flags (k_id tc))) (fun t1 =>
  bind (describe t1 ls (tpl_calls h)) (fun tpl =>
  bind (describe (pk_buildcc k) ls (global_flags (k_id tc))) (fun b1 =>
  bind (buildcc_cb b1 h ls json fmt spdlog cli11 taskflow tpl) (fun b =>
  Ok (PKG tpl b)))))))))).
(** ... and its calls of Reg (build_buildcc.cpp:221-235). *)
Definition package_prog (build test : bool) (tpl b : string) : list api :=
  let h := ViaToolchain build test in
  map (fun n => AFunc h n []) [ "nlohmann_json_ho_cb"; "cli11_ho_cb"; "fmt_ho_cb"; "spdlog_ho_cb"; "taskflow_ho_cb"; "global_flags_cb" ] ++
  [ ABuild h tpl "tpl_cb" []; AFunc h "global_flags_cb" []; ABuild h b "buildcc_cb" []; ADep build test b tpl ].

(** ** The bootstrap program, main.buildcc.cpp *)

(** main.buildcc.cpp:73-83 *)
Definition example_options : list sync_option :=
  [ PreprocessorFlags; CppCompileFlags; LinkFlags; HeaderFiles; IncludeDirs; LibDeps; ExternalLibDeps ].
(** main.buildcc.cpp:48-49 *)
Definition example_new (p : project) (tc : toolchain) : outcome target :=
  generic_class p "buildcc_hybrid_simple_example" KExecutable tc (env_relative p "example/hybrid/simple") None.
(** main.buildcc.cpp:71-87 hybrid_simple_example_cb *)
Definition example_cb (t b : target) (ls : listing) : outcome target :=
  bind (describe t ls [AddLibDepTarget (g_env b)]) (fun t1 =>
    describe (insert_from t1 (g_user b) example_options) ls [AddSource "build.cpp" ""]).
(** main.buildcc.cpp:38-56 *)
Definition bootstrap_prog (clean build test : bool) (tpl b ex : string) : list api :=
  let h := ViaToolchain build test in
  [ AInit true; AFunc (ViaCall clean) "clean_cb" []; AFunc h "verify" []; AFunc h "package" (package_prog build test tpl b);
    ABuild h ex "hybrid_simple_example_cb" []; ADep build test ex b ].

(** The targets as they are built, in the order of their Build() calls. *)
Definition bootstrap_targets (p : project) (tc : toolchain) (h : host) (ls : listing) : outcome (list target) :=
  bind (package_new p tc (pr_root p) (pr_build p)) (fun k =>
  bind (example_new p tc) (fun ex0 =>
  bind (package_setup k tc (pr_root p) h ls) (fun k1 =>
  bind (example_cb ex0 (pk_buildcc k1) ls) (fun ex =>
  Ok [ pk_tpl k1; pk_buildcc k1; ex ])))).
