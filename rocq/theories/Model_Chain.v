(** The example program with generated sources,
    /repo/example/hybrid/dep_chaining/build.cpp (lines cited are of this file).

    Not modelled: the clean callback, Args (Model_Args.v; here the flags it leaves
    behind), what is done after Reg::Run (66-75: ClangCompileCommands, graph.dot)
    and what python/gen.py writes. *)
From Verif Require Import Prelude Model_Path Model_Json Model_Schema Model_Command Model_ToolchainConfig Model_Target Model_Gcc Model_Gen Model_FileGen
  Model_Find Model_Sync Model_Api Model_Toolchains Model_Targets Model_Reg Model_Script.

(** ** The generators *)

(** FileGenerator(name, "") (33-34): lib/target/include/target/custom_generator.h:65-72,
    lib/target/src/custom_generator/custom_generator.cpp:242-259 under /repo/buildcc *)
Definition generator_new (p : project) (name : string) : fgen :=
  let env := env_relative p "" in
  fgen_new (gen_new (to_path_string (pr_root p)) (to_path_string (pr_build p))
    (to_path_string (en_root env)) (to_path_string (path_div (en_build env) name))).
(** 99-106 cpp_generator_cb *)
Definition cpp_generator_cb (f : fgen) : ares fgen :=
  fdo_all f [ FPattern "main_cpp" "{current_build_dir}/main.cpp"; FOutput "{main_cpp}";
    FCommand "python3 {current_root_dir}/python/gen.py --source_type cpp --destination {main_cpp}" [] ].
(** 108-115 c_generator_cb *)
Definition c_generator_cb (f : fgen) : ares fgen :=
  fdo_all f [ FPattern "main_c" "{current_build_dir}/main.c"; FOutput "{main_c}";
    FCommand "python3 {current_root_dir}/python/gen.py --source_type c --destination {main_c}" [] ].

(** ** The targets *)

(** 41, 52: Toolchain_gcc gcc; Toolchain_msvc msvc; *)
Definition chain_gcc : toolchain := construct_toolchain Gcc "gcc" gnu_exes None.
Definition chain_msvc : toolchain := construct_toolchain Msvc "msvc" msvc_exes None.
(** 42-43, 53-54 *)
Definition obind {A B} (r : outcome A) (f : A -> outcome B) : outcome B :=
  match r with Ok a => f a | Fatal => Fatal end.
Definition chain_targets (p : project) : outcome (list target) :=
  let env := env_relative p "" in
  obind (gcc_target p "cpptarget" KExecutable chain_gcc env) (fun gcpp =>
  obind (gcc_target p "ctarget" KExecutable chain_gcc env) (fun gc =>
  obind (msvc_target p "cpptarget" KExecutable chain_msvc env) (fun mcpp =>
  obind (msvc_target p "ctarget" KExecutable chain_msvc env) (fun mc =>
  Ok [gcpp; gc; mcpp; mc])))).
(** The objects of the script. *)
Definition chain_objects (ts : list target) : list (string * node) :=
  map (fun t => (g_unique_id t, ND (te_tc (g_env t)) (te_root (g_env t)) (g_user t))) ts.

(** 84-90 cpp_target_cb, 92-97 c_target_cb: the added source. Get:
    custom_generator.cpp:207-210. *)
Definition generated_source (p : project) (g : fgen) (key : string) : ares string :=
  match get_default_value (go_args (fg_base g)) key with
  | Ok v => AOk (lexically_relative v (pr_root p))
  | Fatal => AFatal
  end.

(** ** main *)

Definition abind {A B} (r : ares A) (f : A -> ares B) : ares B :=
  match r with AOk a => f a | AFatal => AFatal | AOther => AOther end.
(** 35-37, 44-46, 55-57: what the callbacks do to the targets and which generators
    are built; [g], [m]: arg_gcc.state.build, arg_msvc.state.build. *)
Definition chain_main (p : project) (ls : listing) (g m : bool) : ares (list stmt * list (string * gobj)) :=
  abind (cpp_generator_cb (generator_new p "cpp_generator")) (fun a =>
  abind (fbuild a) (fun oa =>
  abind (c_generator_cb (generator_new p "c_generator")) (fun b =>
  abind (fbuild b) (fun ob =>
  abind (generated_source p a "main_cpp") (fun cpp =>
  abind (generated_source p b "main_c") (fun c =>
  let targets x1 x2 := [ SCalls x1 ls [AddSource cpp ""]; SBuild x1; SCalls x2 ls [AddSource c ""]; SBuild x2 ] in
  AOk ((if g then targets "[gcc] cpptarget" "[gcc] ctarget" else []) ++
       (if m then targets "[msvc] cpptarget" "[msvc] ctarget" else []),
       [("cpp_generator", oa); ("c_generator", ob)]))))))).
(** 27-61: the calls of Reg. *)
Definition chain_prog (clean g gt m mt : bool) : list api :=
  let part b t cpp c :=
    [ ABuild (ViaToolchain b t) cpp "cpp_target_cb" []; ABuild (ViaToolchain b t) c "c_target_cb" [];
      ADep b t cpp "cpp_generator"; ADep b t c "c_generator"; ATest b t cpp "{executable}" []; ATest b t c "{executable}" [] ] in
  [ AInit true; AFunc (ViaCall clean) "clean_cb" [];
    ABuild (ViaCall true) "cpp_generator" "cpp_generator_cb" []; ABuild (ViaCall true) "c_generator" "c_generator_cb" [] ] ++
  part g gt "[gcc] cpptarget" "[gcc] ctarget" ++ part m mt "[msvc] cpptarget" "[msvc] ctarget".
