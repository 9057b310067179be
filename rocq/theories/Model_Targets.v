(** Creating targets: Project, TargetEnv, the Target constructor and the gcc,
    MinGW, msvc and generic target classes. *)
From Verif Require Import Prelude Model_Path Model_Json Model_Schema Model_Command Model_ToolchainConfig Model_Target Model_Gcc
  Model_Find Model_Sync Model_Api Model_Toolchains.

(** lib/env/src/env.cpp:22-59 Project: its three static variables. make_preferred
    is the identity on POSIX; the log settings are left out. *)
Record project := PRJ { pr_root : string; pr_build : string; pr_init : bool }.
Definition project_none : project := PRJ "" "" false.
Definition project_init (root build : string) : project := PRJ root build true.
Definition project_deinit (p : project) : project := project_none.

(** lib/target/include/target/common/target_env.h:47-77 TargetEnv: GetTargetRootDir()
    and GetTargetBuildDir(); [relative_] is never read. *)
Record target_env := ENV { en_root : string; en_build : string }.
Definition env_relative (p : project) (rel : string) : target_env := ENV (path_div (pr_root p) rel) (pr_build p).
Definition env_absolute (root build : string) : target_env := ENV root build.

(** schema/include/schema/target_type.h:26-31 TargetType; None: Undefined. *)
Definition target_type := option target_kind.

(** lib/target/include/target/target.h:68-78, 116-132, target_info.h:50-73,
    builder_interface.h:41-43, the parts that do not change while the target is
    built: paths, name and configuration ([tenv]), toolchain, type, unique_id_,
    GetBinaryPath(), the name of tf_ and the options user_. *)
Record target := TGT {
  g_env : tenv;
  g_toolchain : toolchain;
  g_type : target_kind;
  g_unique_id : string;
  g_binary : string;
  g_task : string;
  g_user : tschema }.
Definition with_user (t : target) (u : tschema) : target :=
  TGT (g_env t) (g_toolchain t) (g_type t) (g_unique_id t) (g_binary t) (g_task t) u.

(** target.h:68-78, lib/target/src/target/target.cpp:32-43, 49-62. Creating the
    directory is not modelled (a failure is an exception, which ends the build
    script). The executables are those the toolchain has when the target is
    created; Build reads them later. *)
Definition construct_target (p : project) (name : string) (ty : target_type) (tc : toolchain) (env : target_env)
  (cf : target_config) : outcome target :=
  if negb (pr_init p) then Fatal
  else match ty with
       | None => Fatal
       | Some k =>
           let build := path_div (path_div (en_build env) (k_name tc)) name in
           let x := k_exes tc in
           Ok (TGT (TE (en_root env) build name (tf_ext cf) (k_config tc) (x_as x) (x_c x) (x_cpp x) (x_ar x) (x_link x)
                       (tf_pch cf) (tf_compile cf) (Model_Gcc.tf_link cf))
                   tc k ("[" +++ k_name tc +++ "] " +++ name) (path_div build (name +++ ".bin"))
                   (to_display_string (lexically_relative (target_output_path build name (tf_ext cf)) (pr_build p)))
                   (new_target (k_flags tc)))
       end.

Definition add_flag_to (t : target) (k : flag_kind) (f : string) : target := with_user t (add_flag (g_user t) k f).
Definition bind_target (r : outcome target) (f : target -> target) : outcome target :=
  match r with Ok t => Ok (f t) | Fatal => Fatal end.

Definition header_of (t : target) : string :=       (* GetPchHeaderPath() *)
  pch_header_path (te_build (g_env t)) (tc_pch_header_ext (te_tc (g_env t))).
Definition pch_of (t : target) : string :=          (* GetPchCompilePath() *)
  pch_compile_path (te_build (g_env t)) (tc_pch_header_ext (te_tc (g_env t))) (tc_pch_compile_ext (te_tc (g_env t))).

(** targets/include/targets/target_gcc.h:74-79 DefaultGccOptions *)
Definition default_gcc_options (t : target) : target :=
  let t1 := add_flag_to t FPchObject ("-include " +++ to_display_string (replace_extension (pch_of t) "")) in
  add_flag_to t1 FPchObject "-H".
(** target_gcc.h:81-110 ExecutableTarget_gcc, StaticTarget_gcc, DynamicTarget_gcc
    with a given TargetConfig *)
Definition gcc_class (p : project) (name : string) (k : target_kind) (tc : toolchain) (env : target_env) (cf : target_config)
  : outcome target :=
  bind_target (construct_target p name (Some k) tc env cf)
    (fun t => default_gcc_options (match k with KDynamic => add_flag_to t FCommon "-fpic" | _ => t end)).
(** ... and with the default one; target_mingw.h:64-80 *)
Definition gcc_target p name k tc env := gcc_class p name k tc env (gcc_config k).
Definition mingw_target p name k tc env := gcc_class p name k tc env (mingw_config k).

(** targets/include/targets/target_msvc.h:28-52 *)
Definition msvc_pch_command : string :=
  "{compiler} {preprocessor_flags} {include_dirs} {common_compile_flags} /Yc{input} /FI{input} /Fp{output} {pch_compile_flags} {compile_flags} /Fo{pch_object_output} /c {input_source}".
Definition msvc_compile_command : string :=
  "{compiler} {preprocessor_flags} {include_dirs} {common_compile_flags} {pch_object_flags} {compile_flags} /Fo{output} /c {input}".
Definition msvc_executable_link : string :=
  "{linker} {link_flags} {lib_dirs} /OUT:{output} {lib_deps} {compiled_sources} {pch_object_output}".
Definition msvc_static_link : string :=
  "{archiver} {link_flags} /OUT:{output} {compiled_sources} {pch_object_output}".
Definition msvc_dynamic_link : string :=
  "{linker} /DLL {link_flags} /OUT:{output}.dll /IMPLIB:{output} {compiled_sources} {pch_object_output}".
(** target_msvc.h:54-80 MsvcConfig *)
Definition msvc_config (k : target_kind) : target_config :=
  match k with
  | KExecutable => TConf ".exe" msvc_pch_command msvc_compile_command msvc_executable_link
  | KStatic => TConf ".lib" msvc_pch_command msvc_compile_command msvc_static_link
  | KDynamic => TConf ".lib" msvc_pch_command msvc_compile_command msvc_dynamic_link
  end.
(** target_msvc.h:82-90 DefaultMsvcOptions *)
Definition default_msvc_options (t : target) : target :=
  let t1 := add_flag_to t FC "/nologo" in
  let t2 := add_flag_to t1 FCpp "/nologo" in
  let t3 := add_flag_to t2 FCpp "/EHsc" in
  let t4 := add_flag_to t3 FLink "/nologo" in
  let t5 := add_flag_to t4 FPchObject ("/Yu" +++ to_display_string (header_of t)) in
  let t6 := add_flag_to t5 FPchObject ("/FI" +++ to_display_string (header_of t)) in
  add_flag_to t6 FPchObject ("/Fp" +++ to_display_string (pch_of t)).
(** target_msvc.h:92-126; the stored path of the DLL is left out. *)
Definition msvc_class (p : project) (name : string) (k : target_kind) (tc : toolchain) (env : target_env) (cf : target_config)
  : outcome target :=
  bind_target (construct_target p name (Some k) tc env cf) default_msvc_options.
Definition msvc_target p name k tc env := msvc_class p name k tc env (msvc_config k).

(** targets/include/targets/target_generic.h:31-36 kGenericCopyOptions *)
Definition generic_copy_options : list sync_option :=
  [ CommonCompileFlags; PchCompileFlags; PchObjectFlags; AsmCompileFlags; CCompileFlags; CppCompileFlags; LinkFlags ].
(** target_generic.h:60-132 GenericConfig::Executable, StaticLib, DynamicLib *)
Definition generic_config (k : target_kind) (id : toolchain_id) : outcome target_config :=
  match id with
  | Gcc => Ok (gcc_config k)
  | Msvc => Ok (msvc_config k)
  | MinGW => Ok (mingw_config k)
  | Clang | Custom | UndefinedId => Fatal
  end.
(** Copy(temporary, kGenericCopyOptions): the temporary is an rvalue
    (sync_api.h:57). *)
Definition copy_from (t : target) (r : outcome target) : outcome target :=
  match r with
  | Ok o => Ok (with_user t (fst (copy ByMove (g_user t) (g_user o) generic_copy_options)))
  | Fatal => Fatal
  end.
(** target_generic.h:135-209 ExecutableTarget_generic, StaticTarget_generic,
    DynamicTarget_generic. The argument of value_or is evaluated in any case. *)
Definition generic_class (p : project) (name : string) (k : target_kind) (tc : toolchain) (env : target_env)
  (op_cf : option target_config) : outcome target :=
  match generic_config k (k_id tc) with
  | Fatal => Fatal
  | Ok def =>
      match construct_target p name (Some k) tc env (value_or op_cf def) with
      | Fatal => Fatal
      | Ok t =>
          match k_id tc with
          | Gcc => copy_from t (gcc_target p name k tc env)
          | Msvc => copy_from t (msvc_target p name k tc env)
          | MinGW => copy_from t (mingw_target p name k tc env)
          | Clang | Custom | UndefinedId => Fatal
          end
      end
  end.
(** target_generic.h:40-58 GenericConfig::Generic, 211-234 Target_generic *)
Definition target_generic (p : project) (name : string) (ty : target_type) (tc : toolchain) (env : target_env)
  (op_cf : option target_config) : outcome target :=
  match ty with
  | None => Fatal
  | Some k =>
      match generic_config k (k_id tc) with
      | Fatal => Fatal
      | Ok def =>
          match construct_target p name ty tc env (value_or op_cf def) with
          | Fatal => Fatal
          | Ok t => copy_from t (generic_class p name k tc env None)
          end
      end
  end.

(** The calls on a created target (Model_Api). *)
Definition call_env (t : target) (ls : listing) : apienv := AE (te_tc (g_env t)) (te_root (g_env t)) ls.
Definition describe (t : target) (ls : listing) (cs : list call) : outcome target :=
  match api_run (call_env t ls) (g_user t) cs with Ok u => Ok (with_user t u) | Fatal => Fatal end.

(** The files a target writes: state file, output, the object of each source; the
    PCH header, source, object and compiled PCH (compile_pch.cpp:60-143; the source
    is saved under its display string, compile_pch.cpp:112-117). *)
Definition target_writes (t : target) : list string :=
  let e := g_env t in let x := te_tc e in
  g_binary t :: target_output_path (te_build e) (te_name e) (te_ext e) ::
  map (obj_of e) (il_paths (ts_sources (g_user t))) ++
  match ts_pchs (g_user t) with
  | [] => []
  | _ => [ header_of t; pch_of t; pch_object_path (te_build e) (tc_pch_header_ext x) (tc_obj_ext x);
           pch_source_saved_as (te_build e) (tc_pch_header_ext x)
             (existsb (fun s => match get_file_ext x s with ExtCpp => true | _ => false end) (il_paths (ts_sources (g_user t)))) ]
  end.
