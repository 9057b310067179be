(** The gcc and MinGW target configurations: command templates and default options. *)
From Verif Require Import Prelude Model_Path Model_Command Model_ToolchainConfig Model_Target.

(** targets/include/targets/target_gcc.h:28-45; the same three templates are the
    defaults of lib/target/include/target/common/target_config.h:34-36. *)
Definition gcc_pch_command : string :=
  "{compiler} {preprocessor_flags} {include_dirs} {common_compile_flags} {pch_compile_flags} {compile_flags} -o {output} -c {input}".
Definition gcc_compile_command : string :=
  "{compiler} {preprocessor_flags} {include_dirs} {common_compile_flags} {pch_object_flags} {compile_flags} -o {output} -c {input}".
Definition gcc_executable_link : string :=
  "{cpp_compiler} {link_flags} {compiled_sources} -o {output} {lib_dirs} {lib_deps}".
Definition gcc_static_link : string := "{archiver} rcs {output} {compiled_sources}".
Definition gcc_dynamic_link : string :=
  "{cpp_compiler} -shared {link_flags} {compiled_sources} -o {output}".
(** targets/include/targets/target_mingw.h:33-35 *)
Definition mingw_dynamic_link : string :=
  "{cpp_compiler} -shared {link_flags} {compiled_sources} -o {output} -Wl,--out-implib,{output}.a".

(** lib/target/include/target/common/target_config.h:28-38 [TargetConfig] *)
Record target_config := TConf { tf_ext : string; tf_pch : string; tf_compile : string; tf_link : string }.
(** target_gcc.h:46-72 [GccConfig]: Executable, StaticLib, DynamicLib *)
Inductive target_kind := KExecutable | KStatic | KDynamic.
Definition gcc_config (k : target_kind) : target_config :=
  match k with
  | KExecutable => TConf "" gcc_pch_command gcc_compile_command gcc_executable_link
  | KStatic => TConf ".a" gcc_pch_command gcc_compile_command gcc_static_link
  | KDynamic => TConf ".so" gcc_pch_command gcc_compile_command gcc_dynamic_link
  end.
(** target_mingw.h:37-62 [MingwConfig] *)
Definition mingw_config (k : target_kind) : target_config :=
  match k with
  | KExecutable => TConf ".exe" gcc_pch_command gcc_compile_command gcc_executable_link
  | KStatic => gcc_config KStatic
  | KDynamic => TConf ".dll" gcc_pch_command gcc_compile_command mingw_dynamic_link
  end.

(** target.h:68-78: the constructor's view of a target with that configuration. *)
Definition configured (e : tenv) (t : target_config) : tenv :=
  TE (te_root e) (te_build e) (te_name e) (tf_ext t) (te_tc e) (te_asm e) (te_cc e) (te_cxx e) (te_ar e) (te_ld e)
     (tf_pch t) (tf_compile t) (tf_link t).

(** target_gcc.h:74-79 [DefaultGccOptions]; GetPchCompilePath() is
    [pch_compile_path]; fmt prints the path as display string. *)
Definition gcc_pch_object_flags (e : tenv) : list string :=
  [ "-include " +++ to_display_string
      (replace_extension (pch_compile_path (te_build e) (tc_pch_header_ext (te_tc e)) (tc_pch_compile_ext (te_tc e))) "");
    "-H" ].
(** target_gcc.h:81-110, target_mingw.h:64-80: the constructors of the target
    classes; what the user adds comes after them. For a toolchain without flags of
    its own; Model_Targets has the general case. *)
Definition gcc_options (e : tenv) (k : target_kind) (c : cfg) : cfg :=
  CFG (c_sources c) (c_headers c) (c_pchs c) (c_libs c) (c_external_libs c) (c_include_dirs c) (c_lib_dirs c)
      (c_preprocessor c) ((match k with KDynamic => ["-fpic"] | _ => [] end) ++ c_common c) (c_pch_compile c)
      (gcc_pch_object_flags e ++ c_pch_object c) (c_asm_flags c) (c_c_flags c) (c_cpp_flags c) (c_link c)
      (c_compile_deps c) (c_link_deps c).
