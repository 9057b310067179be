(** Copy and Insert of target options. lib/target/src/api/sync_api.cpp.
    The two targets are distinct objects (t.Insert(t, ..) would pass a vector its
    own iterators, which is undefined). Values of SyncOption outside the
    enumeration (sync_api.cpp:97, 205, fatal) cannot be written without a cast
    and are not modelled. *)
From Verif Require Import Prelude Model_Path Model_Json Model_Schema.

(** lib/target/include/target/api/sync_api.h:24-42 *)
Inductive sync_option :=
| SourceFiles
| HeaderFiles
| PchFiles
| LibDeps
| IncludeDirs
| LibDirs
| ExternalLibDeps
| PreprocessorFlags
| CommonCompileFlags
| PchCompileFlags
| PchObjectFlags
| AsmCompileFlags
| CCompileFlags
| CppCompileFlags
| LinkFlags
| CompileDependencies
| LinkDependencies.

(** Is the other target passed by const reference or by rvalue reference
    (sync_api.h:49-68)? *)
Inductive passing := ByRef | ByMove.

(** Assignments to one member of user_. *)
Definition put_sources (s : tschema) (v : infolist) : tschema :=
  TS (ts_name s) (ts_type s) v (ts_headers s) (ts_pchs s) (ts_libs s) (ts_external_libs s) (ts_include_dirs s) (ts_lib_dirs s) (ts_preprocessor_flags s) (ts_common_compile_flags s) (ts_pch_compile_flags s) (ts_pch_object_flags s) (ts_asm_compile_flags s) (ts_c_compile_flags s) (ts_cpp_compile_flags s) (ts_link_flags s) (ts_compile_deps s) (ts_link_deps s) (ts_pch_compiled s) (ts_target_linked s).
Definition put_headers (s : tschema) (v : infolist) : tschema :=
  TS (ts_name s) (ts_type s) (ts_sources s) v (ts_pchs s) (ts_libs s) (ts_external_libs s) (ts_include_dirs s) (ts_lib_dirs s) (ts_preprocessor_flags s) (ts_common_compile_flags s) (ts_pch_compile_flags s) (ts_pch_object_flags s) (ts_asm_compile_flags s) (ts_c_compile_flags s) (ts_cpp_compile_flags s) (ts_link_flags s) (ts_compile_deps s) (ts_link_deps s) (ts_pch_compiled s) (ts_target_linked s).
Definition put_pchs (s : tschema) (v : infolist) : tschema :=
  TS (ts_name s) (ts_type s) (ts_sources s) (ts_headers s) v (ts_libs s) (ts_external_libs s) (ts_include_dirs s) (ts_lib_dirs s) (ts_preprocessor_flags s) (ts_common_compile_flags s) (ts_pch_compile_flags s) (ts_pch_object_flags s) (ts_asm_compile_flags s) (ts_c_compile_flags s) (ts_cpp_compile_flags s) (ts_link_flags s) (ts_compile_deps s) (ts_link_deps s) (ts_pch_compiled s) (ts_target_linked s).
Definition put_libs (s : tschema) (v : infolist) : tschema :=
  TS (ts_name s) (ts_type s) (ts_sources s) (ts_headers s) (ts_pchs s) v (ts_external_libs s) (ts_include_dirs s) (ts_lib_dirs s) (ts_preprocessor_flags s) (ts_common_compile_flags s) (ts_pch_compile_flags s) (ts_pch_object_flags s) (ts_asm_compile_flags s) (ts_c_compile_flags s) (ts_cpp_compile_flags s) (ts_link_flags s) (ts_compile_deps s) (ts_link_deps s) (ts_pch_compiled s) (ts_target_linked s).
Definition put_include_dirs (s : tschema) (v : pathlist) : tschema :=
  TS (ts_name s) (ts_type s) (ts_sources s) (ts_headers s) (ts_pchs s) (ts_libs s) (ts_external_libs s) v (ts_lib_dirs s) (ts_preprocessor_flags s) (ts_common_compile_flags s) (ts_pch_compile_flags s) (ts_pch_object_flags s) (ts_asm_compile_flags s) (ts_c_compile_flags s) (ts_cpp_compile_flags s) (ts_link_flags s) (ts_compile_deps s) (ts_link_deps s) (ts_pch_compiled s) (ts_target_linked s).
Definition put_lib_dirs (s : tschema) (v : pathlist) : tschema :=
  TS (ts_name s) (ts_type s) (ts_sources s) (ts_headers s) (ts_pchs s) (ts_libs s) (ts_external_libs s) (ts_include_dirs s) v (ts_preprocessor_flags s) (ts_common_compile_flags s) (ts_pch_compile_flags s) (ts_pch_object_flags s) (ts_asm_compile_flags s) (ts_c_compile_flags s) (ts_cpp_compile_flags s) (ts_link_flags s) (ts_compile_deps s) (ts_link_deps s) (ts_pch_compiled s) (ts_target_linked s).
Definition put_external_libs (s : tschema) (v : list string) : tschema :=
  TS (ts_name s) (ts_type s) (ts_sources s) (ts_headers s) (ts_pchs s) (ts_libs s) v (ts_include_dirs s) (ts_lib_dirs s) (ts_preprocessor_flags s) (ts_common_compile_flags s) (ts_pch_compile_flags s) (ts_pch_object_flags s) (ts_asm_compile_flags s) (ts_c_compile_flags s) (ts_cpp_compile_flags s) (ts_link_flags s) (ts_compile_deps s) (ts_link_deps s) (ts_pch_compiled s) (ts_target_linked s).
Definition put_preprocessor_flags (s : tschema) (v : list string) : tschema :=
  TS (ts_name s) (ts_type s) (ts_sources s) (ts_headers s) (ts_pchs s) (ts_libs s) (ts_external_libs s) (ts_include_dirs s) (ts_lib_dirs s) v (ts_common_compile_flags s) (ts_pch_compile_flags s) (ts_pch_object_flags s) (ts_asm_compile_flags s) (ts_c_compile_flags s) (ts_cpp_compile_flags s) (ts_link_flags s) (ts_compile_deps s) (ts_link_deps s) (ts_pch_compiled s) (ts_target_linked s).
Definition put_common_compile_flags (s : tschema) (v : list string) : tschema :=
  TS (ts_name s) (ts_type s) (ts_sources s) (ts_headers s) (ts_pchs s) (ts_libs s) (ts_external_libs s) (ts_include_dirs s) (ts_lib_dirs s) (ts_preprocessor_flags s) v (ts_pch_compile_flags s) (ts_pch_object_flags s) (ts_asm_compile_flags s) (ts_c_compile_flags s) (ts_cpp_compile_flags s) (ts_link_flags s) (ts_compile_deps s) (ts_link_deps s) (ts_pch_compiled s) (ts_target_linked s).
Definition put_pch_compile_flags (s : tschema) (v : list string) : tschema :=
  TS (ts_name s) (ts_type s) (ts_sources s) (ts_headers s) (ts_pchs s) (ts_libs s) (ts_external_libs s) (ts_include_dirs s) (ts_lib_dirs s) (ts_preprocessor_flags s) (ts_common_compile_flags s) v (ts_pch_object_flags s) (ts_asm_compile_flags s) (ts_c_compile_flags s) (ts_cpp_compile_flags s) (ts_link_flags s) (ts_compile_deps s) (ts_link_deps s) (ts_pch_compiled s) (ts_target_linked s).
Definition put_pch_object_flags (s : tschema) (v : list string) : tschema :=
  TS (ts_name s) (ts_type s) (ts_sources s) (ts_headers s) (ts_pchs s) (ts_libs s) (ts_external_libs s) (ts_include_dirs s) (ts_lib_dirs s) (ts_preprocessor_flags s) (ts_common_compile_flags s) (ts_pch_compile_flags s) v (ts_asm_compile_flags s) (ts_c_compile_flags s) (ts_cpp_compile_flags s) (ts_link_flags s) (ts_compile_deps s) (ts_link_deps s) (ts_pch_compiled s) (ts_target_linked s).
Definition put_asm_compile_flags (s : tschema) (v : list string) : tschema :=
  TS (ts_name s) (ts_type s) (ts_sources s) (ts_headers s) (ts_pchs s) (ts_libs s) (ts_external_libs s) (ts_include_dirs s) (ts_lib_dirs s) (ts_preprocessor_flags s) (ts_common_compile_flags s) (ts_pch_compile_flags s) (ts_pch_object_flags s) v (ts_c_compile_flags s) (ts_cpp_compile_flags s) (ts_link_flags s) (ts_compile_deps s) (ts_link_deps s) (ts_pch_compiled s) (ts_target_linked s).
Definition put_c_compile_flags (s : tschema) (v : list string) : tschema :=
  TS (ts_name s) (ts_type s) (ts_sources s) (ts_headers s) (ts_pchs s) (ts_libs s) (ts_external_libs s) (ts_include_dirs s) (ts_lib_dirs s) (ts_preprocessor_flags s) (ts_common_compile_flags s) (ts_pch_compile_flags s) (ts_pch_object_flags s) (ts_asm_compile_flags s) v (ts_cpp_compile_flags s) (ts_link_flags s) (ts_compile_deps s) (ts_link_deps s) (ts_pch_compiled s) (ts_target_linked s).
Definition put_cpp_compile_flags (s : tschema) (v : list string) : tschema :=
  TS (ts_name s) (ts_type s) (ts_sources s) (ts_headers s) (ts_pchs s) (ts_libs s) (ts_external_libs s) (ts_include_dirs s) (ts_lib_dirs s) (ts_preprocessor_flags s) (ts_common_compile_flags s) (ts_pch_compile_flags s) (ts_pch_object_flags s) (ts_asm_compile_flags s) (ts_c_compile_flags s) v (ts_link_flags s) (ts_compile_deps s) (ts_link_deps s) (ts_pch_compiled s) (ts_target_linked s).
Definition put_link_flags (s : tschema) (v : list string) : tschema :=
  TS (ts_name s) (ts_type s) (ts_sources s) (ts_headers s) (ts_pchs s) (ts_libs s) (ts_external_libs s) (ts_include_dirs s) (ts_lib_dirs s) (ts_preprocessor_flags s) (ts_common_compile_flags s) (ts_pch_compile_flags s) (ts_pch_object_flags s) (ts_asm_compile_flags s) (ts_c_compile_flags s) (ts_cpp_compile_flags s) v (ts_compile_deps s) (ts_link_deps s) (ts_pch_compiled s) (ts_target_linked s).
Definition put_compile_deps (s : tschema) (v : infolist) : tschema :=
  TS (ts_name s) (ts_type s) (ts_sources s) (ts_headers s) (ts_pchs s) (ts_libs s) (ts_external_libs s) (ts_include_dirs s) (ts_lib_dirs s) (ts_preprocessor_flags s) (ts_common_compile_flags s) (ts_pch_compile_flags s) (ts_pch_object_flags s) (ts_asm_compile_flags s) (ts_c_compile_flags s) (ts_cpp_compile_flags s) (ts_link_flags s) v (ts_link_deps s) (ts_pch_compiled s) (ts_target_linked s).
Definition put_link_deps (s : tschema) (v : infolist) : tschema :=
  TS (ts_name s) (ts_type s) (ts_sources s) (ts_headers s) (ts_pchs s) (ts_libs s) (ts_external_libs s) (ts_include_dirs s) (ts_lib_dirs s) (ts_preprocessor_flags s) (ts_common_compile_flags s) (ts_pch_compile_flags s) (ts_pch_object_flags s) (ts_asm_compile_flags s) (ts_c_compile_flags s) (ts_cpp_compile_flags s) (ts_link_flags s) (ts_compile_deps s) v (ts_pch_compiled s) (ts_target_linked s).

(** What std::move leaves behind in a vector that is assigned from: nothing
    (libstdc++; the standard only says unspecified). For a const reference
    std::move has no effect. *)
Definition moved_list {A} (m : passing) (l : list A) : list A := match m with ByRef => l | ByMove => [] end.
(** What moving the elements out of a vector of strings leaves behind: as many
    empty strings (libstdc++). *)
Definition moved_strings (m : passing) (l : list string) : list string :=
  match m with ByRef => l | ByMove => map (fun _ => EmptyString) l end.

(** sync_api.cpp:45-100, one round of the loop of SpecializedCopy: the target and
    the other target afterwards. *)
Definition copy_one (m : passing) (to : tschema * tschema) (x : sync_option) : tschema * tschema :=
  let (t, o) := to in
  match x with
  | SourceFiles => (put_sources t (ts_sources o), put_sources o (moved_list m (ts_sources o)))
  | HeaderFiles => (put_headers t (ts_headers o), put_headers o (moved_list m (ts_headers o)))
  | PchFiles => (put_pchs t (ts_pchs o), put_pchs o (moved_list m (ts_pchs o)))
  | LibDeps => (put_libs t (ts_libs o), put_libs o (moved_list m (ts_libs o)))
  | IncludeDirs => (put_include_dirs t (ts_include_dirs o), put_include_dirs o (moved_list m (ts_include_dirs o)))
  | LibDirs => (put_lib_dirs t (ts_lib_dirs o), put_lib_dirs o (moved_list m (ts_lib_dirs o)))
  | ExternalLibDeps => (put_external_libs t (ts_external_libs o), put_external_libs o (moved_list m (ts_external_libs o)))
  | PreprocessorFlags => (put_preprocessor_flags t (ts_preprocessor_flags o), put_preprocessor_flags o (moved_list m (ts_preprocessor_flags o)))
  | CommonCompileFlags => (put_common_compile_flags t (ts_common_compile_flags o), put_common_compile_flags o (moved_list m (ts_common_compile_flags o)))
  | PchCompileFlags => (put_pch_compile_flags t (ts_pch_compile_flags o), put_pch_compile_flags o (moved_list m (ts_pch_compile_flags o)))
  | PchObjectFlags => (put_pch_object_flags t (ts_pch_object_flags o), put_pch_object_flags o (moved_list m (ts_pch_object_flags o)))
  | AsmCompileFlags => (put_asm_compile_flags t (ts_asm_compile_flags o), put_asm_compile_flags o (moved_list m (ts_asm_compile_flags o)))
  | CCompileFlags => (put_c_compile_flags t (ts_c_compile_flags o), put_c_compile_flags o (moved_list m (ts_c_compile_flags o)))
  | CppCompileFlags => (put_cpp_compile_flags t (ts_cpp_compile_flags o), put_cpp_compile_flags o (moved_list m (ts_cpp_compile_flags o)))
  | LinkFlags => (put_link_flags t (ts_link_flags o), put_link_flags o (moved_list m (ts_link_flags o)))
  | CompileDependencies => (put_compile_deps t (ts_compile_deps o), put_compile_deps o (moved_list m (ts_compile_deps o)))
  | LinkDependencies => (put_link_deps t (ts_link_deps o), put_link_deps o (moved_list m (ts_link_deps o)))
  end.
(** sync_api.cpp:26-37, 40-102 Copy *)
Definition copy (m : passing) (t o : tschema) (xs : list sync_option) : tschema * tschema :=
  fold_left (copy_one m) xs (t, o).

(** sync_api.cpp:121-208, one round of the loop of SpecializedInsert. The lists
    of strings are appended through move iterators; PathList::Insert and
    PathInfoList::Insert (schema/path.h:119, 174) take a const reference. *)
Definition insert_one (m : passing) (to : tschema * tschema) (x : sync_option) : tschema * tschema :=
  let (t, o) := to in
  match x with
  | SourceFiles => (put_sources t (il_insert (ts_sources t) (ts_sources o)), o)
  | HeaderFiles => (put_headers t (il_insert (ts_headers t) (ts_headers o)), o)
  | PchFiles => (put_pchs t (il_insert (ts_pchs t) (ts_pchs o)), o)
  | LibDeps => (put_libs t (il_insert (ts_libs t) (ts_libs o)), o)
  | IncludeDirs => (put_include_dirs t (pl_insert (ts_include_dirs t) (ts_include_dirs o)), o)
  | LibDirs => (put_lib_dirs t (pl_insert (ts_lib_dirs t) (ts_lib_dirs o)), o)
  | ExternalLibDeps => (put_external_libs t (ts_external_libs t ++ ts_external_libs o), put_external_libs o (moved_strings m (ts_external_libs o)))
  | PreprocessorFlags => (put_preprocessor_flags t (ts_preprocessor_flags t ++ ts_preprocessor_flags o), put_preprocessor_flags o (moved_strings m (ts_preprocessor_flags o)))
  | CommonCompileFlags => (put_common_compile_flags t (ts_common_compile_flags t ++ ts_common_compile_flags o), put_common_compile_flags o (moved_strings m (ts_common_compile_flags o)))
  | PchCompileFlags => (put_pch_compile_flags t (ts_pch_compile_flags t ++ ts_pch_compile_flags o), put_pch_compile_flags o (moved_strings m (ts_pch_compile_flags o)))
  | PchObjectFlags => (put_pch_object_flags t (ts_pch_object_flags t ++ ts_pch_object_flags o), put_pch_object_flags o (moved_strings m (ts_pch_object_flags o)))
  | AsmCompileFlags => (put_asm_compile_flags t (ts_asm_compile_flags t ++ ts_asm_compile_flags o), put_asm_compile_flags o (moved_strings m (ts_asm_compile_flags o)))
  | CCompileFlags => (put_c_compile_flags t (ts_c_compile_flags t ++ ts_c_compile_flags o), put_c_compile_flags o (moved_strings m (ts_c_compile_flags o)))
  | CppCompileFlags => (put_cpp_compile_flags t (ts_cpp_compile_flags t ++ ts_cpp_compile_flags o), put_cpp_compile_flags o (moved_strings m (ts_cpp_compile_flags o)))
  | LinkFlags => (put_link_flags t (ts_link_flags t ++ ts_link_flags o), put_link_flags o (moved_strings m (ts_link_flags o)))
  | CompileDependencies => (put_compile_deps t (il_insert (ts_compile_deps t) (ts_compile_deps o)), o)
  | LinkDependencies => (put_link_deps t (il_insert (ts_link_deps t) (ts_link_deps o)), o)
  end.
(** sync_api.cpp:105-119 Insert *)
Definition insert (m : passing) (t o : tschema) (xs : list sync_option) : tschema * tschema :=
  fold_left (insert_one m) xs (t, o).
