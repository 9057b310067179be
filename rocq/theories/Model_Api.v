(** The calls that describe a target: lib/target/include/target/api/*.h,
    lib/toolchain/include/toolchain/api/flag_api.h and
    lib/target/src/target_info/target_info.cpp.

    [Fatal] is an assertion failure (env::assert_fatal) or the exception that
    fs::directory_iterator throws for a directory it cannot open; both end the
    build script. *)
From Verif Require Import Prelude Model_Path Model_Json Model_Schema Model_ToolchainConfig Model_Target Model_Sync.

(** The flags of a toolchain (toolchain.h, flag_api.h:70-108). *)
Record tcflags := TF {
  tf_preprocessor : list string;
  tf_common : list string;
  tf_pch_compile : list string;
  tf_pch_object : list string;
  tf_asm : list string;
  tf_c : list string;
  tf_cpp : list string;
  tf_link : list string }.

(** The eight flag lists (flag_api.h:29-67). *)
Inductive flag_kind := FPre | FCommon | FPchCompile | FPchObject | FAsm | FC | FCpp | FLink.

(** The contents of a directory, as names; None: it cannot be opened. The order
    is the one in which the file system lists them. *)
Definition listing := string -> option (list string).

(** What a call looks at: toolchain configuration, GetTargetRootDir(), the file
    system. *)
Record apienv := AE { ae_tc : tconfig; ae_root : string; ae_ls : listing }.

Inductive call :=
| AddSourceAbsolute (p : string)
| GlobSourcesAbsolute (dir : string)
| AddSource (rel sub : string)
| GlobSources (sub : string)
| AddHeaderAbsolute (p : string)
| GlobHeadersAbsolute (dir : string)
| AddIncludeDirAbsolute (dir : string) (glob : bool)
| AddHeader (rel sub : string)
| GlobHeaders (sub : string)
| AddIncludeDir (rel : string) (glob : bool)
| AddPchAbsolute (p : string)
| AddPch (rel sub : string)
| AddLibDirAbsolute (p : string)
| AddLibDir (rel : string)
| AddLibDep (lib : string)
| AddLibDepTarget (t : tenv)
| AddCompileDependencyAbsolute (p : string)
| AddCompileDependency (rel : string)
| AddLinkDependencyAbsolute (p : string)
| AddLinkDependency (rel : string)
| AddFlag (k : flag_kind) (f : string).

(** source_api.h:39-44 *)
Definition add_source_absolute (a : apienv) (u : tschema) (p : string) : outcome tschema :=
  match expects_valid_source (ae_tc a) p with
  | Ok _ => Ok (put_sources u (il_emplace (ts_sources u) p ""))
  | Fatal => Fatal
  end.
(** include_api.h:45-50 *)
Definition add_header_absolute (a : apienv) (u : tschema) (p : string) : outcome tschema :=
  match expects_valid_header (ae_tc a) p with
  | Ok _ => Ok (put_headers u (il_emplace (ts_headers u) p ""))
  | Fatal => Fatal
  end.
(** pch_api.h:39-46; make_preferred is the identity on POSIX. *)
Definition add_pch_absolute (a : apienv) (u : tschema) (p : string) : outcome tschema :=
  match expects_valid_header (ae_tc a) p with
  | Ok _ => Ok (put_pchs u (il_emplace (ts_pchs u) p ""))
  | Fatal => Fatal
  end.

(** The loop over fs::directory_iterator (source_api.h:49-53, 71-75,
    include_api.h:55-59); an entry's path is the directory / its name. *)
Fixpoint glob_loop (valid : string -> bool) (add : tschema -> string -> outcome tschema)
  (dir : string) (names : list string) (u : tschema) : outcome tschema :=
  match names with
  | [] => Ok u
  | n :: r =>
      let p := path_div dir n in
      if valid p then
        match add u p with
        | Ok u1 => glob_loop valid add dir r u1
        | Fatal => Fatal
        end
      else glob_loop valid add dir r u
  end.
(** source_api.h:46-54 *)
Definition glob_sources_absolute (a : apienv) (u : tschema) (dir : string) : outcome tschema :=
  match ae_ls a dir with
  | None => Fatal
  | Some names => glob_loop (is_valid_source (ae_tc a)) (add_source_absolute a) dir names u
  end.
(** include_api.h:52-60 *)
Definition glob_headers_absolute (a : apienv) (u : tschema) (dir : string) : outcome tschema :=
  match ae_ls a dir with
  | None => Fatal
  | Some names => glob_loop (is_valid_header (ae_tc a)) (add_header_absolute a) dir names u
  end.
(** include_api.h:62-71 *)
Definition add_include_dir_absolute (a : apienv) (u : tschema) (dir : string) (glob : bool) : outcome tschema :=
  let u1 := put_include_dirs u (pl_emplace (ts_include_dirs u) dir) in
  if glob then glob_headers_absolute a u1 dir else Ok u1.

(** flag_api.h:29-67 *)
Definition add_flag (u : tschema) (k : flag_kind) (f : string) : tschema :=
  match k with
  | FPre => put_preprocessor_flags u (ts_preprocessor_flags u ++ [f])
  | FCommon => put_common_compile_flags u (ts_common_compile_flags u ++ [f])
  | FPchCompile => put_pch_compile_flags u (ts_pch_compile_flags u ++ [f])
  | FPchObject => put_pch_object_flags u (ts_pch_object_flags u ++ [f])
  | FAsm => put_asm_compile_flags u (ts_asm_compile_flags u ++ [f])
  | FC => put_c_compile_flags u (ts_c_compile_flags u ++ [f])
  | FCpp => put_cpp_compile_flags u (ts_cpp_compile_flags u ++ [f])
  | FLink => put_link_flags u (ts_link_flags u ++ [f])
  end.

(** One call. source_api.h:56-77, include_api.h:73-98, pch_api.h:48-57,
    lib_api.h:59-77 with lib_api.cpp:24-28, deps_api.h:52-88. *)
Definition api_step (a : apienv) (u : tschema) (c : call) : outcome tschema :=
  let root := ae_root a in
  match c with
  | AddSourceAbsolute p => add_source_absolute a u p
  | GlobSourcesAbsolute dir => glob_sources_absolute a u dir
  | AddSource rel sub => add_source_absolute a u (path_div (path_div root sub) rel)
  | GlobSources sub =>
      match ae_ls a (path_div root sub) with
      | None => Fatal
      | Some names => glob_loop (is_valid_source (ae_tc a)) (add_source_absolute a) (path_div root sub) names u
      end
  | AddHeaderAbsolute p => add_header_absolute a u p
  | GlobHeadersAbsolute dir => glob_headers_absolute a u dir
  | AddIncludeDirAbsolute dir g => add_include_dir_absolute a u dir g
  | AddHeader rel sub => add_header_absolute a u (path_div (path_div root sub) rel)
  | GlobHeaders sub => glob_headers_absolute a u (path_div root sub)
  | AddIncludeDir rel g => add_include_dir_absolute a u (path_div root rel) g
  | AddPchAbsolute p => add_pch_absolute a u p
  | AddPch rel sub => add_pch_absolute a u (path_div (path_div root sub) rel)
  | AddLibDirAbsolute p => Ok (put_lib_dirs u (pl_emplace (ts_lib_dirs u) p))
  | AddLibDir rel => Ok (put_lib_dirs u (pl_emplace (ts_lib_dirs u) (path_div root rel)))
  | AddLibDep lib => Ok (put_external_libs u (ts_external_libs u ++ [lib]))
  | AddLibDepTarget t =>
      Ok (put_libs u (il_emplace (ts_libs u) (target_output_path (te_build t) (te_name t) (te_ext t)) ""))
  | AddCompileDependencyAbsolute p => Ok (put_compile_deps u (il_emplace (ts_compile_deps u) p ""))
  | AddCompileDependency rel => Ok (put_compile_deps u (il_emplace (ts_compile_deps u) (path_div root rel) ""))
  | AddLinkDependencyAbsolute p => Ok (put_link_deps u (il_emplace (ts_link_deps u) p ""))
  | AddLinkDependency rel => Ok (put_link_deps u (il_emplace (ts_link_deps u) (path_div root rel) ""))
  | AddFlag k f => Ok (add_flag u k f)
  end.
Fixpoint api_run (a : apienv) (u : tschema) (cs : list call) : outcome tschema :=
  match cs with
  | [] => Ok u
  | c :: r => match api_step a u c with Ok u1 => api_run a u1 r | Fatal => Fatal end
  end.

(** target_info.cpp:23-48 [TargetInfo::Initialize] on a default-constructed
    schema: every flag of the toolchain is added. *)
Definition new_target (t : tcflags) : tschema :=
  let add k l u := fold_left (fun v f => add_flag v k f) l u in
  add FLink (tf_link t) (add FCpp (tf_cpp t) (add FC (tf_c t) (add FAsm (tf_asm t)
    (add FPchObject (tf_pch_object t) (add FPchCompile (tf_pch_compile t)
      (add FCommon (tf_common t) (add FPre (tf_preprocessor t) ts_default))))))).
