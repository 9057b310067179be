(** What each call adds to a target, as a table. *)
From Verif Require Import Prelude Model_Path Model_Json Model_Schema Model_ToolchainConfig Model_Target
  Model_Sync Spec_Sync Model_Api.

(** A file is recorded under its normalised path and without a hash, a directory
    under its normalised path, anything else as it is. *)
Definition file_entry (p : string) : string * option string := (to_path_string p, Some "").
Definition dir_entry (p : string) : string * option string := (to_path_string p, None).
Definition plain_entry (s : string) : string * option string := (s, None).

Definition names_in (a : apienv) (dir : string) : list string :=
  match ae_ls a dir with Some l => l | None => [] end.
(** The sources (headers) directly inside a directory. *)
Definition sources_in (a : apienv) (dir : string) : list string :=
  filter (is_valid_source (ae_tc a)) (map (path_div dir) (names_in a dir)).
Definition headers_in (a : apienv) (dir : string) : list string :=
  filter (is_valid_header (ae_tc a)) (map (path_div dir) (names_in a dir)).

(** Below the target's root; below a directory that is below the root. *)
Definition below (a : apienv) (rel : string) : string := path_div (ae_root a) rel.
Definition below2 (a : apienv) (sub rel : string) : string := path_div (path_div (ae_root a) sub) rel.

Definition flag_option (k : flag_kind) : sync_option :=
  match k with
  | FPre => PreprocessorFlags | FCommon => CommonCompileFlags | FPchCompile => PchCompileFlags
  | FPchObject => PchObjectFlags | FAsm => AsmCompileFlags | FC => CCompileFlags
  | FCpp => CppCompileFlags | FLink => LinkFlags
  end.

(** The entries a call adds, with the option they go to. *)
Definition adds (a : apienv) (c : call) : list (sync_option * (string * option string)) :=
  let all x l := map (fun e => (x, e)) l in
  match c with
  | AddSourceAbsolute p => [(SourceFiles, file_entry p)]
  | AddSource rel sub => [(SourceFiles, file_entry (below2 a sub rel))]
  | GlobSourcesAbsolute dir => all SourceFiles (map file_entry (sources_in a dir))
  | GlobSources sub => all SourceFiles (map file_entry (sources_in a (below a sub)))
  | AddHeaderAbsolute p => [(HeaderFiles, file_entry p)]
  | AddHeader rel sub => [(HeaderFiles, file_entry (below2 a sub rel))]
  | GlobHeadersAbsolute dir => all HeaderFiles (map file_entry (headers_in a dir))
  | GlobHeaders sub => all HeaderFiles (map file_entry (headers_in a (below a sub)))
  | AddIncludeDirAbsolute dir g =>
      (IncludeDirs, dir_entry dir) :: (if g then all HeaderFiles (map file_entry (headers_in a dir)) else [])
  | AddIncludeDir rel g =>
      (IncludeDirs, dir_entry (below a rel)) ::
      (if g then all HeaderFiles (map file_entry (headers_in a (below a rel))) else [])
  | AddPchAbsolute p => [(PchFiles, file_entry p)]
  | AddPch rel sub => [(PchFiles, file_entry (below2 a sub rel))]
  | AddLibDirAbsolute p => [(LibDirs, dir_entry p)]
  | AddLibDir rel => [(LibDirs, dir_entry (below a rel))]
  | AddLibDep l => [(ExternalLibDeps, plain_entry l)]
  | AddLibDepTarget t => [(LibDeps, file_entry (target_output_path (te_build t) (te_name t) (te_ext t)))]
  | AddCompileDependencyAbsolute p => [(CompileDependencies, file_entry p)]
  | AddCompileDependency rel => [(CompileDependencies, file_entry (below a rel))]
  | AddLinkDependencyAbsolute p => [(LinkDependencies, file_entry p)]
  | AddLinkDependency rel => [(LinkDependencies, file_entry (below a rel))]
  | AddFlag k f => [(flag_option k, plain_entry f)]
  end.
(** What the calls add to option [x], in order. *)
Definition added (a : apienv) (x : sync_option) (cs : list call) : list (string * option string) :=
  map snd (filter (fun e => if option_eq_dec (fst e) x then true else false) (flat_map (adds a) cs)).

(** The file a call refuses (not a source, not a header), or the directory it
    cannot list. *)
Definition refused (a : apienv) (c : call) : Prop :=
  match c with
  | AddSourceAbsolute p => is_valid_source (ae_tc a) p = false
  | AddSource rel sub => is_valid_source (ae_tc a) (below2 a sub rel) = false
  | AddHeaderAbsolute p | AddPchAbsolute p => is_valid_header (ae_tc a) p = false
  | AddHeader rel sub | AddPch rel sub => is_valid_header (ae_tc a) (below2 a sub rel) = false
  | GlobSourcesAbsolute dir | GlobHeadersAbsolute dir | AddIncludeDirAbsolute dir true => ae_ls a dir = None
  | GlobSources sub | GlobHeaders sub | AddIncludeDir sub true => ae_ls a (below a sub) = None
  | _ => False
  end.

(** The flags a toolchain gives to new targets. *)
Definition toolchain_flags (t : tcflags) (x : sync_option) : list string :=
  match x with
  | PreprocessorFlags => tf_preprocessor t
  | CommonCompileFlags => tf_common t
  | PchCompileFlags => tf_pch_compile t
  | PchObjectFlags => tf_pch_object t
  | AsmCompileFlags => tf_asm t
  | CCompileFlags => tf_c t
  | CppCompileFlags => tf_cpp t
  | LinkFlags => tf_link t
  | _ => []
  end.

(** The configuration of a run of the target whose options are [u]. *)
Definition cfg_of (u : tschema) : cfg :=
  CFG (il_paths (ts_sources u)) (il_paths (ts_headers u)) (il_paths (ts_pchs u)) (il_paths (ts_libs u))
    (ts_external_libs u) (ts_include_dirs u) (ts_lib_dirs u) (ts_preprocessor_flags u) (ts_common_compile_flags u)
    (ts_pch_compile_flags u) (ts_pch_object_flags u) (ts_asm_compile_flags u) (ts_c_compile_flags u)
    (ts_cpp_compile_flags u) (ts_link_flags u) (il_paths (ts_compile_deps u)) (il_paths (ts_link_deps u)).
