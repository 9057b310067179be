(** The options of a target, as seen from outside. *)
From Verif Require Import Prelude Model_Path Model_Json Model_Schema Model_Sync.

(** The entries of an option: a path with its hash, or a plain string. *)
Definition infos_of (l : infolist) : list (string * option string) := map (fun i => (pi_path i, Some (pi_hash i))) l.
Definition strings_of (l : list string) : list (string * option string) := map (fun s => (s, None)) l.
Definition entries (x : sync_option) (s : tschema) : list (string * option string) :=
  match x with
  | SourceFiles => infos_of (ts_sources s)
  | HeaderFiles => infos_of (ts_headers s)
  | PchFiles => infos_of (ts_pchs s)
  | LibDeps => infos_of (ts_libs s)
  | IncludeDirs => strings_of (ts_include_dirs s)
  | LibDirs => strings_of (ts_lib_dirs s)
  | ExternalLibDeps => strings_of (ts_external_libs s)
  | PreprocessorFlags => strings_of (ts_preprocessor_flags s)
  | CommonCompileFlags => strings_of (ts_common_compile_flags s)
  | PchCompileFlags => strings_of (ts_pch_compile_flags s)
  | PchObjectFlags => strings_of (ts_pch_object_flags s)
  | AsmCompileFlags => strings_of (ts_asm_compile_flags s)
  | CCompileFlags => strings_of (ts_c_compile_flags s)
  | CppCompileFlags => strings_of (ts_cpp_compile_flags s)
  | LinkFlags => strings_of (ts_link_flags s)
  | CompileDependencies => infos_of (ts_compile_deps s)
  | LinkDependencies => infos_of (ts_link_deps s)
  end.
(** Everything that is not an option. *)
Definition rest (s : tschema) := (ts_name s, ts_type s, ts_pch_compiled s, ts_target_linked s).

Definition option_eq_dec (x y : sync_option) : {x = y} + {x <> y}.
Proof. decide equality. Defined.
Definition times (xs : list sync_option) (x : sync_option) : nat := count_occ option_eq_dec xs x.
(** [l], [n] times over. *)
Fixpoint over {A} (n : nat) (l : list A) : list A := match n with O => [] | S k => l ++ over k l end.
(** Options that hold plain strings given to Insert through move iterators. *)
Definition holds_strings (x : sync_option) : bool :=
  match x with
  | ExternalLibDeps | PreprocessorFlags | CommonCompileFlags | PchCompileFlags | PchObjectFlags | AsmCompileFlags | CCompileFlags | CppCompileFlags | LinkFlags => true
  | _ => false
  end.
