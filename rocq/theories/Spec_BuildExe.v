(** What a user expects of buildexe. *)
From Verif Require Import Prelude Model_Path Model_Json Model_Schema Model_ToolchainConfig Model_Target Model_Gcc Model_Find Model_Sync
  Spec_Path Spec_Sync Spec_Gcc Model_Api Spec_Api Model_Toolchains Model_Targets Spec_Targets Model_BuildExe.

(** The entries a command line asks for; [root]: directory of the target. *)
Definition command_line_entries (root : string) (a : exe_args) (x : sync_option) : list (string * option string) :=
  match x with
  | SourceFiles => map (fun s => file_entry (path_div root s)) (xa_sources a)
  | IncludeDirs => map (fun s => dir_entry (path_div root s)) (xa_include_dirs a)
  | LibDirs => map (fun s => dir_entry (path_div root s)) (xa_lib_dirs a)
  | ExternalLibDeps => map plain_entry (xa_external_libs a)
  | PreprocessorFlags => map plain_entry (xa_preprocessor a)
  | CommonCompileFlags => map plain_entry (xa_common a)
  | AsmCompileFlags => map plain_entry (xa_asm a)
  | CCompileFlags => map plain_entry (xa_c a)
  | CppCompileFlags => map plain_entry (xa_cpp a)
  | LinkFlags => map plain_entry (xa_link a)
  | HeaderFiles | PchFiles | LibDeps | PchCompileFlags | PchObjectFlags | CompileDependencies | LinkDependencies => []
  end.
(** The flags that come with the toolchain and the class of target. *)
Definition initial_entries (tc : toolchain) (k : target_kind) (build : string) (x : sync_option) : list (string * option string) :=
  map plain_entry (toolchain_flags (k_flags tc) x ++
    match class_for (k_id tc) with Some c => class_flags c k build x | None => [] end).
(** The directory in which the user target is built. *)
Definition user_dir (p : project) (tc : toolchain) (a : exe_args) : string := build_dir (env_relative p (xa_relative a)) tc (xa_name a).
(** What a script takes over from the buildcc target [b]. *)
Definition shared_with_scripts (x : sync_option) : bool :=
  match x with
  | PreprocessorFlags | CppCompileFlags | IncludeDirs | LinkFlags | HeaderFiles | LibDeps | ExternalLibDeps => true
  | _ => false
  end.
Definition buildcc_entries (tc : toolchain) (b : target) (x : sync_option) : list (string * option string) :=
  match x with
  | LibDeps => [file_entry (target_output_path (te_build (g_env b)) (te_name (g_env b)) (te_ext (g_env b)))]
  | _ => []
  end ++
  (if shared_with_scripts x then entries x (g_user b) else []) ++
  (match x with IncludeDirs => entries x (g_user b) | _ => [] end) ++   (* listed twice *)
  match x, k_id tc with LinkFlags, MinGW => [plain_entry "-Wl,--allow-multiple-definition"] | _, _ => [] end.
(** The files of libraries: sources are compiled, headers are found and tracked. *)
Definition library_entries (cfg : tconfig) (files : list string) (x : sync_option) : list (string * option string) :=
  match x with
  | SourceFiles => map file_entry (filter (is_valid_source cfg) files)
  | HeaderFiles => map file_entry (filter (is_valid_header cfg) files)
  | IncludeDirs => map (fun f => dir_entry (parent_path f)) (filter (is_valid_header cfg) files)
  | _ => []
  end.
(** The headers found in the build directory of the script. *)
Definition generated_entries (cfg : tconfig) (build : string) (ls : listing) (x : sync_option) : list (string * option string) :=
  match x with
  | IncludeDirs => [dir_entry build]
  | HeaderFiles => map file_entry (filter (is_valid_header cfg) (map (path_div build) (match ls build with Some l => l | None => [] end)))
  | _ => []
  end.

(** ** Reading the generated header as C++ *)

Inductive ctoken := CId (s : string) | CStr (s : string) | CPunct (c : ascii).
Definition letter (c : ascii) : bool :=
  let n := nat_of_ascii c in
  (Nat.leb 65 n && Nat.leb n 90) || (Nat.leb 97 n && Nat.leb n 122) || Ascii.eqb c "_".
Definition id_char (c : ascii) : bool := letter c || (Nat.leb 48 (nat_of_ascii c) && Nat.leb (nat_of_ascii c) 57).
Definition white (c : ascii) : bool := str_mem c (String "032" (String "009" (String "010" (String "013" "")))).
Definition ch_backslash : ascii := "\"%char.
Definition ch_lf : ascii := "010"%char.

(** Between tokens; in an identifier; in a string literal; after a slash; in a
    comment or preprocessor directive. Literals with escapes are not read. *)
Inductive cstate := CNone | CInId (a : string) | CInStr (a : string) | CSlash | CLine.
Fixpoint clex (st : cstate) (s : string) : option (list ctoken) :=
  match s with
  | EmptyString =>
      match st with
      | CNone | CLine => Some []
      | CInId a => Some [CId a]
      | CSlash => Some [CPunct "/"]
      | CInStr _ => None
      end
  | String c r =>
      let fresh := if white c then clex CNone r
                   else if Ascii.eqb c ch_quote then clex (CInStr "") r
                   else if Ascii.eqb c "#" then clex CLine r
                   else if Ascii.eqb c "/" then clex CSlash r
                   else if letter c then clex (CInId (str1 c)) r
                   else option_map (cons (CPunct c)) (clex CNone r) in
      match st with
      | CNone => fresh
      | CInId a => if id_char c then clex (CInId (a +++ str1 c)) r else option_map (cons (CId a)) fresh
      | CInStr a => if Ascii.eqb c ch_quote then option_map (cons (CStr a)) (clex CNone r)
                    else if Ascii.eqb c ch_backslash || Ascii.eqb c ch_lf then None
                    else clex (CInStr (a +++ str1 c)) r
      | CSlash => if Ascii.eqb c "/" then clex CLine r else option_map (cons (CPunct "/")) fresh
      | CLine => if Ascii.eqb c ch_lf then clex CNone r else clex CLine r
      end
  end.
Definition ctoken_eqb (a b : ctoken) : bool :=
  match a, b with
  | CId x, CId y | CStr x, CStr y => String.eqb x y
  | CPunct x, CPunct y => Ascii.eqb x y
  | _, _ => false
  end.
Fixpoint ctokens_eqb (a b : list ctoken) : bool :=
  match a, b with
  | [], [] => true
  | x :: r, y :: q => ctoken_eqb x y && ctokens_eqb r q
  | _, _ => false
  end.

(** Words of C++17 that cannot be used as names. *)
Definition reserved_words : list string :=
  ["alignas"; "alignof"; "and"; "and_eq"; "asm"; "auto"; "bitand"; "bitor"; "bool"; "break"; "case"; "catch"; "char";
   "char16_t"; "char32_t"; "class"; "compl"; "const"; "constexpr"; "const_cast"; "continue"; "decltype"; "default"; "delete";
   "do"; "double"; "dynamic_cast"; "else"; "enum"; "explicit"; "export"; "extern"; "false"; "float"; "for"; "friend"; "goto";
   "if"; "inline"; "int"; "long"; "mutable"; "namespace"; "new"; "noexcept"; "not"; "not_eq"; "nullptr"; "operator"; "or";
   "or_eq"; "private"; "protected"; "public"; "register"; "reinterpret_cast"; "return"; "short"; "signed"; "sizeof"; "static";
   "static_assert"; "static_cast"; "struct"; "switch"; "template"; "this"; "thread_local"; "throw"; "true"; "try"; "typedef";
   "typeid"; "typename"; "union"; "unsigned"; "using"; "virtual"; "void"; "volatile"; "wchar_t"; "while"; "xor"; "xor_eq"].
(** A static member may not have the name of its class. *)
Definition member_name (n : string) : bool := negb (mem_str n ("BuildExeLibDir" :: reserved_words)).

(** static constexpr const char *const <name> = "<text>"; ... }; *)
Definition member_start : list ctoken := [CId "static"; CId "constexpr"; CId "const"; CId "char"; CPunct "*"; CId "const"].
Fixpoint read_members (l : list ctoken) : option (list (string * string)) :=
  match l with
  | t1 :: t2 :: t3 :: t4 :: t5 :: t6 :: CId n :: CPunct e :: CStr v :: CPunct s :: r =>
      if ctokens_eqb [t1; t2; t3; t4; t5; t6] member_start && Ascii.eqb e "=" && Ascii.eqb s ";" && member_name n
      then option_map (cons (n, v)) (read_members r) else None
  | [CPunct a; CPunct b] => if Ascii.eqb a "}" && Ascii.eqb b ";" then Some [] else None
  | _ => None
  end.
Fixpoint distinct (l : list string) : bool :=
  match l with [] => true | x :: r => negb (mem_str x r) && distinct r end.
(** The constants declared by struct BuildExeLibDir, if the text is such a struct. *)
Definition read_header (s : string) : option (list (string * string)) :=
  match clex CNone s with
  | Some (t1 :: t2 :: t3 :: r) =>
      if ctokens_eqb [t1; t2; t3] [CId "struct"; CId "BuildExeLibDir"; CPunct "{"] then
        match read_members r with
        | Some l => if distinct (map fst l) then Some l else None
        | None => None
        end
      else None
  | _ => None
  end.

(** Names of libraries that can be members. *)
Fixpoint all_chars (f : ascii -> bool) (s : string) : bool :=
  match s with EmptyString => true | String c r => f c && all_chars f r end.
Definition identifier (n : string) : bool :=
  match n with EmptyString => false | String c r => letter c && all_chars id_char r end.
(** Characters that can stand in a path and, as themselves, in a string literal. *)
Definition literal_text (s : string) : Prop :=
  str_mem ch_space s = false /\ str_mem ch_quote s = false /\ str_mem ch_backslash s = false /\ str_mem ch_lf s = false.

(** The libraries: the directories in {BUILDCC_HOME}/libs. *)
Definition libraries (ents : list (string * bool)) : list string := map fst (filter snd ents).

(** The toolchains buildexe can work with. *)
Definition host_flag (id : toolchain_id) : option string :=
  match id with Gcc | MinGW => Some "-std=c++17" | Msvc => Some "/std:c++17" | Clang | Custom | UndefinedId => None end.

(** Source of the program that checks the toolchain, and its directory. *)
Definition host_dir (p : project) : string := path_div (pr_build p) "verify_host_toolchain".
Definition host_file (p : project) : string := path_div (host_dir p) "verify_host_toolchain.cpp".

(** The target could be described: in script mode with the target of buildcc and
    the files of libraries, otherwise from the command line alone. *)
Definition prepared (w : world) (p : project) (tc : toolchain) (a : exe_args) (ls : listing) (t : target) : Prop :=
  exists h ents, home_init (fst (w_home w)) (snd (w_home w)) (w_there w) = Ok h /\ w_libs w = Some ents /\
    match xa_script a with
    | true => exists b, w_buildcc w = Ok b /\ script_target p tc a b (lib_files (hm_libs h) ents (xa_lib_given a)) ls = Ok t
    | false => user_target p tc a ls = Ok t
    end.

(** Samples. *)
Definition sample_args (script : bool) : exe_args :=
  XA "tool" KExecutable "src" ["main.cpp"; "../gen/x.c"] ["inc"] ["lib"] ["-lm"] ["-DA=1"] ["-O2"] [] ["-ansi"] ["-fno-rtti"] ["-s"]
     script ["build.toml"] (fun n => if String.eqb n "json" then ["json.hpp"; "src/j.cpp"; "README"] else []).
Definition sample_dirs : listing := fun d => if String.eqb d "/p/_build/gcc/tool" then Some ["buildexe_lib_dirs.h"; "main.cpp.o"] else None.
Definition sample_buildcc : outcome target :=
  match generic_class sample_project "libbuildcc" KStatic (sample_toolchain Gcc "gcc") (env_relative sample_project "") None with
  | Ok t => describe t (fun _ => None) [AddSource "/h/buildcc/a.cpp" ""; AddIncludeDir "/h/buildcc" false; AddHeader "/h/buildcc/b.h" ""; AddFlag FPre "-DBUILDCC"; AddLibDep "-ltbb"]
  | Fatal => Fatal
  end.
Definition sample_script : outcome target :=
  match sample_buildcc with
  | Ok b => script_target sample_project (sample_toolchain Gcc "gcc") (sample_args true) b ["/h/libs/json/json.hpp"; "/h/libs/json/src/j.cpp"; "/h/libs/json/README"] sample_dirs
  | Fatal => Fatal
  end.
Definition sample_world (script_status : bool) : world :=
  WD (false, Some "/h") (fun _ => true) (Some [("json", true); ("README.md", false)]) true true
     (fun c => script_status || String.eqb c "/p/_build/verify_host_toolchain/gcc/verify/verify") sample_buildcc true true.
(** Every file exists, nothing was built. *)
Definition sample_disk : disk := DK (fun _ => Some 1%N) None (fun _ => None) None None false (fun _ => false) false.
