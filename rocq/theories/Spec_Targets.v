(** What a user expects of created targets. *)
From Verif Require Import Prelude Model_Path Model_Json Model_Schema Model_ToolchainConfig Model_Target Model_Gcc Model_Find Model_Sync
  Spec_Path Spec_Sync Spec_Gcc Model_Api Spec_Api Model_Toolchains Spec_Toolchains Model_Targets.

(** One component of a path. *)
Definition simple (n : string) : Prop := n <> "" /\ n <> "." /\ n <> ".." /\ str_mem "/"%char n = false.

(** [f] lies in directory [dir] or deeper, wherever the process runs. *)
Definition below_dir (dir f : string) : Prop := forall cwd, exists l, l <> [] /\ leads_to cwd f = l ++ leads_to cwd dir.

(** The target classes by toolchain. *)
Inductive target_class := GnuTarget | MsvcTarget.
Definition class_for (id : toolchain_id) : option target_class :=
  match id with Gcc | MinGW => Some GnuTarget | Msvc => Some MsvcTarget | Clang | Custom | UndefinedId => None end.

(** The flags a class adds to every new target with build directory [build]. *)
Definition class_flags (c : target_class) (k : target_kind) (build : string) (x : sync_option) : list string :=
  let file f := to_display_string (path_div build f) in
  match c, x with
  | GnuTarget, CommonCompileFlags => match k with KDynamic => ["-fpic"] | _ => [] end
  | GnuTarget, PchObjectFlags => ["-include " +++ file "buildcc_pch.h"; "-H"]
  | MsvcTarget, CCompileFlags => ["/nologo"]
  | MsvcTarget, CppCompileFlags => ["/nologo"; "/EHsc"]
  | MsvcTarget, LinkFlags => ["/nologo"]
  | MsvcTarget, PchObjectFlags => ["/Yu" +++ file "buildcc_pch.h"; "/FI" +++ file "buildcc_pch.h"; "/Fp" +++ file "buildcc_pch.h.pch"]
  | _, _ => []
  end.

(** The extension of what is built. *)
Definition artifact_ext (id : toolchain_id) (k : target_kind) : option string :=
  match id, k with
  | Gcc, KExecutable => Some "" | Gcc, KStatic => Some ".a" | Gcc, KDynamic => Some ".so"
  | MinGW, KExecutable => Some ".exe" | MinGW, KStatic => Some ".a" | MinGW, KDynamic => Some ".dll"
  | Msvc, KExecutable => Some ".exe" | Msvc, KStatic => Some ".lib" | Msvc, KDynamic => Some ".lib"
  | _, _ => None
  end.

(** The directory a target builds in: <build>/<toolchain>/<target>. *)
Definition build_dir (env : target_env) (tc : toolchain) (name : string) : string := path_div (path_div (en_build env) (k_name tc)) name.

Definition no_blanks (s : string) : Prop := str_mem " "%char s = false.

(** The arguments of msvc commands, group by group; a group is its entries
    separated by blanks. *)
Definition group (l : list string) : string := join " " l.
Definition msvc_compile_groups (e : tenv) (c : cfg) (s : string) : list string :=
  let x := get_file_ext (te_tc e) s in
  [ to_display_string (compiler_for e x); group (c_preprocessor c); group (include_args e c); group (c_common c);
    group (with_pch_only c (c_pch_object c)); group (flags_for c x); "/Fo" +++ to_display_string (obj_of e s); "/c"; s ].
Definition pch_object_group (e : tenv) (c : cfg) : string :=
  match c_pchs c with
  | [] => ""
  | _ => to_display_string (pch_object_path (te_build e) (tc_pch_header_ext (te_tc e)) (tc_obj_ext (te_tc e)))
  end.
Definition msvc_pch_groups (e : tenv) (c : cfg) : list string :=
  let x := pch_language e c in let hx := tc_pch_header_ext (te_tc e) in
  let header := to_display_string (pch_header_path (te_build e) hx) in
  [ to_display_string (compiler_for e x); group (c_preprocessor c); group (include_args e c); group (c_common c);
    "/Yc" +++ header; "/FI" +++ header; "/Fp" +++ to_display_string (pch_compile_path (te_build e) hx (tc_pch_compile_ext (te_tc e)));
    group (with_pch_only c (c_pch_compile c)); group (flags_for c x); "/Fo" +++ pch_object_group e c; "/c";
    to_display_string (pch_source_path (te_build e) hx (match x with ExtCpp => true | _ => false end)) ].
Definition msvc_link_groups (k : target_kind) (e : tenv) (c : cfg) (ord : list string) : list string :=
  let out := to_display_string (target_output_path (te_build e) (te_name e) (te_ext e)) in
  let objects := [group (map (fun s => to_display_string (obj_of e s)) ord); pch_object_group e c] in
  match k with
  | KExecutable => [to_display_string (te_ld e); group (c_link c); group (lib_dir_args e c); "/OUT:" +++ out;
                    group (map to_path_string (c_libs c)); group (c_external_libs c)] ++ objects
  | KStatic => [to_display_string (te_ar e); group (c_link c); "/OUT:" +++ out] ++ objects
  | KDynamic => [to_display_string (te_ld e); "/DLL"; group (c_link c); "/OUT:" +++ out +++ ".dll"; "/IMPLIB:" +++ out] ++ objects
  end.

(** The flags of kind [x] of a described target: the toolchain's, the class's, the
    ones given in calls. *)
Definition all_flags (c : target_class) (k : target_kind) (tc : toolchain) (build : string) (a : apienv) (cs : list call) (x : sync_option) : list string :=
  toolchain_flags (k_flags tc) x ++ class_flags c k build x ++ map fst (added a x cs).
Definition language_option (x : file_ext) : option sync_option :=
  match x with ExtAsm => Some AsmCompileFlags | ExtC => Some CCompileFlags | ExtCpp => Some CppCompileFlags | _ => None end.

(** The ways to create a target. *)
Inductive created (p : project) (name : string) (k : target_kind) (tc : toolchain) (env : target_env) (t : target) : Prop :=
| by_target cf : construct_target p name (Some k) tc env cf = Ok t -> created p name k tc env t
| by_gcc cf : gcc_class p name k tc env cf = Ok t -> created p name k tc env t
| by_msvc cf : msvc_class p name k tc env cf = Ok t -> created p name k tc env t
| by_generic cf : generic_class p name k tc env cf = Ok t -> created p name k tc env t
| by_target_generic cf : target_generic p name (Some k) tc env cf = Ok t -> created p name k tc env t.

(** Samples. *)
Definition flags0 : tcflags := TF ["-DT"] ["-g"] [] [] [] ["-std=c11"] ["-std=c++17"] [].
Definition sample_toolchain (id : toolchain_id) (name : string) : toolchain :=
  TCH id name (match id with Msvc => msvc_exes | _ => gnu_exes end) (fst (metadata id)) (Some (snd (metadata id))) flags0.
Definition sample_project : project := project_init "/p" "/p/_build".
Definition sample_calls : list call :=
  [ AddSource "a.c" "src"; AddSource "../x/b.cpp" ""; AddPch "all.h" ""; AddIncludeDir "inc" false;
    AddFlag FCommon "-O2 -Wall"; AddFlag FPchObject "-w"; AddFlag FC "-ansi" ].
Definition no_listing : listing := fun _ => None.
Definition on_target {A} (r : outcome target) (f : target -> A) : option A := match r with Ok t => Some (f t) | Fatal => None end.
Definition described_as (r : outcome target) (cs : list call) : outcome target :=
  match r with Ok t => describe t no_listing cs | Fatal => Fatal end.
