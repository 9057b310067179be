(** C72-C78: creating targets. *)
From Verif Require Import Prelude Model_Path Model_Json Model_Schema Model_Command Model_ToolchainConfig Model_Target Model_Gcc
  Model_Find Model_Sync Model_Api Model_Toolchains Model_Targets
  Spec_Path Spec_Sync Spec_Shell Spec_Gcc Spec_Api Spec_Toolchains Spec_Targets Proof_Targets.

(** C72: a generic target is the target of the class for its toolchain. *)
Theorem C72_generic_is_the_class : forall p name k tc env op,
  (k_id tc = Gcc -> generic_class p name k tc env op = gcc_class p name k tc env (value_or op (gcc_config k))) /\
  (k_id tc = MinGW -> generic_class p name k tc env op = gcc_class p name k tc env (value_or op (mingw_config k))) /\
  (k_id tc = Msvc -> generic_class p name k tc env op = msvc_class p name k tc env (value_or op (msvc_config k))) /\
  (class_for (k_id tc) = None -> generic_class p name k tc env op = Fatal) /\
  target_generic p name (Some k) tc env op = generic_class p name k tc env op /\ target_generic p name None tc env op = Fatal.
Proof.
  exact (fun p name k tc env op => conj (generic_gcc p name k tc env op) (conj (generic_mingw p name k tc env op) (conj (generic_msvc p name k tc env op)
    (conj (generic_other p name k tc env op) (conj (target_generic_eq p name k tc env op) eq_refl))))).
Qed.
Print Assumptions C72_generic_is_the_class.
(** The file a target of a usual configuration builds: <build>/<toolchain>/<target>/<target><ext>. *)
Theorem C72_artifact : forall p name k tc env t ext,
  generic_class p name k tc env None = Ok t -> artifact_ext (k_id tc) k = Some ext ->
  let e := g_env t in
  target_output_path (te_build e) (te_name e) (te_ext e) = path_div (build_dir env tc name) (name +++ ext) /\
  In (target_output_path (te_build e) (te_name e) (te_ext e)) (target_writes t).
Proof. exact artifact_of. Qed.
Print Assumptions C72_artifact.
Example C72_case :
  on_target (target_generic sample_project "lib" (Some KDynamic) (sample_toolchain Gcc "gcc") (env_relative sample_project "") None)
    (fun t => (ts_common_compile_flags (g_user t), ts_pch_object_flags (g_user t), te_ext (g_env t))) =
    Some (["-g"; "-fpic"], ["-include /p/_build/gcc/lib/buildcc_pch.h"; "-H"], ".so") /\
  on_target (generic_class sample_project "lib" KStatic (sample_toolchain Msvc "vs") (env_relative sample_project "") None)
    (fun t => (ts_cpp_compile_flags (g_user t), te_ext (g_env t))) = Some (["-std=c++17"; "/nologo"; "/EHsc"], ".lib") /\
  on_target (generic_class sample_project "lib" KStatic (sample_toolchain Clang "clang") (env_relative sample_project "") (Some (gcc_config KStatic))) g_binary = None.
Proof. repeat split; vm_compute; reflexivity. Qed.

(** C63, C77: the files of a target's precompiled header in build directory [build],
    with a C++ source among its sources or not. *)
Theorem C63_file_names : forall build id cpp,
  let x := usual_config id in
  pch_header_path build (tc_pch_header_ext x) = path_div build "buildcc_pch.h" /\
  pch_compile_path build (tc_pch_header_ext x) (tc_pch_compile_ext x) =
    path_div build (match id with Msvc => "buildcc_pch.h.pch" | _ => "buildcc_pch.h.gch" end) /\
  pch_object_path build (tc_pch_header_ext x) (tc_obj_ext x) =
    path_div build (match id with Msvc => "buildcc_pch.obj" | _ => "buildcc_pch.o" end) /\
  pch_source_path build (tc_pch_header_ext x) cpp = path_div build (if cpp then "buildcc_pch.cpp" else "buildcc_pch.c").
Proof. exact pch_names. Qed.
Print Assumptions C63_file_names.

(** C73: the options of a target are those of its toolchain, then those of its
    class, then what the calls added, each once and in this order. *)
Theorem C73_options : forall p name k tc env ls cs,
  (forall cf t t', construct_target p name (Some k) tc env cf = Ok t -> describe t ls cs = Ok t' ->
    forall x, map fst (entries x (g_user t')) = toolchain_flags (k_flags tc) x ++ map fst (added (call_env t ls) x cs)) /\
  (forall cf t id t', gcc_class p name k tc env cf = Ok t -> k_config tc = usual_config id -> id <> Msvc -> describe t ls cs = Ok t' ->
    forall x, map fst (entries x (g_user t')) = all_flags GnuTarget k tc (build_dir env tc name) (call_env t ls) cs x) /\
  (forall cf t t', msvc_class p name k tc env cf = Ok t -> k_config tc = usual_config Msvc -> describe t ls cs = Ok t' ->
    forall x, map fst (entries x (g_user t')) = all_flags MsvcTarget k tc (build_dir env tc name) (call_env t ls) cs x) /\
  (forall c op t t', class_for (k_id tc) = Some c -> generic_class p name k tc env op = Ok t -> k_config tc = usual_config (k_id tc) -> describe t ls cs = Ok t' ->
    forall x, map fst (entries x (g_user t')) = all_flags c k tc (build_dir env tc name) (call_env t ls) cs x).
Proof. exact options_of_targets. Qed.
Print Assumptions C73_options.
Example C73_case :
  on_target (described_as (generic_class sample_project "lib" KDynamic (sample_toolchain Gcc "gcc") (env_relative sample_project "") None) sample_calls)
    (fun t => (ts_common_compile_flags (g_user t), ts_pch_object_flags (g_user t), ts_c_compile_flags (g_user t), ts_include_dirs (g_user t))) =
    Some (["-g"; "-fpic"; "-O2 -Wall"], ["-include /p/_build/gcc/lib/buildcc_pch.h"; "-H"; "-w"], ["-std=c11"; "-ansi"], ["/p/inc"]) /\
  k_config (sample_toolchain Gcc "gcc") = usual_config Gcc /\ k_config (sample_toolchain Msvc "vs") = usual_config Msvc.
Proof. repeat split; vm_compute; reflexivity. Qed.

(** C74: everything a target writes lies in <build>/<toolchain>/<target>. False for
    the placeholder source of a PCH if that path has a blank. *)
Theorem C74_outside_refuted : exists p name k tc env t cs t' f,
  created p name k tc env t /\ describe t no_listing cs = Ok t' /\ k_config tc = usual_config Gcc /\ simple name /\ simple (k_name tc) /\
  absolute (en_build env) /\ In f (target_writes t') /\ ~ below_dir (build_dir env tc name) f.
Proof. exact written_outside. Qed.
Print Assumptions C74_outside_refuted.
(** Missing: targets with precompiled headers and a blank in that path. *)
Theorem C74_inside_partial : forall p name k tc env t id ls cs t',
  created p name k tc env t -> describe t ls cs = Ok t' ->
  k_config tc = usual_config id -> simple name -> str_mem "/"%char (te_ext (g_env t)) = false ->
  (ts_pchs (g_user t') = [] \/ no_blanks (build_dir env tc name)) ->
  forall f, In f (target_writes t') -> below_dir (build_dir env tc name) f.
Proof. exact writes_below. Qed.
Print Assumptions C74_inside_partial.
Example C74_case :
  let t := described_as (generic_class sample_project "lib" KDynamic (sample_toolchain Gcc "gcc") (env_relative sample_project "") None) sample_calls in
  on_target t target_writes = Some
    ["/p/_build/gcc/lib/lib.bin"; "/p/_build/gcc/lib/lib.so"; "/p/_build/gcc/lib/src/a.c.o"; "/p/_build/gcc/lib/__/x/b.cpp.o";
     "/p/_build/gcc/lib/buildcc_pch.h"; "/p/_build/gcc/lib/buildcc_pch.h.gch"; "/p/_build/gcc/lib/buildcc_pch.o"; "/p/_build/gcc/lib/buildcc_pch.cpp"] /\
  simple "lib" /\ no_blanks (build_dir (env_relative sample_project "") (sample_toolchain Gcc "gcc") "lib").
Proof. cbv zeta. split; [vm_compute; reflexivity|]. split; [repeat split; discriminate|vm_compute; reflexivity]. Qed.

(** C75: targets with different names or toolchain names never write the same
    file. False if a toolchain name has a '/'. *)
Theorem C75_shared_refuted : exists p k tc1 tc2 env t1 t2 cs1 cs2 t1' t2' n1 n2 f,
  created p n1 k tc1 env t1 /\ created p n2 k tc2 env t2 /\ simple n1 /\ simple n2 /\ (k_name tc1, n1) <> (k_name tc2, n2) /\
  g_unique_id t1 <> g_unique_id t2 /\ describe t1 no_listing cs1 = Ok t1' /\ describe t2 no_listing cs2 = Ok t2' /\
  In f (target_writes t1') /\ In f (target_writes t2').
Proof. exact written_twice. Qed.
Print Assumptions C75_shared_refuted.
(** Missing: names with '/', and PCHs together with blanks in the path. *)
Theorem C75_apart_partial : forall p1 p2 n1 n2 k1 k2 tc1 tc2 env1 env2 t1 t2 id1 id2 ls1 ls2 cs1 cs2 t1' t2',
  created p1 n1 k1 tc1 env1 t1 -> created p2 n2 k2 tc2 env2 t2 -> describe t1 ls1 cs1 = Ok t1' -> describe t2 ls2 cs2 = Ok t2' ->
  en_build env1 = en_build env2 -> (k_name tc1, n1) <> (k_name tc2, n2) ->
  simple n1 -> simple n2 -> simple (k_name tc1) -> simple (k_name tc2) ->
  k_config tc1 = usual_config id1 -> k_config tc2 = usual_config id2 ->
  str_mem "/"%char (te_ext (g_env t1)) = false -> str_mem "/"%char (te_ext (g_env t2)) = false ->
  (ts_pchs (g_user t1') = [] \/ no_blanks (build_dir env1 tc1 n1)) -> (ts_pchs (g_user t2') = [] \/ no_blanks (build_dir env2 tc2 n2)) ->
  forall cwd f1 f2, In f1 (target_writes t1') -> In f2 (target_writes t2') -> leads_to cwd f1 <> leads_to cwd f2.
Proof. exact writes_apart. Qed.
Print Assumptions C75_apart_partial.
Example C75_case :
  on_target (described_as (generic_class sample_project "app" KExecutable (sample_toolchain Gcc "gcc") (env_relative sample_project "") None) sample_calls)
    (fun t => nth_error (target_writes t) 2) = Some (Some "/p/_build/gcc/app/src/a.c.o") /\
  on_target (described_as (generic_class sample_project "app" KExecutable (sample_toolchain MinGW "mingw") (env_relative sample_project "") None) sample_calls)
    (fun t => nth_error (target_writes t) 2) = Some (Some "/p/_build/mingw/app/src/a.c.o") /\
  simple "app" /\ simple "gcc" /\ simple "mingw" /\ ("gcc", "app") <> ("mingw", "app").
Proof. split; [vm_compute; reflexivity|]. split; [vm_compute; reflexivity|]. repeat split; discriminate. Qed.

(** C76: the unique id tells targets apart. False if a toolchain name has a ']'. *)
Theorem C76_same_id_refuted : exists p k env tc1 tc2 n1 n2 t1 t2, created p n1 k tc1 env t1 /\ created p n2 k tc2 env t2 /\
  simple n1 /\ simple n2 /\ simple (k_name tc1) /\ simple (k_name tc2) /\ n1 <> n2 /\ k_name tc1 <> k_name tc2 /\ g_unique_id t1 = g_unique_id t2.
Proof. exact same_unique_id. Qed.
Print Assumptions C76_same_id_refuted.
(** Missing: toolchain names with ']'. *)
Theorem C76_id_partial : forall p1 p2 n1 n2 k1 k2 tc1 tc2 env1 env2 t1 t2 ls1 ls2 cs1 cs2 t1' t2',
  created p1 n1 k1 tc1 env1 t1 -> created p2 n2 k2 tc2 env2 t2 -> describe t1 ls1 cs1 = Ok t1' -> describe t2 ls2 cs2 = Ok t2' ->
  str_mem "]"%char (k_name tc1) = false -> str_mem "]"%char (k_name tc2) = false ->
  (g_unique_id t1' = g_unique_id t2' <-> k_name tc1 = k_name tc2 /\ n1 = n2).
Proof. exact unique_ids. Qed.
Print Assumptions C76_id_partial.
Example C76_case :
  on_target (gcc_target sample_project "a] b" KStatic (sample_toolchain Gcc "gcc") (env_relative sample_project "")) g_unique_id = Some "[gcc] a] b" /\
  str_mem "]"%char "gcc" = false.
Proof. split; [vm_compute; reflexivity|reflexivity]. Qed.

(** C77: the commands of msvc targets, for every configuration. *)
Theorem C77_msvc_commands : forall k e c,
  te_compile_command e = tf_compile (msvc_config k) -> te_pch_command e = tf_pch (msvc_config k) -> te_link_command e = Model_Gcc.tf_link (msvc_config k) ->
  (forall s, compile_command e c s = FOk (join " " (msvc_compile_groups e c s))) /\
  pch_command e c = FOk (join " " (msvc_pch_groups e c)) /\
  (forall ord, link_command e c ord = FOk (join " " (msvc_link_groups k e c ord))).
Proof. exact msvc_commands. Qed.
Print Assumptions C77_msvc_commands.
Example C77_case :
  on_target (described_as (msvc_target sample_project "lib" KDynamic (sample_toolchain Msvc "vs") (env_relative sample_project "")) sample_calls)
    (fun t => (compile_command (g_env t) (cfg_of (g_user t)) "/p/src/a.c", link_command (g_env t) (cfg_of (g_user t)) ["/p/src/a.c"])) =
  Some (FOk "cl -DT /I/p/inc -g -O2 -Wall /Yu/p/_build/vs/lib/buildcc_pch.h /FI/p/_build/vs/lib/buildcc_pch.h /Fp/p/_build/vs/lib/buildcc_pch.h.pch -w -std=c11 /nologo -ansi /Fo/p/_build/vs/lib/src/a.c.obj /c /p/src/a.c",
        FOk "link /DLL /nologo /OUT:/p/_build/vs/lib/lib.lib.dll /IMPLIB:/p/_build/vs/lib/lib.lib /p/_build/vs/lib/src/a.c.obj /p/_build/vs/lib/buildcc_pch.obj").
Proof. vm_compute. reflexivity. Qed.

(** C78: the arguments of the compile command of a gcc target, from its toolchain
    and the calls that describe it. *)
Theorem C78_compile_arguments : forall p name k tc env cf t id ls cs t' s cmd wp wc wo wl,
  gcc_class p name k tc env cf = Ok t -> tf_compile cf = gcc_compile_command ->
  k_config tc = usual_config id -> id <> Msvc -> describe t ls cs = Ok t' ->
  let e := g_env t' in let u := g_user t' in let x := get_file_ext (k_config tc) s in
  let flags := all_flags GnuTarget k tc (build_dir env tc name) (call_env t ls) cs in
  let dirs := map fst (added (call_env t ls) IncludeDirs cs) in
  compile_command e (cfg_of u) s = FOk cmd ->
  words_of (flags PreprocessorFlags) = Some wp -> words_of (flags CommonCompileFlags) = Some wc ->
  words_of (match added (call_env t ls) PchFiles cs with [] => [] | _ => flags PchObjectFlags end) = Some wo ->
  words_of (match language_option x with Some o => flags o | None => [] end) = Some wl ->
  Forall plain_word (map (fun d => "-I" +++ to_path_string d) dirs) ->
  plain_path (to_path_string (compiler_for e x)) -> plain_path (to_path_string (obj_of e s)) -> plain_word s ->
  shell_words cmd = Some ([to_path_string (compiler_for e x)] ++ wp ++ map (fun d => "-I" +++ to_path_string d) dirs ++ wc ++ wo ++ wl ++
    ["-o"; to_path_string (obj_of e s); "-c"; s]).
Proof. exact gcc_compile_end. Qed.
Print Assumptions C78_compile_arguments.
Example C78_case :
  on_target (described_as (gcc_target sample_project "lib" KDynamic (sample_toolchain Gcc "gcc") (env_relative sample_project "")) sample_calls)
    (fun t => match compile_command (g_env t) (cfg_of (g_user t)) "/p/src/a.c" with FOk c => shell_words c | _ => None end) =
  Some (Some ["gcc"; "-DT"; "-I/p/inc"; "-g"; "-fpic"; "-O2"; "-Wall"; "-include"; "/p/_build/gcc/lib/buildcc_pch.h"; "-H"; "-w"; "-std=c11"; "-ansi";
    "-o"; "/p/_build/gcc/lib/src/a.c.o"; "-c"; "/p/src/a.c"]).
Proof. vm_compute. reflexivity. Qed.
