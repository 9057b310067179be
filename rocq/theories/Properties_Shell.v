(** C24, C61, C62, C63: the commands as the shell sees them. *)
From Verif Require Import Prelude Model_Path Model_Json Model_Schema Model_Command Model_ToolchainConfig Model_Target Model_Gcc
  Spec_Shell Spec_Gcc Proof_Shell Proof_Gcc.

(** C24: a source, include directory or library with a space in its path is not
    one word of the command. *)
Theorem C24_unquoted_refuted :
  (exists cmd ws, compile_command env0 cfg0 "/my p/a.c" = FOk cmd /\ shell_words cmd = Some ws /\
    ~ In "/my p/a.c" ws /\ ~ In "-I/my p/inc" ws /\ In "/my" ws /\ In "p/a.c" ws) /\
  (exists cmd ws, link_command env0 cfg0 ["/my p/a.c"] = FOk cmd /\ shell_words cmd = Some ws /\
    ~ In "/my p/l.a" ws /\ ~ In "-L/my p/lib" ws).
Proof.
  split; (eexists; eexists; split; [vm_compute; reflexivity|]; split; [vm_compute; reflexivity|]);
    cbn [In]; intuition (discriminate || auto 20).
Qed.
Print Assumptions C24_unquoted_refuted.

(** What is formatted as fs::path is: compilers, object, PCH and target paths.
    Missing: sources, include and library directories, libraries. *)
Theorem C24_quoted_partial : forall p before after wb wa,
  plain_path (to_path_string p) -> shell_words before = Some wb -> shell_words after = Some wa ->
  shell_words (before +++ " " +++ to_display_string p +++ " " +++ after) = Some (wb ++ [to_path_string p] ++ wa).
Proof. exact (fun p b a wb wa P B A => words_app _ _ _ _ B (words_app _ _ _ _ (display_one p P) A)). Qed.
Print Assumptions C24_quoted_partial.
Example C24_case : plain_path (to_path_string "/my p/_b/./a.o") /\ shell_words "gcc -o" = Some ["gcc"; "-o"] /\
  shell_words "-c ""x y""z" = Some ["-c"; "x yz"] /\
  shell_words ("gcc -o" +++ " " +++ to_display_string "/my p/_b/./a.o" +++ " " +++ "-c ""x y""z") = Some ["gcc"; "-o"; "/my p/_b/a.o"; "-c"; "x yz"].
Proof. split; [split; [discriminate|reflexivity]|]. repeat split. Qed.

(** C61: the words of the commands of gcc targets, for sources, directories and
    libraries without spaces. Object and target paths may have spaces. *)
Theorem C61_compile_arguments : forall e k c s cmd pp cf pf lf,
  let e' := configured e (gcc_config k) in let c' := gcc_options e' k c in
  let x := get_file_ext (te_tc e) s in let header := to_path_string (pch_header_path (te_build e) ".h") in
  tc_pch_header_ext (te_tc e) = ".h" -> tc_pch_compile_ext (te_tc e) = ".gch" ->
  compile_command e' c' s = FOk cmd ->
  words_of (c_preprocessor c) = Some pp -> words_of (c_common c) = Some cf -> words_of (c_pch_object c) = Some pf ->
  words_of (flags_for c x) = Some lf -> Forall plain_word (include_args e c) ->
  plain_path header -> plain_path (to_path_string (compiler_for e x)) -> plain_path (to_path_string (obj_of e s)) -> plain_word s ->
  shell_words cmd = Some ([to_path_string (compiler_for e x)] ++ pp ++ include_args e c ++
    match k with KDynamic => ["-fpic"] | _ => [] end ++ cf ++
    with_pch_only c (["-include"; header; "-H"] ++ pf) ++ lf ++ ["-o"; to_path_string (obj_of e s); "-c"; s]).
Proof. exact gcc_compile_words. Qed.
Print Assumptions C61_compile_arguments.

Theorem C61_compile_constructed : forall e c s, te_compile_command e = gcc_compile_command -> exists cmd, compile_command e c s = FOk cmd.
Proof. exact (fun e c s T => ex_intro _ _ (compile_text e c s T)). Qed.
Print Assumptions C61_compile_constructed.

Theorem C61_pch_arguments : forall e c cmd pp cf pf lf,
  te_pch_command e = gcc_pch_command -> pch_command e c = FOk cmd ->
  words_of (c_preprocessor c) = Some pp -> words_of (c_common c) = Some cf ->
  words_of (with_pch_only c (c_pch_compile c)) = Some pf -> words_of (flags_for c (pch_language e c)) = Some lf ->
  Forall plain_word (include_args e c) ->
  plain_path (to_path_string (compiler_for e (pch_language e c))) ->
  let out := to_path_string (pch_compile_path (te_build e) (tc_pch_header_ext (te_tc e)) (tc_pch_compile_ext (te_tc e))) in
  let inp := to_path_string (pch_header_path (te_build e) (tc_pch_header_ext (te_tc e))) in
  plain_path out -> plain_path inp ->
  shell_words cmd = Some ([to_path_string (compiler_for e (pch_language e c))] ++ pp ++ include_args e c ++ cf ++ pf ++ lf ++
    ["-o"; out; "-c"; inp]).
Proof. exact pch_words. Qed.
Print Assumptions C61_pch_arguments.

Theorem C61_executable_arguments : forall e c ord cmd lf ef,
  te_link_command e = gcc_executable_link -> link_command e c ord = FOk cmd ->
  words_of (c_link c) = Some lf -> words_of (c_external_libs c) = Some ef ->
  Forall plain_word (lib_dir_args e c) -> Forall (fun l => plain_word (to_path_string l)) (c_libs c) ->
  plain_path (to_path_string (te_cxx e)) -> Forall (fun s => plain_path (to_path_string (obj_of e s))) ord ->
  let out := to_path_string (target_output_path (te_build e) (te_name e) (te_ext e)) in plain_path out ->
  shell_words cmd = Some ([to_path_string (te_cxx e)] ++ lf ++ map (fun s => to_path_string (obj_of e s)) ord ++ ["-o"; out] ++
    lib_dir_args e c ++ map to_path_string (c_libs c) ++ ef).
Proof. exact exe_words. Qed.
Print Assumptions C61_executable_arguments.

Theorem C61_static_arguments : forall e c ord cmd, te_link_command e = gcc_static_link -> link_command e c ord = FOk cmd ->
  plain_path (to_path_string (te_ar e)) -> Forall (fun s => plain_path (to_path_string (obj_of e s))) ord ->
  let out := to_path_string (target_output_path (te_build e) (te_name e) (te_ext e)) in plain_path out ->
  shell_words cmd = Some ([to_path_string (te_ar e); "rcs"; out] ++ map (fun s => to_path_string (obj_of e s)) ord).
Proof. exact static_words. Qed.
Print Assumptions C61_static_arguments.

Theorem C61_dynamic_arguments : forall e c ord cmd lf, te_link_command e = gcc_dynamic_link -> link_command e c ord = FOk cmd ->
  words_of (c_link c) = Some lf ->
  plain_path (to_path_string (te_cxx e)) -> Forall (fun s => plain_path (to_path_string (obj_of e s))) ord ->
  let out := to_path_string (target_output_path (te_build e) (te_name e) (te_ext e)) in plain_path out ->
  shell_words cmd = Some ([to_path_string (te_cxx e); "-shared"] ++ lf ++ map (fun s => to_path_string (obj_of e s)) ord ++ ["-o"; out]).
Proof. exact dynamic_words. Qed.
Print Assumptions C61_dynamic_arguments.

Theorem C61_mingw_dynamic_arguments : forall e c ord cmd lf, te_link_command e = mingw_dynamic_link -> link_command e c ord = FOk cmd ->
  words_of (c_link c) = Some lf ->
  plain_path (to_path_string (te_cxx e)) -> Forall (fun s => plain_path (to_path_string (obj_of e s))) ord ->
  let out := to_path_string (target_output_path (te_build e) (te_name e) (te_ext e)) in plain_path out ->
  shell_words cmd = Some ([to_path_string (te_cxx e); "-shared"] ++ lf ++ map (fun s => to_path_string (obj_of e s)) ord ++
    ["-o"; out; "-Wl,--out-implib," +++ out +++ ".a"]).
Proof. exact mingw_dynamic_words. Qed.
Print Assumptions C61_mingw_dynamic_arguments.

Example C61_case :
  let e := configured env1 (gcc_config KDynamic) in
  ws (compile_command e (gcc_options e KDynamic cfg1) "/p/a.c") =
    Some ["gcc"; "-DX"; "-I/p/inc"; "-fpic"; "-O2"; "-g"; "-include"; "/my b/buildcc_pch.h"; "-H"; "-w"; "-std=c11"; "-o"; "/my b/a.c.o"; "-c"; "/p/a.c"] /\
  ws (pch_command e (gcc_options e KDynamic cfg1)) =
    Some ["g++"; "-DX"; "-I/p/inc"; "-fpic"; "-O2"; "-g"; "-v"; "-std=c++17"; "-o"; "/my b/buildcc_pch.h.gch"; "-c"; "/my b/buildcc_pch.h"] /\
  ws (link_command e (gcc_options e KDynamic cfg1) ["/p/b.cpp"; "/p/a.c"]) = Some ["g++"; "-shared"; "-s"; "/my b/b.cpp.o"; "/my b/a.c.o"; "-o"; "/my b/app.so"] /\
  ws (link_command (configured env1 (mingw_config KDynamic)) cfg1 ["/p/a.c"]) = Some ["g++"; "-shared"; "-s"; "/my b/a.c.o"; "-o"; "/my b/app.dll"; "-Wl,--out-implib,/my b/app.dll.a"] /\
  Forall plain_word (include_args env1 cfg1) /\ plain_path (to_path_string (pch_header_path (te_build env1) ".h")) /\
  words_of (c_common cfg1) = Some ["-O2"; "-g"] /\ plain_path (to_path_string (obj_of env1 "/p/a.c")) /\ plain_word "/p/a.c".
Proof.
  cbv zeta. split; [vm_compute; reflexivity|]. split; [vm_compute; reflexivity|]. split; [vm_compute; reflexivity|]. split; [vm_compute; reflexivity|].
  split; [constructor; [|constructor]; split; [split; [discriminate|]|]; vm_compute; reflexivity|].
  split; [split; [vm_compute; discriminate|vm_compute; reflexivity]|]. split; [vm_compute; reflexivity|].
  split; [split; [vm_compute; discriminate|vm_compute; reflexivity]|]. split; [split; [discriminate|]|]; vm_compute; reflexivity.
Qed.

(** C62: the libraries of a static or dynamic library target are not part of its
    link command; those of an executable are (C61). *)
Theorem C62_libs_ignored_refuted : forall e k c ord, k <> KExecutable ->
  link_command (configured e (gcc_config k)) c ord = link_command (configured e (gcc_config k)) (without_libs c) ord.
Proof. exact libs_ignored. Qed.
Print Assumptions C62_libs_ignored_refuted.
Theorem C62_executable_libs_partial : forall e c ord cmd lf ef,
  te_link_command e = gcc_executable_link -> link_command e c ord = FOk cmd ->
  words_of (c_link c) = Some lf -> words_of (c_external_libs c) = Some ef ->
  Forall plain_word (lib_dir_args e c) -> Forall (fun l => plain_word (to_path_string l)) (c_libs c) ->
  plain_path (to_path_string (te_cxx e)) -> Forall (fun s => plain_path (to_path_string (obj_of e s))) ord ->
  let out := to_path_string (target_output_path (te_build e) (te_name e) (te_ext e)) in plain_path out ->
  shell_words cmd = Some ([to_path_string (te_cxx e)] ++ lf ++ map (fun s => to_path_string (obj_of e s)) ord ++ ["-o"; out] ++
    lib_dir_args e c ++ map to_path_string (c_libs c) ++ ef).
Proof. exact exe_words. Qed.
Print Assumptions C62_executable_libs_partial.
Example C62_case : ws (link_command (configured env1 (gcc_config KDynamic)) cfg1 ["/p/a.c"]) = Some ["g++"; "-shared"; "-s"; "/my b/a.c.o"; "-o"; "/my b/app.so"] /\
  ws (link_command (configured env1 (gcc_config KExecutable)) cfg1 ["/p/a.c"]) = Some ["g++"; "-s"; "/my b/a.c.o"; "-o"; "/my b/app"; "-L/p/lib"; "/p/l.a"; "-lm"].
Proof. split; vm_compute; reflexivity. Qed.

(** C63: gcc finds the precompiled header: it is the header named by [-include]
    (C61) with ".gch" appended, and that header is the one the PCH is made from. *)
Theorem C63_gch_beside_header : forall b,
  pch_compile_path b ".h" ".gch" = pch_header_path b ".h" +++ ".gch" /\
  replace_extension (pch_compile_path b ".h" ".gch") "" = pch_header_path b ".h".
Proof. exact (fun b => conj (gch_path b) (gch_stem b)). Qed.
Print Assumptions C63_gch_beside_header.
Example C63_case : pch_compile_path "/p.x/_b" ".h" ".gch" = "/p.x/_b/buildcc_pch.h.gch".
Proof. reflexivity. Qed.
