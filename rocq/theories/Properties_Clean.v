(** C119 - C121: --clean. *)
From Verif Require Import Prelude Proof_Prelude Model_Path Spec_Path Model_Schema Model_Command Model_ToolchainConfig Model_Target Spec_Target
  Model_Gen Spec_Gen Proof_GenCase Model_Reg Spec_Reg Model_Project Spec_Project Proof_ProjectCase Model_Full Spec_Full Proof_FullCase
  Model_Toolchains Model_Api Model_Targets Spec_Targets Proof_Targets Model_Args Spec_Args Model_Clean Spec_Clean Proof_Clean Proof_CleanCase Proof_Clean2.

(** C119: a script started with --clean. Whatever lies on disk (objects, PCHs,
    outputs and state files with any content), if the targets and generators have
    their outputs and state files in the build directory, then after a successful
    Reg::Run everything registered is current. *)
Theorem C119_clean_recovers : forall rg bd u8 cwd a files mt l g p F0 pre w r run h F x n prog,
  ar_clean a = true -> start_script cwd a files l g = Ok (p, F0) -> in_build_dir (pr_build p) mt l g -> (forall j, lawful (bd j)) ->
  since rg bd u8 (clean_times (pr_build p) mt) (clean_targets (pr_build p) l) F0 (pre ++ FP (PRun w r) :: run) h F -> Forall fundisturbed run ->
  registers n prog r -> (forall i, ~ In (i, i) (rg_edges r)) -> 0 < w ->
  p_run (f_proj F) = Some (w, r, x) -> x_over w (rg_built r) (rg_edges r) x -> p_ok (f_proj F) = true ->
  (forall id e st c, In (id, (e, st)) (p_targets (f_proj F)) -> In (id, c) (p_built (f_proj F)) -> In id (rg_built r) ->
     all_current e c (s_disk st) /\
     forall b eb sb, In (b, (eb, sb)) (p_targets (f_proj F)) -> In (out_file eb) (libs c ++ link_deps c) ->
       p_seen (f_proj F) id b = d_tgt (s_disk sb)) /\
  (forall j gs o, In (j, gs) (f_gens F) -> In (j, o) (f_objs F) -> In j (rg_built r) ->
     forall k gi, In (k, gi) (go_ids o) -> id_current (bd j) (gd_mt (g_disk gs)) (g_disk gs) k gi).
Proof. exact script_recovers. Qed.
Print Assumptions C119_clean_recovers.

(** The targets and generators of a project have them there. *)
Theorem C119_in_build_dir : forall p name k tc rel t,
  (created p name k tc (env_relative p rel) t -> simple name -> simple (k_name tc) -> str_mem "/"%char (te_ext (g_env t)) = false ->
     g_binary t = target_state_file (g_env t) /\
     inside (pr_build p) (out_file (g_env t)) /\ inside (pr_build p) (target_state_file (g_env t))) /\
  (simple name -> inside (pr_build p) (generator_state_file (env_relative p rel) name)).
Proof. exact (fun p name k tc rel t => conj (target_placed p name k tc rel t) (generator_placed p name rel)). Qed.
Print Assumptions C119_in_build_dir.

(** Exactly: the state file of a target is build directory/toolchain/name/name.bin,
    that of a generator build directory/name/name.json. *)
Theorem C119_state_files : forall p name k tc rel t,
  (created p name k tc (env_relative p rel) t -> simple name -> simple (k_name tc) ->
     leads_to [] (g_binary t) = [name +++ ".bin"; name; k_name tc] ++ leads_to [] (pr_build p)) /\
  (simple name -> leads_to [] (generator_state_file (env_relative p rel) name) = [name +++ ".json"; name] ++ leads_to [] (pr_build p)).
Proof. exact state_files. Qed.
Print Assumptions C119_state_files.

(** All was made, then the application was deleted. With --clean all is made again ... *)
Example C119_case : exists F0 h F x,
  args_run args_start (session [] (line_clean true "_b")) = Some (args_clean true "_b") /\ ar_clean (args_clean true "_b") = true /\
  start_script "/p" (args_clean true "_b") filesF left_targets left_gens = Ok (project_init "/p/" "/p/_b", F0) /\
  in_build_dir "/p/_b" left_times left_targets left_gens /\
  since Forward (fun _ => no_blobs) u80 (clean_times "/p/_b" left_times) (clean_targets "/p/_b" left_targets) F0
    (registrationF ++ FP (PRun 2 regF) :: clean_runF) h F /\ Forall fundisturbed clean_runF /\ registers 20 progF regF /\
  p_run (f_proj F) = Some (2, regF, x) /\ x_over 2 (rg_built regF) (rg_edges regF) x /\ p_ok (f_proj F) = true /\
  tlogs F = [2; 2] /\ glogs F = [1; 1].
Proof. exact cleaned. Qed.
(** ... without, the run is a success too, and there still is no application. *)
Theorem C119_without_refuted : exists F0 h F x e st c,
  ar_clean (args_clean false "_b") = false /\
  start_script "/p" (args_clean false "_b") filesF left_targets left_gens = Ok (project_init "/p/" "/p/_b", F0) /\
  in_build_dir "/p/_b" left_times left_targets left_gens /\
  since Forward (fun _ => no_blobs) u80 left_times left_targets F0 (registrationF ++ FP (PRun 2 regF) :: idle_runF) h F /\ Forall fundisturbed idle_runF /\
  p_run (f_proj F) = Some (2, regF, x) /\ x_over 2 (rg_built regF) (rg_edges regF) x /\ p_ok (f_proj F) = true /\
  In ("app", (e, st)) (p_targets (f_proj F)) /\ In ("app", c) (p_built (f_proj F)) /\ ~ all_current e c (s_disk st).
Proof. exact not_cleaned. Qed.
Print Assumptions C119_without_refuted.

(** C120: --clean has this effect for every target. False: the targets were created
    with TargetEnv(root, build) and another build directory (as buildexe does for
    the library of a script). *)
Theorem C120_elsewhere_refuted : exists F0 h F x e st c,
  ar_clean (args_clean true "_c") = true /\
  start_script "/p" (args_clean true "_c") filesF left_targets left_gens = Ok (project_init "/p/" "/p/_c", F0) /\
  since Forward (fun _ => no_blobs) u80 (clean_times "/p/_c" left_times) (clean_targets "/p/_c" left_targets) F0
    (registrationF ++ FP (PRun 2 regF) :: idle_runF) h F /\ Forall fundisturbed idle_runF /\
  p_run (f_proj F) = Some (2, regF, x) /\ x_over 2 (rg_built regF) (rg_edges regF) x /\ p_ok (f_proj F) = true /\
  In ("app", (e, st)) (p_targets (f_proj F)) /\ In ("app", c) (p_built (f_proj F)) /\ ~ all_current e c (s_disk st).
Proof. exact cleaned_elsewhere. Qed.
Print Assumptions C120_elsewhere_refuted.
(** Missing: targets with directories of their own. With --clean the program starts
    exactly as one that was never built. *)
Theorem C120_as_new_partial : forall cwd a files mt l g p F0,
  ar_clean a = true -> start_script cwd a files l g = Ok (p, F0) -> in_build_dir (pr_build p) mt l g ->
  F0 = finit (clean_times (pr_build p) mt) (clean_targets (pr_build p) l) files (map fst g) /\
  fresh_full (clean_times (pr_build p) mt) (clean_targets (pr_build p) l) (map fst g).
Proof. exact script_as_new. Qed.
Print Assumptions C120_as_new_partial.

(** C121: --clean deletes no source. False: with --root_dir "" and --build_dir "."
    the directory it deletes is the project. *)
Theorem C121_sources_refuted : forall cwd files l g, exists a p F0,
  args_run args_start (session [] (line_clean true ".")) = Some a /\ start_script cwd a files l g = Ok (p, F0) /\
  forall s, plain_path s -> inside (pr_build p) (path_div (pr_root p) s).
Proof. exact project_deleted. Qed.
Print Assumptions C121_sources_refuted.
(** What is deleted is exactly what is in the build directory. *)
Theorem C121_exact : forall cwd a files l g p F0 id e st, NoDup (map fst l) ->
  ar_clean a = true -> start_script cwd a files l g = Ok (p, F0) -> In (id, (e, st)) (p_targets (f_proj F0)) ->
  pr_build p = path_div cwd (ar_build a) /\
  exists d, In (id, (e, d)) l /\
    (forall f, inside (pr_build p) f -> d_mt (s_disk st) f = None /\ d_obj (s_disk st) f = None) /\
    (forall f, ~ inside (pr_build p) f -> d_mt (s_disk st) f = d_mt d f /\ d_obj (s_disk st) f = d_obj d f) /\
    (inside (pr_build p) (out_file e) -> d_tgt (s_disk st) = None) /\ (~ inside (pr_build p) (out_file e) -> d_tgt (s_disk st) = d_tgt d) /\
    (inside (pr_build p) (target_state_file e) -> d_store (s_disk st) = None) /\ (~ inside (pr_build p) (target_state_file e) -> d_store (s_disk st) = d_store d).
Proof. exact script_exact. Qed.
Print Assumptions C121_exact.
(** Missing: other relations between root and build directory. With a build directory
    named by one name, sources given relative to the current directory stay, unless
    they are named as being in it. *)
Theorem C121_sources_partial : forall cwd a files l g p F0 b s n rest,
  ar_clean a = true -> start_script cwd a files l g = Ok (p, F0) -> ar_root a = "" -> ar_build a = b -> simple b ->
  plain_path s -> proper_names s = n :: rest -> n <> b ->
  leads_to [] (path_div (pr_root p) s) = leads_to [] (path_div cwd s) /\ ~ inside (pr_build p) (path_div (pr_root p) s).
Proof. exact sources_stay. Qed.
Print Assumptions C121_sources_partial.
Example C121_case : simple "_build" /\ plain_path "src/./main.cpp" /\
  proper_names "src/./main.cpp" = ["src"; "main.cpp"] /\ "src" <> "_build" /\
  (exists F0, start_script "/p" (args_clean true "_build") filesF left_targets left_gens = Ok (project_init "/p/" "/p/_build", F0)) /\
  removes "/p/_build" "/p/src/./main.cpp" = false /\ removes "/p/_build" "/p/src/../_build/gcc/app/app" = true /\
  removes "/p/_build" "/p/_build2/x" = false.
Proof.
  split; [repeat split; discriminate|]. split; [split; [intros [r E]; discriminate E|split; [cbn; intuition discriminate|exists "src"%string; cbn; split; [auto|discriminate]]]|].
  split; [reflexivity|]. split; [discriminate|]. split; [eexists; reflexivity|]. repeat split; vm_compute; reflexivity.
Qed.
