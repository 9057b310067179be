(** C101 - C103: the bootstrap program. *)
From Verif Require Import Prelude Proof_Prelude Model_Path Model_Json Model_Schema Model_Command Model_ToolchainConfig Model_Gcc
  Model_Target Spec_Target Model_Sync Model_Api Spec_Api Model_Toolchains Spec_Toolchains Model_Targets Spec_Targets Spec_Sync Spec_BuildExe Model_Reg Spec_Reg
  Model_Bootstrap Model_Project Spec_Project Proof_ProjectCase Spec_Bootstrap Proof_Bootstrap Proof_Bootstrap2 Proof_Bootstrap3 Proof_Bootstrap4 Proof_BootstrapCase.

(** C101: libbuildcc is compiled from, and tracks, exactly the sources and headers
    in the directories listed in Spec_Bootstrap.v; the example that is linked with
    it tracks the same headers. *)
Theorem C101_tracked_files_partial : forall p tc h ls tpl b ex,
  k_config tc = usual_config (k_id tc) -> bootstrap_targets p tc h ls = Ok [tpl; b; ex] ->
  (forall f, In f (il_paths (ts_sources (g_user b))) <-> library_source tc (pr_root p) ls f) /\
  (forall f, In f (il_paths (ts_headers (g_user b))) <-> library_header tc (pr_root p) ls f) /\
  (forall f, In f (il_paths (ts_headers (g_user ex))) <-> library_header tc (pr_root p) ls f).
Proof. intros p tc h ls tpl b ex K B. exact (tracked_headers p tc h K ls _ tpl b ex B eq_refl). Qed.
Print Assumptions C101_tracked_files_partial.

(** All other options of the three targets. *)
Theorem C101_options : forall p tc h ls tpl b ex, k_config tc = usual_config (k_id tc) -> bootstrap_targets p tc h ls = Ok [tpl; b; ex] ->
  (forall x, entries x (g_user tpl) =
     initial_entries tc KStatic (te_build (g_env tpl)) x ++ map plain_entry (package_flags (k_id tc) x) ++ tpl_files (pr_root p) h x) /\
  (forall x, x <> SourceFiles -> x <> HeaderFiles -> entries x (g_user b) =
     initial_entries tc KStatic (te_build (g_env b)) x ++ map plain_entry (package_flags (k_id tc) x) ++
     match x with
     | IncludeDirs => map dir_entry (library_include_dirs (pr_root p))
     | LibDeps => [output_entry tpl]
     | _ => map plain_entry (host_options h (k_id tc) x)
     end) /\
  (forall x, entries x (g_user ex) =
     initial_entries tc KExecutable (te_build (g_env ex)) x ++
     match x with
     | SourceFiles => [file_entry (path_div (path_div (pr_root p) "example/hybrid/simple") "build.cpp")]
     | LibDeps => [output_entry b; output_entry tpl]
     | _ => if taken_over x then entries x (g_user b) else []
     end).
Proof. exact options_exact. Qed.
Print Assumptions C101_options.

(** Not among the tracked files: the public headers of custom generators, in any repository. *)
Theorem C101_generator_headers_refuted : forall p tc h ls ts n t,
  k_config tc = usual_config (k_id tc) -> proper ls -> bootstrap_targets p tc h ls = Ok ts -> In t ts -> simple n ->
  is_valid_header (k_config tc) (path_div (generator_header_dir (pr_root p)) n) = true ->
  ~ In (to_path_string (path_div (generator_header_dir (pr_root p)) n)) (tracked (cfg_of (g_user t))).
Proof. intros p tc h ls ts n t K. exact (generator_header_in_no_target p tc h K ls ts n t). Qed.
Print Assumptions C101_generator_headers_refuted.

Example C101_case : exists ts,
  bootstrap_targets case_project case_tc case_host case_ls = Ok ts /\ length ts = 3 /\ proper case_ls /\
  k_config case_tc = usual_config (k_id case_tc) /\
  library_source case_tc "/w" case_ls "/w/buildcc/lib/env/src/assert.cpp" /\
  library_header case_tc "/w" case_ls "/w/buildcc/lib/env/include/env/env.h" /\
  simple "context.h" /\ is_valid_header (k_config case_tc) (path_div (generator_header_dir "/w") "context.h") = true /\
  (exists l, case_ls (generator_header_dir "/w") = Some l /\ In "context.h" l).
Proof.
  exists case_ts. split; [exact case_ts_ok|]. split; [vm_compute; reflexivity|]. split; [exact case_proper|]. split; [reflexivity|].
  split; [|split; [|split; [|split]]].
  - exists "lib/env/src". split; [left; reflexivity|]. exists ["assert.cpp"; "notes.txt"], "assert.cpp". repeat split. left. reflexivity.
  - left. exists "lib/env/include/env". split; [right; left; reflexivity|]. exists ["env.h"], "env.h". repeat split. left. reflexivity.
  - repeat split; discriminate.
  - reflexivity.
  - exists ["context.h"]. split; [reflexivity|left; reflexivity].
Qed.

(** C102: after every successful run of the bootstrap program, whatever happened
    before (edits, kills, failed runs, files that came and went), everything the
    two libraries and the example asked for is current, and each is linked with
    exactly the libraries that are on disk now. The dependencies the program
    registers suffice for that. *)
Theorem C102_bootstrap_current : forall p0 tc h rg ls0 ts l pre w r run hs p x,
  k_config tc = usual_config (k_id tc) -> bootstrap_targets p0 tc h ls0 = Ok ts -> nothing_linked ts l ->
  prog_history rg (bootstrap_registry tc) (bootstrap_options p0 tc h) l (pre ++ PRun w r :: run) hs p -> Forall undisturbed_run run -> 0 < w ->
  p_run p = Some (w, r, x) -> x_over w (rg_built r) (rg_edges r) x -> p_ok p = true ->
  forall id e st c, In (id, (e, st)) (p_targets p) -> In (id, c) (p_built p) -> In id (rg_built r) ->
    all_current e c (s_disk st) /\
    forall b eb sb, In (b, (eb, sb)) (p_targets p) -> linked_with tc id b -> p_seen p id b = d_tgt (s_disk sb).
Proof. intros p0 tc h rg ls0 ts l pre w r run hs p x K B N. exact (bootstrap_current p0 tc h K rg ls0 ts l B N pre w r run hs p x). Qed.
Print Assumptions C102_bootstrap_current.

(** Its callbacks run in this order. *)
Theorem C102_callbacks : forall n clean build test tpl b ex s, NoDup [tpl; b; ex] ->
  run_apis n (bootstrap_prog clean build test tpl b ex) rs_init = RDone s ->
  rs_calls s = (if clean then ["clean_cb"] else []) ++
    if build then ["verify"; "package"] ++ library_callbacks ++ ["hybrid_simple_example_cb"] else [].
Proof. exact bootstrap_calls. Qed.
Print Assumptions C102_callbacks.
Example C102_callbacks_case : exists s, NoDup ["t"; "b"; "e"] /\
  run_apis 2 (bootstrap_prog true true true "t" "b" "e") rs_init = RDone s /\ length (rs_calls s) = 13.
Proof. eexists. split; [repeat constructor; cbn; intuition discriminate|]. split; vm_compute; reflexivity. Qed.

(** C103: and then it does nothing until a tracked file, the options or a state
    file change. *)
Theorem C103_bootstrap_idle : forall p0 tc h rg ls0 ts l pre w r run hs p x evs p2,
  k_config tc = usual_config (k_id tc) -> bootstrap_targets p0 tc h ls0 = Ok ts -> nothing_linked ts l ->
  prog_history rg (bootstrap_registry tc) (bootstrap_options p0 tc h) l (pre ++ PRun w r :: run) hs p ->
  Forall undisturbed_run run -> Forall full_writes run -> 0 < w -> rg_built r <> [] ->
  p_run p = Some (w, r, x) -> x_over w (rg_built r) (rg_edges r) x -> p_ok p = true ->
  Forall (again (p_built p)) evs -> pexec p evs = Some p2 ->
  forall id e st2 c, In (id, (e, st2)) (p_targets p2) -> In (id, c) (p_built p) ->
    exists st, In (id, (e, st)) (p_targets p) /\ s_log st2 = s_log st /\ same_outputs (s_disk st) (s_disk st2).
Proof. intros p0 tc h rg ls0 ts l pre w r run hs p x evs p2 K B N. exact (bootstrap_idle p0 tc h K rg ls0 ts l B N pre w r run hs p x evs p2). Qed.
Print Assumptions C103_bootstrap_idle.

(** Hence (C101) an edit of a header of custom generators, though the sources of
    libbuildcc include it, makes no later run compile anything. *)
Theorem C101_stale_after_edit_refuted : forall p0 tc h rg ls0 ts l pre w r run hs p x evs p2,
  k_config tc = usual_config (k_id tc) -> bootstrap_targets p0 tc h ls0 = Ok ts -> nothing_linked ts l ->
  prog_history rg (bootstrap_registry tc) (bootstrap_options p0 tc h) l (pre ++ PRun w r :: run) hs p ->
  Forall undisturbed_run run -> Forall full_writes run -> 0 < w -> rg_built r <> [] ->
  p_run p = Some (w, r, x) -> x_over w (rg_built r) (rg_edges r) x -> p_ok p = true ->
  Forall (fun ev => again (p_built p) ev \/ edits_generator_header tc (pr_root p0) ev) evs -> pexec p evs = Some p2 ->
  forall id e st2 c, In (id, (e, st2)) (p_targets p2) -> In (id, c) (p_built p) ->
    exists st, In (id, (e, st)) (p_targets p) /\ s_log st2 = s_log st /\ same_outputs (s_disk st) (s_disk st2).
Proof. intros p0 tc h rg ls0 ts l pre w r run hs p x evs p2 K B N. exact (generator_headers_missed p0 tc h K rg ls0 ts l B N pre w r run hs p x evs p2). Qed.
Print Assumptions C101_stale_after_edit_refuted.

(** A first run compiles and links everything; a source of libbuildcc is edited;
    the second run compiles it, archives it and links the example again. Then a
    header of custom generators is edited and the third run does nothing. *)
Example C102_case : exists h p p2,
  k_config case_tc = usual_config (k_id case_tc) /\ bootstrap_targets case_project case_tc case_host case_ls = Ok case_ts /\
  nothing_linked case_ts case_l /\
  prog_history Forward (bootstrap_registry case_tc) (bootstrap_options case_project case_tc case_host) case_l
    (case_pre ++ PRun 2 case_reg :: case_second) h p /\
  Forall undisturbed_run case_second /\ Forall full_writes case_second /\ rg_built case_reg <> [] /\
  (exists w r x, p_run p = Some (w, r, x) /\ x_over w (rg_built r) (rg_edges r) x) /\ p_ok p = true /\ executed p = [3; 4; 3] /\
  edits_generator_header case_tc "/w" (PEdit "/w/buildcc/lib/target/include/target/custom_generator/context.h" (Some 9%N)) /\
  In (PEdit "/w/buildcc/lib/target/include/target/custom_generator/context.h" (Some 9%N)) case_miss /\
  pexec p case_miss = Some p2 /\ (exists w r x, p_run p2 = Some (w, r, x) /\ x_over w (rg_built r) (rg_edges r) x) /\ p_ok p2 = true /\
  executed p2 = [3; 4; 3].
Proof.
  destruct case_history as (h & p & p2 & H & O & Ok & E & X & O2 & Ok2 & E2). exists h, p, p2. split; [reflexivity|]. split; [exact case_ts_ok|].
  split; [exact case_linked|]. split; [exact H|]. split; [repeat constructor|]. split.
  { apply Forall_forall. intros ev I id n t ->.
    assert (Y : forallb (fun ev => match ev with PStep _ (EvEnd (WShort _ true)) _ => false | _ => true end) case_second = true) by (vm_compute; reflexivity).
    apply (proj1 (forallb_forall _ _) Y) in I. discriminate I. }
  split; [discriminate|]. split; [exact (overb_sound p O)|]. split; [exact Ok|]. split; [exact E|]. split.
  { exists "context.h", (Some 9%N). split; [reflexivity|]. split; [repeat split; discriminate|reflexivity]. }
  split; [right; left; reflexivity|]. split; [exact X|]. split; [exact (overb_sound p2 O2)|]. split; [exact Ok2|exact E2].
Qed.
