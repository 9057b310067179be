(** C113: compile_commands.json over any number of runs of a program. *)
From Verif Require Import Prelude Model_Path Model_Schema Model_Command Spec_Command Model_ToolchainConfig Model_Target Model_Reg Model_Project Proof_ProjectCase
  Model_CompileCommands Model_Database Spec_Database Proof_Database3 Proof_Database4 Proof_DatabaseCase.

(** C113: when Generate returns, and until the process ends, the file lists exactly
    the sources of the targets of the database, with their current commands.
    Missing (refuted below): processes that end between a build and Generate, runs
    that leave out a target, targets that no longer use a PCH, writes cut short and
    a database that is deleted. *)
Theorem C113_database_current_partial : forall build added l gens db evs used w,
  added <> [] -> NoDup (map fst l) -> (forall i, In i added -> In i (map fst l)) ->
  whistory build added l gens db evs used w -> w_stage w = WDone ->
  database_current build added (w_p w) (w_db w).
Proof. intros build added l gens db evs used w Ne ND Ad H E. exact (database_fresh build added Ne l gens db evs used w ND Ad H E). Qed.
Print Assumptions C113_database_current_partial.

(** Every source of every target is then in the text of the file, with the command
    that compiles it. *)
Theorem C113_every_source_partial : forall build added l gens db evs used w,
  added <> [] -> NoDup (map fst l) -> (forall i, In i added -> In i (map fst l)) ->
  whistory build added l gens db evs used w -> w_stage w = WDone ->
  forall id, In id added -> exists e st c text, In (id, (e, st)) (p_targets (w_p w)) /\ In (id, c) (p_built (w_p w)) /\ w_db w = Some text /\
    forall s, In s (sources c) -> exists cmd a b, compile_command e c s = FOk cmd /\
      text = a +++ cc_entry (to_display_string build) cmd s +++ b.
Proof.
  intros build added l gens db evs used w Ne ND Ad H E.
  exact (current_entries build added (w_p w) (w_db w) (database_fresh build added Ne l gens db evs used w ND Ad H E)).
Qed.
Print Assumptions C113_every_source_partial.

(** The hypotheses hold of four runs: one killed half-way, one that builds the rest,
    one after an edit, one with nothing to do. *)
Example C113_case : both <> [] /\ NoDup (map fst proj) /\ (forall i, In i both -> In i (map fst proj)) /\
  exists used w, whistory dir both proj gens1 None several_runs used w /\ doneb w = true.
Proof.
  split; [discriminate|]. split; [repeat constructor; cbn; intuition discriminate|]. split; [cbn; tauto|]. exact several_runs_case.
Qed.

(** Generate goes by the targets that were built in this process: exactly those
    found dirty whose state file was then reported as written. *)
Theorem C113_built_targets : forall build added l gens db evs w id,
  wexec build added (winit l gens db) evs = Some w ->
  (In id (w_built w) <-> stored_here build added (winit l gens db) evs id).
Proof. intros build added l gens db evs w id. exact (built_iff build added (winit l gens db) id eq_refl evs w). Qed.
Print Assumptions C113_built_targets.
(** In the first run of the program above both targets are built, in the run after
    it none. *)
Example C113_built_case :
  (exists w, wexec dir both (winit proj gens1 None) (runs whole_run) = Some w /\ forallb (fun i => mem_str i (w_built w)) both = true) /\
  (exists w, wexec dir both (winit proj gens1 None) (runs (whole_run ++ PStop [] :: idle_again)) = Some w /\ is_nil (w_built w) = true).
Proof. split; apply wexec_case; vm_compute; reflexivity. Qed.

(** The whole of it is false: there are runs in which everything succeeds and Generate
    returns while the file is missing or wrong: when an earlier process ended after
    the build, before Generate; ... *)
Theorem C113_ended_before_generate_refuted :
  exists w, wexec dir both (winit proj gens1 None) ended_before = Some w /\ w_stage w = WDone /\ ~ database_current dir both (w_p w) (w_db w).
Proof. exact ended_before_stale. Qed.
Print Assumptions C113_ended_before_generate_refuted.
(** ... when the file was deleted; ... *)
Theorem C113_deleted_refuted :
  exists w, wexec dir both (winit proj gens1 None) deleted = Some w /\ w_stage w = WDone /\ ~ database_current dir both (w_p w) (w_db w).
Proof. exact deleted_stale. Qed.
Print Assumptions C113_deleted_refuted.
(** ... when an earlier run built only one of the targets; ... *)
Theorem C113_left_out_refuted :
  exists w, wexec dir both (winit proj gens1 None) left_out = Some w /\ w_stage w = WDone /\ ~ database_current dir both (w_p w) (w_db w).
Proof. exact left_out_stale. Qed.
Print Assumptions C113_left_out_refuted.
(** ... when a target no longer uses a PCH; ... *)
Theorem C113_no_pch_any_more_refuted :
  exists w, wexec dir both (winit proj2 gens1 None) no_pch_any_more = Some w /\ w_stage w = WDone /\ ~ database_current dir both (w_p w) (w_db w).
Proof. exact no_pch_stale. Qed.
Print Assumptions C113_no_pch_any_more_refuted.
(** ... when a write of the file was cut short. *)
Theorem C113_cut_short_refuted :
  exists w, wexec dir both (winit proj gens1 None) cut_short = Some w /\ w_stage w = WDone /\ ~ database_current dir both (w_p w) (w_db w).
Proof. exact cut_short_stale. Qed.
Print Assumptions C113_cut_short_refuted.
