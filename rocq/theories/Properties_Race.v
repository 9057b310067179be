(** C129, C130, C131: the memory shared by the parallel tasks of a build. *)
From Verif Require Import Prelude Model_Race Spec_Race Proof_Race Proof_RaceOrder Proof_RaceCase.

(** Two parallel tasks can access the failure flag at the same time, one writing
    it: get_task_state reads it without the lock under which set_task_state
    writes it.  Two compilations that fail are enough. *)
Theorem C129_failure_flag_refuted : exists p log s, mexec p log s /\ race s TaskStateVar.
Proof. exact state_race. Qed.
Print Assumptions C129_failure_flag_refuted.

(** Nothing else is ever raced for, in any program and any interleaving. *)
Theorem C129_everything_else_partial : forall p log s l,
  mexec p log s -> race s l -> l = TaskStateVar.
Proof. exact only_state. Qed.
Print Assumptions C129_everything_else_partial.

(** Of the records of compiled sources made in parallel none is lost: each read
    and write of the list taken one at a time, in any interleaving, the list is
    exactly what was added to it. *)
Theorem C130_no_record_lost : forall p log s b,
  mexec p log s -> records b log = updates b log.
Proof. exact nothing_lost. Qed.
Print Assumptions C130_no_record_lost.

(** No interleaving gets stuck: until every task has ended, some task can go on. *)
Theorem C130_never_stuck : forall p log s, orderly p -> mexec p log s ->
  all_ended p s \/ exists l s', mstep p s l s'.
Proof. exact never_stuck. Qed.
Print Assumptions C130_never_stuck.

(** A generator with two ids and a target with two sources, their tasks taking
    turns, up to the end. *)
Example C130_case : exists log s, mexec three log s /\ all_ended three s /\
  records 1 log = [K_src 1 1; K_src 1 0] /\ List.length log = 123 /\ orderly three.
Proof. exact whole_runs. Qed.

(** Two executions in which every task makes the same accesses, in different
    interleavings: every read, except of the failure flag and of the list of
    recorded sources, sees the same write. *)
Theorem C131_reads_independent_of_schedule : forall p log1 s1 log2 s2,
  mexec p log1 s1 -> mexec p log2 s2 -> (forall k, did k log1 = did k log2) ->
  forall l k n j i, (l <> TaskStateVar /\ forall b, l <> Part b S_sources) ->
    sees_write log1 l k n j i -> sees_write log2 l k n j i.
Proof. exact same_write. Qed.
Print Assumptions C131_reads_independent_of_schedule.

(** Two schedules of the program of C130_case; the link sees its own flag, and
    the end of the generator sees that its second id succeeded. *)
Example C131_case : exists s1 log2 s2, mexec three log1 s1 /\ mexec three log2 s2 /\
  (forall k, did k log1 = did k log2) /\ log1 <> log2 /\
  sees_write log1 (Part 1 F_dirty) (K_link 1) 3 (K_link 1) 2 /\
  sees_write log1 (IdPart 0 1 I_success) (K_store 0) 15 (K_id 0 1) 11.
Proof. exact two_schedules. Qed.
