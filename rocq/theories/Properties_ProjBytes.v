(** C126: contents in whole programs. *)
From Verif Require Import Prelude Model_Path Model_Schema Model_Command Model_ToolchainConfig Model_Target Spec_Target
  Model_Reg Spec_Reg Model_Project Spec_Project Proof_TargetCase Proof_ProjectCase Spec_Bytes Proof_BytesCase Spec_ProjBytes Proof_ProjBytes Proof_ProjBytesCase.

(** C126 is false as it stands: a source replaced by one of the same age. *)
Theorem C126_same_time_refuted : exists t mt0 l gens b0 pre w r run h p b x n prog id e st c,
  fresh_project mt0 l /\ pfresh_start mt0 l b0 /\
  bphistory t Quiet l gens b0 (pre ++ (PRun w r, Nothing) :: run) h p b /\ Forall undisturbed_run (map fst run) /\
  registers n prog r /\ (forall i, ~ In (i, i) (rg_edges r)) /\ 0 < w /\
  p_run p = Some (w, r, x) /\ x_over w (rg_built r) (rg_edges r) x /\ p_ok p = true /\
  In (id, (e, st)) (p_targets p) /\ In (id, c) (p_built p) /\ In id (rg_built r) /\
  reads_declared t e c /\ commands_nonempty e c /\ ~ made_from t e c (of_target b id).
Proof. exact same_age_stale. Qed.
Print Assumptions C126_same_time_refuted.

(** What holds: if times tell apart the contents of what users and generators
    write, after a successful run every target consists of what its commands make
    of the files as they are now, and what the other targets read is that. *)
Theorem C126_whole_program_partial : forall t V rg mt0 l gens b0 pre w r run h p b x n prog,
  fresh_project mt0 l -> pfresh_start mt0 l b0 -> ptimes_tell V mt0 b0 (pre ++ (PRun w r, Nothing) :: run) ->
  bphistory t rg l gens b0 (pre ++ (PRun w r, Nothing) :: run) h p b -> Forall undisturbed_run (map fst run) ->
  registers n prog r -> (forall i, ~ In (i, i) (rg_edges r)) -> 0 < w ->
  p_run p = Some (w, r, x) -> x_over w (rg_built r) (rg_edges r) x -> p_ok p = true ->
  forall id e st c, In (id, (e, st)) (p_targets p) -> In (id, c) (p_built p) -> In id (rg_built r) ->
    reads_declared t e c -> commands_nonempty e c ->
    made_from t e c (of_target b id) /\ pb_files b (out_file e) = pb_tgt b id.
Proof. exact whole_run_bytes. Qed.
Print Assumptions C126_whole_program_partial.

(** ... which they do when every change gives a file a later time than it had. *)
Theorem C126_forward_partial : forall t mt0 l gens b0 evs h p b,
  fresh_project mt0 l -> pfresh_start mt0 l b0 -> l <> [] ->
  bphistory t Forward l gens b0 evs h p b -> exists V, ptimes_tell V mt0 b0 evs.
Proof. exact forward_ptells. Qed.
Print Assumptions C126_forward_partial.

(** So what a program leaves is a function of its targets and of the files they
    read and do not make themselves: it depends neither on the history nor on the
    order in which the executor took the targets nor on the number of workers nor
    on the registered dependencies (as long as they cover what is read). *)
Theorem C126_function_of_inputs_partial : forall t prog b1 b2,
  pleaves t prog b1 -> pleaves t prog b2 -> well_behaved t prog -> same_inputs prog b1 b2 ->
  forall id e c, In (id, (e, c)) prog ->
    pb_tgt b1 id = pb_tgt b2 id /\ same_on (map (obj_of e) (sources c)) (pb_obj b1 id) (pb_obj b2 id) /\ (pchs c <> [] -> pb_pch b1 id = pb_pch b2 id) /\
    pb_files b1 (out_file e) = pb_tgt b1 id /\ pb_files b2 (out_file e) = pb_tgt b2 id.
Proof. exact runs_agree. Qed.
Print Assumptions C126_function_of_inputs_partial.

(** A library, an application and a generated header: built, the library's
    source replaced, a failed run that leaves half an object, built by two
    workers; or built from scratch by one worker in another order. *)
Example C126_case : well_behaved tools1 targets1 /\ exists b1 b2, pleaves tools1 targets1 b1 /\ pleaves tools1 targets1 b2 /\
  same_inputs targets1 b1 b2 /\ pb_tgt b1 "app" = Some "exe<o<main><generated>><lib<o<lib 2>>>".
Proof.
  split; [exact targets1_behave|]. destruct two_ways as (b1 & b2 & L1 & R1 & L2 & R2). exists b1, b2.
  split; [exact L1|]. split; [exact L2|]. split; [exact (result_inputs _ _ R1 R2)|].
  unfold result in R1. do 3 (apply andb_true_iff in R1 as [R1 _]). destruct (pb_tgt b1 "app") as [y|]; [|discriminate R1].
  cbn [opt_eqb] in R1. apply String.eqb_eq in R1. rewrite R1. reflexivity.
Qed.
