(** C115: a copy of a shared library beside the executable that uses it. *)
From Verif Require Import Prelude Model_Path Model_Schema Model_Command Model_ToolchainConfig Model_Target Spec_Target Model_Reg Model_Project Spec_Project
  Proof_ProjectCase Model_PostCopy Spec_PostCopy Proof_PostCopy Proof_PostCopyCase.

(** C115: when the code after the run has returned, and until the process ends, the
    copy is the library that is on disk, whether or not this run has built
    anything.
    Missing (refuted below): processes that end between the build and the copying,
    programs that do not remove the old copy first and build again, failing copies,
    copies that are deleted, libraries given by name. *)
Theorem C115_copy_current_partial : forall rg removes exe lib mt0 l gens copy evs pevs h s,
  exe <> lib -> fresh_project mt0 l -> In exe (map fst l) -> In lib (map fst l) ->
  chistory rg removes exe lib l gens copy evs pevs h s -> c_stage s = CDone ->
  copy_current lib (c_p s) (c_copy s).
Proof.
  intros rg removes exe lib mt0 l gens copy evs pevs h s Ne F HX HL H E.
  exact (copy_fresh exe lib Ne rg removes mt0 l gens copy evs pevs h s F HX HL H E).
Qed.
Print Assumptions C115_copy_current_partial.

(** The hypotheses hold of four runs: one killed half-way, one that builds the rest
    and copies over an old file, one after an edit, one with nothing to do ... *)
Example C115_case : "app" <> "lib" /\ fresh_project files1 proj /\ In "app" (map fst proj) /\ In "lib" (map fst proj) /\
  forall rg, exists pevs h s, chistory rg true "app" "lib" proj gens1 (Some some_file) four_runs pevs h s /\ cdoneb s = true.
Proof.
  split; [discriminate|]. split; [exact proj_fresh|]. split; [cbn; tauto|]. split; [cbn; tauto|]. exact four_runs_case.
Qed.
(** ... and, of a program that does not remove the copy, of two. *)
Example C115_case_once : forall rg, exists pevs h s, chistory rg false "app" "lib" proj gens1 None once pevs h s /\ cdoneb s = true.
Proof. exact once_case. Qed.

(** A program that does not remove the copy first never replaces it: whenever the
    executable has been built and there is a copy, it throws. *)
Theorem C115_never_replaced : forall exe lib s ok kept s' k,
  In exe (c_built s) -> c_copy s = Some k -> cstep false exe lib s (CCopy ok kept) = Some s' ->
  c_stage s' = CDead /\ c_copy s' = Some k.
Proof. exact copy_throws. Qed.
Print Assumptions C115_never_replaced.

(** The whole of it is false: there are runs in which everything succeeds, nothing is
    copied, and the copy is missing or older than the library: when the old copy
    was not removed first, so that an earlier process threw; ... *)
Theorem C115_not_removed_refuted :
  exists s, cexec false "app" "lib" (cinit proj gens1 None) not_removed = Some s /\ c_stage s = CDone /\ ~ copy_current "lib" (c_p s) (c_copy s).
Proof. exact not_removed_old. Qed.
Print Assumptions C115_not_removed_refuted.
(** ... when an earlier process ended after the build, before it copied; ... *)
Theorem C115_ended_early_refuted :
  exists s, cexec true "app" "lib" (cinit proj gens1 None) ended_early = Some s /\ c_stage s = CDone /\ ~ copy_current "lib" (c_p s) (c_copy s).
Proof. exact ended_early_old. Qed.
Print Assumptions C115_ended_early_refuted.
(** ... when copying failed after the old copy was removed; ... *)
Theorem C115_copy_failed_refuted :
  exists s, cexec true "app" "lib" (cinit proj gens1 None) copy_failed = Some s /\ c_stage s = CDone /\ ~ copy_current "lib" (c_p s) (c_copy s).
Proof. exact copy_failed_old. Qed.
Print Assumptions C115_copy_failed_refuted.
(** ... when the copy was deleted; ... *)
Theorem C115_deleted_refuted :
  exists s, cexec true "app" "lib" (cinit proj gens1 None) copy_deleted = Some s /\ c_stage s = CDone /\ ~ copy_current "lib" (c_p s) (c_copy s).
Proof. exact copy_deleted_old. Qed.
Print Assumptions C115_deleted_refuted.
(** ... when the executable names the library in a flag, not as a file. *)
Theorem C115_by_name_refuted :
  exists s, cexec true "app" "lib" (cinit proj gens1 None) by_name = Some s /\ c_stage s = CDone /\ ~ copy_current "lib" (c_p s) (c_copy s).
Proof. exact by_name_old. Qed.
Print Assumptions C115_by_name_refuted.
