(** C134: Reg::Run called more than once by one process. *)
From Verif Require Import Prelude Model_Json Model_Schema Model_Command Model_ToolchainConfig Model_Target Spec_Target
  Proof_TargetCase Model_Again Spec_Again Proof_Again2 Proof_Again3 Proof_Again6 Proof_Again7 Proof_AgainCase.

(** After a run that built something the same process runs again: step by step the
    repeated run executes the same commands, with the same effects on files and
    artifacts and the same result, as a new process that finds no state file. *)
Theorem C134_again_is_fresh_build (e : tenv) (d0 : disk) (pre : list aevent) (a : astate) (evs : list event) (a' : astate) :
  aexec e (ainit d0) pre = Some a -> a_dirty a = true -> forallb of_run evs = true ->
  aexec e a (AAgain :: map AOnce evs) = Some a' ->
  exists sh, exec e (init (s_disk (a_st a))) (EvStart (s_cfg (a_st a)) (s_ord (a_st a)) :: evs) = Some sh /\
    s_pc (a_st a') = s_pc sh /\ s_ok (a_st a') = s_ok sh /\ same_build (s_disk (a_st a')) (s_disk sh) /\
    s_log (a_st a') = s_log (a_st a) ++ s_log sh.
Proof. exact (again_fresh e d0 pre a evs a'). Qed.
Print Assumptions C134_again_is_fresh_build.

(** Nothing is edited after the first run; the second one reaches its end. *)
Example C134_fresh_build_case : exists a a', aexec e0 (ainit disk0) run1 = Some a /\ a_dirty a = true /\
  forallb of_run (removelast rerun) = true /\ aexec e0 a (AAgain :: map AOnce (removelast rerun)) = Some a' /\
  s_pc (a_st a') = PcEnd /\ s_ok (a_st a') = true /\ length (s_log (a_st a')) = 6.
Proof. exact fresh_case. Qed.

(** After a run that built nothing it is like a new process started on the disk as
    it is, with the state file. *)
Theorem C134_again_is_new_process (rg : regime) (e : tenv) (d0 : disk) (pre : list aevent) (h : hist) (a : astate)
  (evs : list event) (a' : astate) :
  session rg e d0 pre h a -> a_dirty a = false -> forallb of_run evs = true ->
  aexec e a (AAgain :: map AOnce evs) = Some a' ->
  exists sh, exec e (a_st a) (EvStart (s_cfg (a_st a)) (s_ord (a_st a)) :: evs) = Some sh /\
    s_pc (a_st a') = s_pc sh /\ s_ok (a_st a') = s_ok sh /\ s_dirty (a_st a') = s_dirty sh /\
    s_disk (a_st a') = s_disk sh /\ s_log (a_st a') = s_log sh.
Proof. exact (again_new rg e d0 pre h a evs a'). Qed.
Print Assumptions C134_again_is_new_process.

Example C134_new_process_case : exists h a a',
  session Forward e0 disk0 (run1 ++ [AStop] ++ next_idle ++ [AOnce (EvEdit "/p/b.cpp" (Some 2%N))]) h a /\
  a_dirty a = false /\ aexec e0 a (AAgain :: map AOnce [EvObjCheck; EvCompile "/p/b.cpp" XOk; EvLinkCheck; EvLinkExec XOk]) = Some a' /\
  s_pc (a_st a') = PcEnd /\ s_ok (a_st a') = true.
Proof. exact new_case. Qed.

(** Full statement: whenever a run, repeated or not, reports success and no file was
    edited during it, everything is current.  Missing: a process that starts after
    some process has called Run again; the next three theorems show that it is false
    then. *)
Theorem C134_repeated_run_current_partial (rg : regime) (e : tenv) (d0 : disk) (evs : list aevent) (w : wres) (h : hist) (a : astate) :
  templates_ok e -> ahistory rg e d0 (evs ++ [AOnce (EvEnd w)]) h a -> s_ok (a_st a) = true -> h_edited h = false ->
  all_current e (s_cfg (a_st a)) (s_disk (a_st a)).
Proof. intros T. exact (again_current rg e T d0 evs w h a). Qed.
Print Assumptions C134_repeated_run_current_partial.

(** A first run, an edit of a source and a repeated run: six commands, success. *)
Example C134_repeated_run_case : templates_ok e0 /\ exists h a, ahistory Forward e0 disk0 (edited_rerun1 ++ [AOnce (EvEnd WOk)]) h a /\
  s_ok (a_st a) = true /\ h_edited h = false /\ Nat.eqb (length (s_log (a_st a))) 6 = true.
Proof. split; [exact e0_templates|exact rerun_case]. Qed.

(** A header is edited, a repeated run compiles one source and fails on the other:
    the next process reports success without compiling it. *)
Theorem C134_failed_rerun_refuted :
  exists e d0 evs h a, templates_ok e /\ session Forward e d0 (evs ++ [AOnce (EvEnd WOk)]) h a /\ s_ok (a_st a) = true /\ h_edited h = false /\
    ~ all_current e (s_cfg (a_st a)) (s_disk (a_st a)).
Proof. exists e0, disk0. apply bad_ok. apply (bad_session Forward failing_rerun "/p/b.cpp" failing_rerun_bad eq_refl). discriminate. Qed.
Print Assumptions C134_failed_rerun_refuted.

(** Nothing is edited at all; the repeated run compiles everything again and is
    killed; the next process reports success on a half-written object. *)
Theorem C134_killed_rerun_refuted :
  exists e d0 evs h a, templates_ok e /\ ~ (exists f t, In (AOnce (EvEdit f t)) evs) /\
    session Forward e d0 (evs ++ [AOnce (EvEnd WOk)]) h a /\ s_ok (a_st a) = true /\ h_edited h = false /\
    ~ all_current e (s_cfg (a_st a)) (s_disk (a_st a)).
Proof.
  destruct killed_rerun_bad as (h & a & A & B). exists e0, disk0, (removelast killed_rerun), h, a. split; [exact e0_templates|].
  rewrite <- (last_part killed_rerun WOk eq_refl ltac:(discriminate)). split; [|split; [exact A|exact (bad_end_sound _ h a B)]].
  intros (f & t & K). cbn in K. intuition discriminate.
Qed.
Print Assumptions C134_killed_rerun_refuted.

(** All runs succeed: a source is edited, built by a repeated run and then put back
    with its old time; the next process keeps the object of the edited source. *)
Theorem C134_put_back_refuted :
  exists e d0 evs h a, templates_ok e /\ session Quiet e d0 (evs ++ [AOnce (EvEnd WOk)]) h a /\ s_ok (a_st a) = true /\ h_edited h = false /\
    ~ all_current e (s_cfg (a_st a)) (s_disk (a_st a)).
Proof. exists e0, disk0. apply bad_ok. apply (bad_session Quiet put_back "/p/a.cpp" put_back_bad eq_refl). discriminate. Qed.
Print Assumptions C134_put_back_refuted.

(** With times that only increase, and every repeated run coming to a successful end,
    later processes are safe too: any number of processes, each running any number
    of times, edits at any time, first runs failing or being killed at any point. *)
Theorem C134_next_process_partial (e : tenv) (d0 : disk) (evs : list aevent) (w : wres) (h : hist) (a : astate) :
  templates_ok e -> careful_session Forward e d0 (evs ++ [AOnce (EvEnd w)]) h a -> s_ok (a_st a) = true -> h_edited h = false ->
  all_current e (s_cfg (a_st a)) (s_disk (a_st a)).
Proof. intros T. exact (careful_current e T d0 evs w h a). Qed.
Print Assumptions C134_next_process_partial.

Example C134_next_process_case : templates_ok e0 /\ exists h a, careful_session Forward e0 disk0 (two_lives ++ [AOnce (EvEnd WOk)]) h a /\
  s_ok (a_st a) = true /\ h_edited h = false.
Proof. split; [exact e0_templates|exact two_lives_case]. Qed.

(** A repeated run right after a successful one, nothing edited, everything current:
    it executes all commands again. *)
Theorem C134_idle_rerun_refuted :
  exists e d0 evs h a evs2 a', templates_ok e /\ careful_session Forward e d0 evs h a /\ s_ok (a_st a) = true /\
    all_current e (s_cfg (a_st a)) (s_disk (a_st a)) /\ forallb (fun ev => match ev with EvEdit _ _ => false | _ => true end) evs2 = true /\
    aexec e a (AAgain :: map AOnce evs2) = Some a' /\ s_ok (a_st a') = true /\
    length (s_log (a_st a')) = length (s_log (a_st a)) + 3.
Proof.
  destruct idle_rerun_case as (h & a & a' & A & B & C & D & F). exists e0, disk0, run1, h, a, rerun, a'. split; [exact e0_templates|]. split; [exact A|]. split; [exact B|].
  split; [|split; [reflexivity|split; [exact D|exact F]]].
  rewrite (last_part run1 WOk eq_refl ltac:(discriminate)) in A. exact (careful_current e0 e0_templates disk0 _ WOk h a A B C).
Qed.
Print Assumptions C134_idle_rerun_refuted.

(** An edit is built by a repeated run that succeeds; everything is current, nothing
    is edited, yet the next process compiles and links again. *)
Theorem C134_next_process_rebuilds_refuted :
  exists e d0 evs h a a1 evs2 a', templates_ok e /\ careful_session Forward e d0 evs h a /\ s_ok (a_st a) = true /\
    all_current e (s_cfg (a_st a)) (s_disk (a_st a)) /\ astep e a AStop = Some a1 /\
    forallb (fun ev => match ev with AOnce (EvEdit _ _) => false | _ => true end) evs2 = true /\
    aexec e a1 evs2 = Some a' /\ s_ok (a_st a') = true /\ length (s_log (a_st a')) = length (s_log (a_st a1)) + 2.
Proof.
  destruct next_builds_case as (h & a & a1 & a' & A & B & C & D & F). exists e0, disk0, (edited_rerun1 ++ [AOnce (EvEnd WOk)]), h, a, a1, next_builds, a'.
  split; [exact e0_templates|]. split; [exact A|]. split; [exact B|]. split; [exact (careful_current e0 e0_templates disk0 _ WOk h a A B C)|]. split; [exact D|]. split; [reflexivity|exact F].
Qed.
Print Assumptions C134_next_process_rebuilds_refuted.
