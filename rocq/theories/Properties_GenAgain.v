(** C135: a generator in a process that calls Reg::Run more than once. *)
From Verif Require Import Prelude Model_Path Model_Json Model_Schema Model_Command Model_Target Spec_Target Model_Gen Spec_Gen
  Proof_GenCase Model_Again Model_GenAgain Spec_GenAgain Proof_GenAgain Proof_GenAgainCase.

(** False as stated: an input is edited, a run of the process generates from it, the
    input is put back with its old time and the process runs again.  The repeated
    run compares with the state file as it was when the process began, so it invokes
    no callback and reports success. *)
Theorem C135_put_back_refuted :
  exists u8 m0 evs h b id g, lawful no_blobs /\
    bsession Quiet no_blobs u8 m0 unrestricted (evs ++ [BOnce (GFinish WOk)]) h b /\
    g_ok (b_st b) = true /\ In (id, g) (go_ids (g_cfg (b_st b))) /\
    ~ id_current no_blobs (gd_mt (g_disk (b_st b))) (g_disk (b_st b)) id g.
Proof.
  destruct g_put_back_bad as (h & b & A & B). exists u80, files1, g_put_back, h, b, "A", o1_A.
  split; [exact no_blobs_lawful|]. split; [exact A|exact (g_bad_sound b B)].
Qed.
Print Assumptions C135_put_back_refuted.

(** Nothing is edited; a repeated run is killed after its callback has failed half
    way; the next process finds the state file of the first run and does nothing. *)
Theorem C135_killed_rerun_refuted :
  exists u8 m0 evs h b id g, lawful no_blobs /\ ~ (exists f t, In (BOnce (GEdit f t)) evs) /\
    bsession Forward no_blobs u8 m0 unrestricted (evs ++ [BOnce (GFinish WOk)]) h b /\
    g_ok (b_st b) = true /\ In (id, g) (go_ids (g_cfg (b_st b))) /\
    ~ id_current no_blobs (gd_mt (g_disk (b_st b))) (g_disk (b_st b)) id g.
Proof.
  destruct g_killed_bad as (h & b & A & B). exists u80, files1, g_killed, h, b, "A", o1_A.
  split; [exact no_blobs_lawful|]. split; [intros (f & t & K); cbn in K; intuition discriminate|]. split; [exact A|exact (g_bad_sound b B)].
Qed.
Print Assumptions C135_killed_rerun_refuted.

(** A repeated run right after the run that generated everything, nothing changed:
    both callbacks are invoked again. *)
Theorem C135_idle_rerun_refuted :
  exists u8 m0 evs h b evs2 b', bsession Forward no_blobs u8 m0 bcareful evs h b /\ g_ok (b_st b) = true /\
    ~ (exists f t, In (BOnce (GEdit f t)) evs2) /\ bexec u8 b (BAgain :: evs2) = Some b' /\ g_ok (b_st b') = true /\
    length (g_log (b_st b')) = length (g_log (b_st b)) + 2.
Proof.
  destruct g_idle_case as (h & b & b' & A & B & _ & C & D).
  exists u80, files1, grun1, h, b, (map BOnce (GSetup :: act "A" true "/p/b.txt" 2 ++ act "B" true "/p/c.txt" 2) ++ [BOnce (GFinish WOk)]), b'.
  split; [exact A|]. split; [exact B|]. split; [intros (f & t & K); cbn in K; intuition discriminate|]. split; [exact C|exact D].
Qed.
Print Assumptions C135_idle_rerun_refuted.

(** With times that only increase, every run that reports success, repeated or not,
    in this process or a later one, leaves every id current: any number of processes
    and runs, edits between and during them, callbacks failing at any time, first
    runs killed at any point.  Missing: processes that start after a repeated run
    that had something to write was killed before, or could not, write it. *)
Theorem C135_generator_current_partial (bd : discipline) (u8 : string -> N) (m0 : times) (evs : list bevent) (w : wres) (h : ghist) (b : bstate) :
  lawful bd -> bsession Forward bd u8 m0 bcareful (evs ++ [BOnce (GFinish w)]) h b -> g_ok (b_st b) = true ->
  forall id g, In (id, g) (go_ids (g_cfg (b_st b))) -> id_current bd (gd_mt (g_disk (b_st b))) (g_disk (b_st b)) id g.
Proof. intros L. exact (gen_again_current bd u8 m0 L evs w h b). Qed.
Print Assumptions C135_generator_current_partial.

(** Four repeated runs in two processes, one of them failing. *)
Example C135_case : lawful no_blobs /\ exists h b, bsession Forward no_blobs u80 files1 bcareful (g_lives ++ [BOnce (GFinish WOk)]) h b /\
  g_ok (b_st b) && gobj_eqb (g_cfg (b_st b)) o1 && Nat.eqb (length (g_log (b_st b))) 11 = true.
Proof. split; [exact no_blobs_lawful|exact g_lives_case]. Qed.
