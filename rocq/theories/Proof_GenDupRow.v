(** Generators: a row of processes that call Build() several times. *)
From Coq Require Import Lia.
From Verif Require Import Prelude Proof_Prelude Model_Path Model_Json Model_Schema Spec_Json Proof_Dec
  Proof_Schema Model_Command Model_Target Spec_Target Proof_TargetBase Model_Gen Spec_Gen Proof_Gen Proof_GenInv
  Proof_GenMain Proof_GenRuns Model_GenDup Spec_GenDup Proof_GenDup Proof_GenCase Proof_GenDupCase.

(** After at least one process: the invariant holds of its last state. *)
Definition left_by (u8 : string -> N) (bd : discipline) (o : gobj) (s2 : gdup) : Prop :=
  exists d0 s, Inv u8 bd o d0 s /\ g_ok (gu_st s) = true /\ g_disk (gu_st s2) = g_disk (gu_st s).

Lemma process_inv rg bd u8 m0 evs h st o s0 n l s1 :
  lawful bd -> ghistory rg bd u8 m0 evs h st -> g_pc st = GIdle -> follows bd o -> (forall c, gh_taint h = Some c -> o = c) ->
  s0 = gu_begin st \/ left_by u8 bd o s0 -> Forall (gen_task o) l -> gu_exec u8 s0 (GuStart n o :: l) = Some s1 ->
  gobj_ok o = true /\ gu_n s1 = n /\ exists d0, Inv u8 bd o d0 s1.
Proof.
  intros L H P Fo Tn K F X. cbn [gu_exec] in X. destruct (gu_step u8 s0 (GuStart n o)) as [s|] eqn:S0; [|discriminate].
  assert (Go : gobj_ok o = true).
  { cbn [gu_step] in S0. destruct (gall_idle s0); [|discriminate]. unfold gstart in S0. destruct (gobj_ok o); [reflexivity|discriminate]. }
  split; [exact Go|]. destruct K as [->|(d0 & t & V & O & Ed)].
  - destruct (start_facts _ _ _ _ _ _ _ _ _ _ L H P Fo Tn S0) as (_ & Nn & B & _ & V).
    destruct (exec_inv _ _ _ _ _ L Fo Go _ _ F B V X) as (V1 & N1 & _). split; [congruence|eauto].
  - destruct (again_facts _ _ _ _ _ _ _ _ L Fo Go V O Ed S0) as (Nn & B & V1).
    destruct (exec_inv _ _ _ _ _ L Fo Go _ _ F B V1 X) as (V2 & N1 & _). split; [congruence|eauto].
Qed.

Lemma row_inv rg bd u8 m0 evs h st o s' :
  lawful bd -> ghistory rg bd u8 m0 evs h st -> g_pc st = GIdle -> follows bd o -> (forall c, gh_taint h = Some c -> o = c) ->
  gprocesses u8 o (gu_begin st) s' -> s' = gu_begin st \/ left_by u8 bd o s'.
Proof.
  intros L H P Fo Tn X. remember (gu_begin st) as b eqn:Eb.
  induction X as [s|s s0 n l s1 i s2 X IH F Y O Cr|s s0 n l s1 X IH F Y O E]; [left; reflexivity| |]; right; specialize (IH Eb); subst s;
    destruct (process_inv rg bd u8 m0 evs h st o s0 n l s1 L H P Fo Tn IH F Y) as (_ & _ & d0 & V); exists d0, s1.
  - split; [exact V|]. split; [exact O|]. cbn [gu_step gstep] in Cr. destruct (g_pc (gview s1 i)); try discriminate; injection Cr as <-; reflexivity.
  - auto.
Qed.

Lemma row_generates rg bd u8 m0 evs h st o s n l s' :
  lawful bd -> ghistory rg bd u8 m0 evs h st -> g_pc st = GIdle -> follows bd o -> (forall c, gh_taint h = Some c -> o = c) ->
  gprocesses u8 o (gu_begin st) s ->
  n <> 0 -> Forall (gen_task o) l -> gu_exec u8 s (GuStart n o :: l) = Some s' -> gall_ended s' -> g_ok (gu_st s') = true ->
  (forall id g, In (id, g) (go_ids o) -> id_current bd (gd_mt (g_disk (gu_st s'))) (g_disk (gu_st s')) id g) /\
  (sane_handlers o -> forall ids, Permutation ids (map fst (go_ids o)) ->
     exists st2, gexec u8 (gafter s') (gidle_run o ids) = Some st2 /\ g_ok st2 = true /\
       g_log st2 = g_log (gu_st s') /\ g_disk st2 = g_disk (gu_st s')).
Proof.
  intros L H P Fo Tn R N F X E O.
  destruct (process_inv rg bd u8 m0 evs h st o s n l s' L H P Fo Tn (row_inv _ _ _ _ _ _ _ _ _ L H P Fo Tn R) F X) as (Go & Nn & d0 & V1 & V2).
  assert (C := V2 0 ltac:(lia)). rewrite (E 0) in C. destruct (ch_done _ _ _ _ _ _ _ C eq_refl O) as (D1 & D2). split.
  - intros id g I. assert (G := assoc_NoDup_In _ _ _ (gobj_ok_NoDup _ Go) I). destruct (D1 id g G) as (a & A1 & A2 & A3 & A4 & A5).
    exists a. repeat split; auto. intros f Hf. rewrite (A5 f Hf). symmetry. exact (sh_mt _ _ _ _ _ V1 id g f G Hf).
  - intros SH ids Pm. exact (settled_idle_run u8 o (gafter s') ids (D2 SH) Go eq_refl Pm).
Qed.

(** Killed before anything was stored, killed after the first store, then to the end. *)
Lemma row_case : exists s s', gprocesses u80 o1 (gu_begin (ginit files1)) s /\ Forall (gen_task o1) gredo /\
  gu_exec u80 s (GuStart 2 o1 :: gredo) = Some s' /\ gall_ended s' /\ g_ok (gu_st s') = true /\ length (g_log (gu_st s')) = 4.
Proof.
  eexists. eexists. split.
  { eapply (gp_killed u80 o1 _ _ 2 gcut _ 1).
    - eapply (gp_killed u80 o1 _ _ 2 gcut_early _ 0); [apply gp_none|apply gen_tasksb_sound; vm_compute; reflexivity|vm_compute; reflexivity|reflexivity|vm_compute; reflexivity].
    - apply gen_tasksb_sound; vm_compute; reflexivity.
    - vm_compute; reflexivity.
    - reflexivity.
    - vm_compute; reflexivity. }
  split; [apply gen_tasksb_sound; vm_compute; reflexivity|]. split; [vm_compute; reflexivity|].
  split; [intros [|[|i]]; reflexivity|]. split; reflexivity.
Qed.
