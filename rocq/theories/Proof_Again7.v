(** A repeated run after one that built nothing is like a new process. *)
From Verif Require Import Prelude Proof_Prelude Model_Path Model_Json Model_Schema Model_Command Spec_Command
  Model_ToolchainConfig Model_Target Spec_Target Proof_TargetBase Proof_TargetInv Proof_TargetRun
  Proof_TargetStep Proof_TargetStep2 Proof_TargetMain Model_Again Spec_Again Proof_Again Proof_Again2 Proof_Again3.

Definition loads (st : tstate) : Prop := s_load st = stored (s_disk st).
Definition LInv (a : astate) : Prop :=
  match a_phase a with
  | Out => True
  | First => loads (a_st a)
  | Rest _ => a_dirty a = false -> loads (a_st a)
  | Rep => exists k L L' sh, Sim k L L' (a_st a) sh /\ (k = false -> loads (a_st a))
  end.

Lemma loads_run e st st' ev : of_run ev = true -> step e st ev = Some st' -> loads st -> loads st'.
Proof. intros OR H K. destruct (store_run e _ _ _ OR H) as (A & B). unfold loads. rewrite B, (stored_store _ _ A). exact K. Qed.

Lemma session_LInv rg e d0 evs h a : session rg e d0 evs h a -> AInv e a /\ LInv a.
Proof.
  induction 1 as [|evs h a ev a' H [IA IH] A S]; [split; [apply AInv_init|exact Logic.I]|].
  split; [exact (AInv_step e a ev a' S IA)|]. unfold LInv in *. destruct ev as [x| |].
  - destruct A as [A B]. pose proof (astep_step e a a' x S) as Sx. destruct (of_run x) eqn:OR.
    + pose proof (astep_run e a a' x OR S) as Ea. rewrite Ea. cbn [a_phase a_dirty a_st]. destruct (a_phase a).
      * exact Logic.I.
      * exact (loads_run e _ _ _ OR Sx IH).
      * intros D. exact (loads_run e _ _ _ OR Sx (IH D)).
      * destruct IH as (k & L & L' & sh & M & K). destruct (sim_step e k L L' _ _ M x _ OR Sx) as (sh' & _ & M').
        exists k, L, L', sh'. split; [exact M'|]. intros Z. exact (loads_run e _ _ _ OR Sx (K Z)).
    + cbn [astep] in S. rewrite Sx in S. unfold AInv in IA. destruct x; try discriminate OR.
      * injection S as <-. exact Logic.I.
      * injection S as <-. cbn [a_phase a_st]. cbn [admissible] in A. destruct (a_phase a).
        -- exact Logic.I.
        -- exfalso. exact (proj1 IA A).
        -- destruct B.
        -- exfalso. exact (proj1 IA A).
      * destruct (a_phase a); try discriminate S. cbn [step] in Sx. rewrite IA in Sx. apply start_cases in Sx as [[_ Es]|Es].
        -- rewrite Es in S. unfold started in S. cbn [s_pc] in S. injection S as S. rewrite <- S. cbn [a_phase a_st].
           destruct (contains_pch c); reflexivity.
        -- rewrite Es in S. stp. injection S as <-. cbn [a_phase]. stp. rewrite IA. exact Logic.I.
      * injection S as S. rewrite <- S. cbn [a_phase a_dirty a_st]. destruct (s_ok (a_st a')); [|exact Logic.I]. intros D.
        destruct (clean_end e _ _ _ Sx D) as [-> Es]. rewrite Es. destruct (a_phase a).
        -- destruct (step_end _ _ _ _ Sx) as (P & _). congruence.
        -- exact IH.
        -- destruct B.
        -- destruct IH as (k & L & L' & sh & M & K). pose proof (m_gate _ _ _ _ _ M) as G. destruct k; [destruct G; congruence|exact (K eq_refl)].
      * injection S as <-. exact Logic.I.
  - cbn [astep] in S. unfold AInv in IA. destruct (a_phase a); try discriminate S. destruct (s_ok (a_st a)) eqn:Ok; [|discriminate S].
    injection S as <-. cbn [a_phase a_st]. destruct IA as [Id RD].
    exists (a_dirty a), (s_log (a_st a)), (s_log (a_st a)),
      (started (with_disk (a_st a) (if a_dirty a then set_store (s_disk (a_st a)) None else s_disk (a_st a))) (s_cfg (a_st a)) (s_ord (a_st a))).
    split; [|exact IH].
    apply (again_Sim e a (a_dirty a) (with_disk (a_st a) (if a_dirty a then set_store (s_disk (a_st a)) None else s_disk (a_st a)))
             RD eq_refl Ok eq_refl IH).
  - cbn [astep] in S. destruct (a_phase a); try discriminate S. injection S as <-. exact Logic.I.
Qed.

Theorem again_new rg e d0 pre h a evs a' :
  session rg e d0 pre h a -> a_dirty a = false -> forallb of_run evs = true ->
  aexec e a (AAgain :: map AOnce evs) = Some a' ->
  exists sh, exec e (a_st a) (EvStart (s_cfg (a_st a)) (s_ord (a_st a)) :: evs) = Some sh /\
    s_pc (a_st a') = s_pc sh /\ s_ok (a_st a') = s_ok sh /\ s_dirty (a_st a') = s_dirty sh /\
    s_disk (a_st a') = s_disk sh /\ s_log (a_st a') = s_log sh.
Proof.
  intros H D F X. destruct (session_LInv _ _ _ _ _ _ H) as [IA IL].
  cbn [aexec] in X. destruct (astep e a AAgain) as [a1|] eqn:Sa; [|discriminate X]. cbn [astep] in Sa. unfold AInv, LInv in *.
  destruct (a_phase a); try discriminate Sa. destruct (s_ok (a_st a)) eqn:Ok; [|discriminate Sa]. injection Sa as <-.
  destruct IA as [I1 I2].
  pose proof (again_Sim e a false (a_st a) I2 D Ok eq_refl (fun _ => IL D)) as S0.
  destruct (sim_exec e false _ _ evs (AS (with_pc (with_dirty (a_st a) (a_dirty a))
     (if contains_pch (s_cfg (a_st a)) then PcPch else PcObj)) (a_dirty a) Rep) _ a' F S0 X) as (sh & X1 & X2 & _).
  exists sh. cbn [exec step]. rewrite I1. rewrite (start_startable _ _ _ _ (proj1 I2)). split; [exact X1|].
  destruct X2 as [P C O K U U' Dk [G1 G2] (x & LG1 & LG2)]. repeat (split; [congruence|]). congruence.
Qed.
