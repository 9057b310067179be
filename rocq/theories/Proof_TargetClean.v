(** A run without a state file, over arbitrary leftovers. *)
From Verif Require Import Prelude Proof_Prelude Model_Path Model_Json Model_Schema Spec_Json Proof_Dec
  Proof_Schema Model_Command Spec_Command Proof_Command Model_ToolchainConfig Model_Target Spec_Target
  Proof_TargetBase Proof_TargetInv Proof_TargetRun Proof_TargetStep Proof_TargetStep2 Proof_TargetMain Proof_TargetRuns
  Proof_TargetLive.

Lemma own_keeps_cfg e st ev st' : step e st ev = Some st' -> own ev -> s_cfg st' = s_cfg st /\ s_pc st <> Idle.
Proof.
  intros S O. destruct ev; try destruct O; cbn [step] in S.
  - destruct (s_pc st) eqn:E; try discriminate. injection S as <-. split; [|congruence].
    unfold pch_check. destruct (negb (s_ok st)); [reflexivity|]. destruct (pch_pre _ _). destruct (negb b); [reflexivity|].
    destruct (_ || _); reflexivity.
  - destruct (s_pc st) eqn:E; try discriminate. split; [|congruence]. unfold pch_exec in S.
    destruct (pch_command _ _); try discriminate. injection S as <-. destruct (run_res _ _); reflexivity.
  - destruct (s_pc st) eqn:E; try discriminate. injection S as <-. split; [|congruence].
    unfold obj_check. destruct (negb (s_ok st)); [reflexivity|]. destruct (obj_pre _ _). destruct (negb b); [reflexivity|].
    destruct (if _ : bool then _ else _) as [[x y] z]. reflexivity.
  - destruct (s_pc st) eqn:E; try discriminate. split; [|congruence]. unfold compile_one in S.
    destruct (take_pending _ _) as [[i r']|]; [|discriminate]. destruct (compile_command _ _ _); try discriminate.
    injection S as <-. destruct (run_res s0 r); reflexivity.
  - destruct (s_pc st) as [| | | |[|? ?]| |] eqn:E; try discriminate. injection S as <-. split; [|congruence].
    unfold link_check. destruct (negb (s_ok st)); [reflexivity|]. destruct (link_pre _ _). destruct (negb b); reflexivity.
  - destruct (s_pc st) eqn:E; try discriminate. split; [|congruence]. unfold link_exec in S.
    destruct (link_command _ _ _); try discriminate. injection S as <-. destruct (run_res _ _); reflexivity.
  - destruct (step_end e st st' w S) as (E & _ & K & _). split; [exact K|congruence].
Qed.

Lemma end_admissible e st w st' : step e st (EvEnd w) = Some st' -> s_ok st' = true ->
  s_dirty st = false \/ writes_store st w = true.
Proof.
  cbn [step]. destruct (s_pc st); try discriminate. unfold end_task, writes_store. destruct (s_dirty st); [|auto].
  destruct (store_text _); [|destruct w; try discriminate; intros S; injection S as <-; discriminate].
  destruct w; auto. intros S; injection S as <-; discriminate.
Qed.

Lemma clean_history e d c ord run : NoDup (map (obj_of e) (sources c)) -> Forall own run -> forall st,
  exec e (init d) (EvStart c ord :: run) = Some st -> s_pc st <> Idle ->
  exists h, history Quiet e d (EvStart c ord :: run) h st /\ s_cfg st = c.
Proof.
  intros ND. induction run as [|ev run IH] using rev_ind; intros F st X P.
  - cbn [exec] in X. destruct (step e (init d) (EvStart c ord)) as [st1|] eqn:S; [|discriminate]. injection X as ->.
    eexists. split.
    + apply (history_snoc _ _ _ [] _ _ _ _ (history_nil _ _ _)); [|exact S]. cbn [admissible]. unfold permitted.
      split; [exact ND|]. cbn [h_lang h_taint hist0]. split; [congruence|]. split; discriminate.
    + cbn [step] in S. destruct (s_pc (init d)) eqn:E; try discriminate. unfold start in S.
      destruct (_ || _); [discriminate|]. destruct (forallb _ _); injection S as <-; [reflexivity|]. destruct (P E).
  - apply Forall_app in F as [F1 F2]. rewrite app_comm_cons in X. apply exec_snoc in X as (st1 & X1 & S).
    inversion F2 as [|? ? O _]; subst. destruct (own_keeps_cfg _ _ _ _ S O) as [K Pi].
    destruct (IH F1 st1 X1 Pi) as (h & H & C). eexists. split; [|congruence].
    rewrite app_comm_cons. apply (history_snoc _ _ _ _ _ _ _ _ H); [|exact S].
    destruct ev; try destruct O; cbn [admissible]; try exact Logic.I.
    destruct (step_end _ _ _ _ S) as (_ & K' & _). destruct (P K').
Qed.

Theorem clean_build e d c ord run w st :
  templates_ok e -> NoDup (map (obj_of e) (sources c)) -> Forall own run ->
  exec e (init d) (EvStart c ord :: run ++ [EvEnd w]) = Some st -> s_ok st = true ->
  all_current e c (s_disk st).
Proof.
  intros T ND F X O. rewrite app_comm_cons in X. pose proof X as X'. apply exec_snoc in X as (st1 & X1 & S).
  destruct (step_end _ _ _ _ S) as (Pe & _ & C & _).
  destruct (clean_history e d c ord run ND F st1 X1) as (h & H & C1); [congruence|].
  assert (H2 : history Quiet e d ((EvStart c ord :: run) ++ [EvEnd w]) (track e h st1 (EvEnd w)) st).
  { apply (history_snoc _ _ _ _ _ _ _ _ H); [|exact S]. cbn [admissible]. right. exact (end_admissible _ _ _ _ S O). }
  assert (C2 : s_cfg st = c) by congruence. rewrite <- C2.
  split; [|split].
  - exact (quiet_pch _ _ _ _ _ _ T H2 O).
  - exact (quiet_objects _ _ _ _ _ _ T H2 O).
  - exact (quiet_target _ _ _ _ _ _ T H2 O).
Qed.
