(** Programs with several builders: what happens after a failure. *)
From Verif Require Import Prelude Proof_Prelude Model_Path Model_Schema Model_Command Model_ToolchainConfig Model_Target
  Spec_Target Proof_TargetBase Proof_TargetInv Proof_TargetRun Proof_TargetStep Proof_TargetStep2 Proof_TargetMain
  Model_Reg Spec_Reg Proof_Reg Proof_RegRun Model_Project Spec_Project Proof_Project Proof_Project2 Proof_Project3 Proof_Project4.

(** A target that does not run does not start running. *)
Lemma exec_idle e evs : forall st st', (forall c ord, ~ In (EvStart c ord) evs) -> exec e st evs = Some st' ->
  running st = false -> running st' = false.
Proof.
  induction evs as [|ev evs IH]; intros st st' N X O; cbn [exec] in X; [injection X as <-; exact O|].
  destruct (step e st ev) as [s1|] eqn:S; [|discriminate]. apply (IH s1 st'); [intros c ord K; apply (N c ord); right; exact K|exact X|].
  unfold running in *. destruct (s_pc st) eqn:Pc; try discriminate. destruct ev; cbn [step] in S; rewrite ?Pc in S; try discriminate;
    try (injection S as <-; cbn; rewrite Pc; reflexivity). destruct (N c ord (or_introl eq_refl)).
Qed.

(** The task state is global: once it is FAILURE no target in progress sees
    SUCCESS. *)
Definition LInv (p : project) : Prop := p_run p <> None -> p_ok p = false ->
  forall id e st, In (id, (e, st)) (p_targets p) -> running st = true -> s_ok st = false.

Lemma LInv_step rg p h ed ev p' : PInv rg p h ed -> pstep p ev = Some p' -> LInv p -> LInv p'.
Proof.
  intros P S V. unfold pstep in S. destruct (process p ev) as [[[b rn] ok]|] eqn:E; [|discriminate].
  destruct (deliver p ev (p_targets p)) as [ts|] eqn:Ed; [|discriminate]. injection S as <-.
  assert (Keep : (forall i c ord, ev <> PBuild i c ord) -> in_taskflow (match ev with PStep _ x _ => x | _ => EvPchCheck end) = true ->
    p_run p <> None -> p_ok p = false -> forall i e st', In (i, (e, st')) ts -> running st' = true -> s_ok st' = false).
  { intros N F Rn Ok i e st' Hi Ru. destruct (deliver_In _ _ _ _ _ _ _ Ed Hi) as (st & H1 & H2).
    pose proof (delivered_no_start p ev i st N F) as Ns. destruct (running st) eqn:Rs.
    - exact (exec_failed _ _ _ _ Ns H2 (V Rn Ok _ _ _ H1 Rs)).
    - rewrite (exec_idle _ _ _ _ Ns H2 Rs) in Ru. discriminate. }
  intros Rn Ok. cbn [p_run p_ok p_targets] in *.
  destruct ev as [f t|i|i c ord|w' r'|i|i ev t|i f t|i|i okk|l]; cbn [process] in E.
  - injection E as <- <- <-. (apply Keep; first [assumption|discriminate|reflexivity|congruence]).
  - destruct (mem_str _ _); [|discriminate]. injection E as <- <- <-. (apply Keep; first [assumption|discriminate|reflexivity|congruence]).
  - destruct (p_run p); [discriminate|]. destruct (assoc i (p_targets p)) as [[e st]|]; [|discriminate].
    destruct (assoc i (p_built p)); [discriminate|]. destruct (forallb _ _); [|discriminate]. injection E as <- <- <-. congruence.
  - destruct (p_run p) eqn:Er; [discriminate|]. injection E as <- <- <-. rewrite (pi_none _ _ _ _ P Er) in Ok. discriminate.
  - destruct (p_run p) as [[[w1 r1] x1]|] eqn:Er; [|discriminate]. destruct (xstep _ _ _ _ _) eqn:Xs; [|discriminate].
    injection E as <- <- <-. (apply Keep; first [assumption|discriminate|reflexivity|congruence]).
  - destruct (p_run p) as [[[w1 r1] x1]|] eqn:Er; [|discriminate]. destruct (assoc i (p_targets p)) as [[e st]|] eqn:Ei; [|discriminate].
    destruct (assoc i (p_built p)) as [ci|] eqn:Eb; [|discriminate]. destruct (mem_str i (x_running x1) && in_taskflow ev && _) eqn:Co; [|discriminate].
    destruct (step e st ev) as [st1|] eqn:Si; [|discriminate]. apply andb_true_iff in Co as [Co _]. apply andb_true_iff in Co as [Cr Cf].
    injection E as <- <- <-. destruct (p_ok p) eqn:Pk; [|(apply Keep; first [assumption|discriminate|reflexivity|congruence])].
    cbn [andb] in Ok. intros j ej sj' Hj Ru. destruct (deliver_In _ _ _ _ _ _ _ Ed Hj) as (sj & H1 & H2).
    cbn [delivered] in H2. rewrite Ei, Si, Ok in H2. cbn [negb] in H2. destruct (String.eqb_spec i j) as [->|N].
    + pose proof (assoc_NoDup_In _ _ _ (pi_ids _ _ _ _ P) H1) as K. rewrite Ei in K. injection K as <- <-.
      rewrite app_nil_r in H2. cbn [app exec] in H2. rewrite Si in H2. destruct t; cbn [exec step] in H2; injection H2 as <-; exact Ok.
    + cbn [app] in H2. assert (G : forall s s', running s = running sj -> exec ej s (fail_others true sj) = Some s' -> running s' = true -> s_ok s' = false).
      { intros s s' Rs. unfold fail_others. cbn [andb]. destruct (running sj) eqn:Rj; cbn [exec step]; intros [= <-]; [reflexivity|congruence]. }
      destruct t as [t|]; cbn [app exec step] in H2; [|exact (G _ _ eq_refl H2 Ru)].
      refine (G _ _ _ H2 Ru). reflexivity.
  - destruct (p_run p) as [[[w1 r1] x1]|] eqn:Er; [|discriminate]. destruct (assoc i (p_gens p)); [|discriminate].
    destruct (_ && _); [|discriminate]. injection E as <- <- <-. (apply Keep; first [assumption|discriminate|reflexivity|congruence]).
  - intros j ej sj' Hj Ru. destruct (deliver_In _ _ _ _ _ _ _ Ed Hj) as (sj & H1 & H2).
    cbn [delivered] in H2. unfold fail_others in H2. cbn [andb] in H2.
    destruct (running sj) eqn:Rj; cbn [exec step] in H2; injection H2 as <-; [reflexivity|congruence].
  - destruct (p_run p) as [[[w1 r1] x1]|] eqn:Er; [|discriminate]. destruct (xstep _ _ _ _ _) eqn:Xs; [|discriminate].
    destruct (assoc i (p_targets p)) as [[e st]|] eqn:Ei; [destruct (assoc i (p_built p)) as [ci|] eqn:Eb|].
    + destruct (_ && _); [|discriminate]. injection E as <- <- <-. (apply Keep; first [assumption|discriminate|reflexivity|congruence]).
    + destruct okk; [|discriminate]. injection E as <- <- <-. (apply Keep; first [assumption|discriminate|reflexivity|congruence]).
    + destruct (implb _ _); [|discriminate]. injection E as <- <- <-. destruct (p_ok p) eqn:Pk; [|(apply Keep; first [assumption|discriminate|reflexivity|congruence])].
      cbn [andb] in Ok. subst okk. intros j ej sj' Hj Ru. destruct (deliver_In _ _ _ _ _ _ _ Ed Hj) as (sj & H1 & H2).
      cbn [delivered] in H2. rewrite Ei in H2. cbn [negb] in H2. unfold fail_others in H2. cbn [andb] in H2.
      destruct (running sj) eqn:Rj; cbn [exec step] in H2; injection H2 as <-; [reflexivity|congruence].
  - injection E as <- <- <-. congruence.
Qed.
Lemma phistory_LInv rg mt0 l gens evs h p : fresh_project mt0 l -> phistory rg l gens evs h p -> LInv p.
Proof.
  intros F H. induction H as [|evs h p ev p' H IH A S]; [intros K; destruct (K eq_refl)|].
  exact (LInv_step _ _ _ _ _ _ (phistory_PInv _ _ _ _ _ _ _ F H) S IH).
Qed.

(** A target whose turn comes after the failure. *)
Record Skipped (st0 st : tstate) : Prop := {
  f_ok : s_ok st = false;
  f_dirty : s_dirty st = false;
  f_log : s_log st = s_log st0;
  f_out : same_outputs (s_disk st0) (s_disk st);
  f_pc : s_pc st = Idle \/ s_pc st = PcPch \/ s_pc st = PcObj \/ s_pc st = PcCompile [] \/ s_pc st = PcEnd }.

Definition in_run (ev : event) : bool :=
  in_taskflow ev || match ev with EvEdit _ _ | EvFail => true | _ => false end.
Lemma Skipped_step e st0 st ev st' : in_run ev = true -> step e st ev = Some st' -> Skipped st0 st -> Skipped st0 st'.
Proof.
  intros R S [K1 K2 K3 K4 K5]. destruct ev; try discriminate; cbn [step] in S.
  - injection S as <-. constructor; stp; assumption.
  - injection S as <-. constructor; stp; try assumption. reflexivity.
  - destruct (s_pc st) eqn:E; try discriminate. injection S as <-. unfold pch_check. rewrite K1. cbn [negb]. constructor; stp; try assumption. tauto.
  - destruct (s_pc st) eqn:E; try discriminate. destruct K5 as [?|[?|[?|[?|?]]]]; discriminate.
  - destruct (s_pc st) eqn:E; try discriminate. injection S as <-. unfold obj_check. rewrite K1. cbn [negb]. constructor; stp; try assumption. tauto.
  - destruct (s_pc st) eqn:E; try discriminate. destruct K5 as [K|[K|[K|[K|K]]]]; try discriminate. injection K as ->. discriminate.
  - destruct (s_pc st) as [| | | |[|? ?]| |] eqn:E; try discriminate. injection S as <-. unfold link_check. rewrite K1. cbn [negb]. constructor; stp; try assumption. tauto.
  - destruct (s_pc st) eqn:E; try discriminate. destruct K5 as [?|[?|[?|[?|?]]]]; discriminate.
  - destruct (s_pc st) eqn:E; try discriminate. unfold end_task in S. rewrite K2 in S. destruct w; try discriminate. injection S as <-.
    constructor; stp; try assumption. tauto.
Qed.
Lemma Skipped_exec e st0 evs : forall st st', forallb in_run evs = true -> exec e st evs = Some st' -> Skipped st0 st -> Skipped st0 st'.
Proof.
  induction evs as [|ev evs IH]; intros st st' F X K; cbn [exec forallb] in *; [injection X as <-; exact K|].
  apply andb_true_iff in F as [F1 F2]. destruct (step e st ev) as [s1|] eqn:S; [|discriminate].
  exact (IH s1 st' F2 X (Skipped_step e st0 st ev s1 F1 S K)).
Qed.
Lemma delivered_in_run p ev id st built run ok : undisturbed_run ev -> process p ev = Some (built, run, ok) ->
  forallb in_run (delivered p ev id st) = true.
Proof.
  intros U E. assert (Fo : forall b, forallb in_run (fail_others b st) = true).
  { intros b. unfold fail_others. destruct (_ && _); reflexivity. }
  destruct ev as [f t|i|i c ord|w r|i|i x t|i f t|i|i okk|l]; try destruct U; cbn [delivered process] in *; try reflexivity.
  - destruct (p_run p) as [[[w r] y]|]; [|discriminate]. destruct (assoc i (p_targets p)) as [[ei sti]|]; [|reflexivity].
    destruct (assoc i (p_built p)); [|discriminate]. destruct (mem_str i (x_running y) && in_taskflow x && _) eqn:Co; [|discriminate].
    apply andb_true_iff in Co as [Co _]. apply andb_true_iff in Co as [_ Cf]. rewrite !forallb_app. apply andb_true_iff. split; [|apply andb_true_iff; split].
    + destruct (String.eqb i id); [|reflexivity]. cbn [forallb]. unfold in_run. rewrite Cf. reflexivity.
    + destruct t; reflexivity.
    + destruct (String.eqb i id); [reflexivity|apply Fo].
  - apply Fo.
  - destruct (assoc i (p_targets p)); [reflexivity|apply Fo].
Qed.
Lemma pexec_skipped evs : forall p p' id e st0 st, Forall undisturbed_run evs -> pexec p evs = Some p' -> NoDup (map fst (p_targets p)) ->
  In (id, (e, st)) (p_targets p) -> Skipped st0 st -> forall st', In (id, (e, st')) (p_targets p') -> Skipped st0 st'.
Proof.
  induction evs as [|ev evs IH]; intros p p' id e st0 st U X Nd Hi K st' Hi'; cbn [pexec] in X.
  - injection X as <-. apply (assoc_NoDup_In _ _ _ Nd) in Hi. apply (assoc_NoDup_In _ _ _ Nd) in Hi'. rewrite Hi in Hi'. injection Hi' as <-. exact K.
  - apply Forall_cons_iff in U as [U1 U2]. destruct (pstep p ev) as [p1|] eqn:S; [|discriminate].
    unfold pstep in S. destruct (process p ev) as [[[b rn] ok]|] eqn:E; [|discriminate].
    destruct (deliver p ev (p_targets p)) as [ts|] eqn:Ed; [|discriminate]. injection S as <-.
    destruct (deliver_In' _ _ _ _ _ _ _ Ed Hi) as (st1 & H1 & H2).
    apply (IH _ p' id e st0 st1 U2 X); [cbn [p_targets]; rewrite (deliver_ids _ _ _ _ Ed); exact Nd|exact H1| |exact Hi'].
    exact (Skipped_exec e st0 _ st st1 (delivered_in_run p ev id st _ _ _ U1 E) H2 K).
Qed.

Theorem failure_stops rg mt0 l gens evs h p w r x rest p2 id e st c :
  fresh_project mt0 l -> phistory rg l gens evs h p -> p_run p = Some (w, r, x) -> p_ok p = false ->
  In (id, (e, st)) (p_targets p) -> In (id, c) (p_built p) -> ~ In id (starts (x_log x)) ->
  Forall undisturbed_run rest -> pexec p rest = Some p2 ->
  forall st2, In (id, (e, st2)) (p_targets p2) ->
    s_ok st2 = false /\ s_log st2 = s_log st /\ same_outputs (s_disk st) (s_disk st2).
Proof.
  intros F H Hr Ok Hi Hb Ns U X st2 Hi2. pose proof (phistory_PInv _ _ _ _ _ _ _ F H) as P.
  pose proof (pi_tgt _ _ _ _ P id e st Hi) as T. pose proof (assoc_NoDup_In _ _ _ (pi_nd _ _ _ _ P) Hb) as Ha.
  pose proof (ti_early _ _ _ _ _ _ _ _ _ T c w r x Ha Hr Ns) as B.
  assert (Rs : running st = true) by (unfold running; destruct B as [-> |[-> _]]; reflexivity).
  pose proof (phistory_LInv _ _ _ _ _ _ _ F H ltac:(congruence) Ok id e st Hi Rs) as Os.
  destruct (ti_hist _ _ _ _ _ _ _ _ _ T) as (d0 & evs' & Hh).
  pose proof (i_run _ _ _ _ (history_Inv rg e (ti_temp _ _ _ _ _ _ _ _ _ T) _ _ _ _ Hh) (before_not_idle _ B)) as RI.
  pose proof (r_stage _ _ _ _ RI) as Sg. unfold Stage in Sg.
  assert (K : Skipped st st).
  { constructor; auto using same_outputs_refl.
    - destruct B as [Pc|[Pc Np]]; rewrite Pc in Sg.
      + exact (sp_dirty _ _ Sg).
      + destruct (so_nopch _ _ _ _ Sg) as (_ & _ & D); [|exact D].
        destruct (pchs (s_cfg st)) eqn:Ep; [reflexivity|]. exfalso. rewrite (proj2 (contains_pch_iff (s_cfg st))) in Np; [discriminate|congruence].
    - destruct B as [-> |[-> _]]; tauto. }
  destruct (pexec_skipped rest p p2 id e st st U X (pi_ids _ _ _ _ P) Hi K st2 Hi2) as [A1 A2 A3 A4 A5]. auto.
Qed.
