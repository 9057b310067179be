(** Processes sharing a build directory: the theorem from a history on, and the
    interleavings in which it fails. *)
From Verif Require Import Prelude Proof_Prelude Model_Path Model_Json Model_Schema Proof_Schema Model_Command Spec_Command
  Model_ToolchainConfig Model_Target Spec_Target Proof_TargetBase Proof_TargetInv Proof_TargetRun
  Proof_TargetStep Proof_TargetStep2 Proof_TargetMain Proof_TargetCase Model_Two Spec_Two Proof_Two.

Lemma idle_safe rg e d0 evs h st : templates_ok e -> history rg e d0 evs h st -> s_pc st = Idle ->
  forall s, stored (s_disk st) = Some s -> SafeS rg e h (s_disk st) s.
Proof.
  intros T H P. pose proof (history_Inv rg e T _ _ _ _ H) as []. apply i_safe.
  destruct rg; [right|left; reflexivity]. destruct (h_taint h) eqn:E; [|reflexivity].
  destruct (i_quiet eq_refl) as [K _]; [discriminate|]. congruence.
Qed.

Lemma with_disk_same st : with_disk st (s_disk st) = st.
Proof. destruct st. reflexivity. Qed.
Lemma sh_alone e j evs : forall s st, exec e (with_disk (sh_proc s j) (sh_disk s)) evs = Some st -> evs <> [] ->
  exists s', sh_exec e s (map (pair j) evs) = Some s' /\ sh_disk s' = s_disk st /\ sh_proc s' j = st.
Proof.
  induction evs as [|ev evs IH]; intros s st X N; [congruence|]. cbn [exec] in X. cbn [map sh_exec]. unfold sh_step.
  destruct (step e (with_disk (sh_proc s j) (sh_disk s)) ev) as [st1|]; [|discriminate].
  destruct evs as [|ev2 evs].
  - cbn [exec] in X. injection X as <-. eexists. split; [reflexivity|]. cbn [sh_disk sh_proc]. rewrite Nat.eqb_refl. auto.
  - apply IH; [|discriminate]. cbn [sh_disk sh_proc]. rewrite Nat.eqb_refl, with_disk_same. exact X.
Qed.

Lemma idle_from e c s st ord :
  NoDup (sources c) -> s_pc st = Idle -> stored (s_disk st) = Some s -> allclean s c (d_mt (s_disk st)) ->
  ord_ok ord (sources c) = true -> forallb is_fok (all_commands e c ord) = true ->
  exists st2, exec e st (idle_run c ord) = Some st2 /\ s_ok st2 = true /\ s_pc st2 = Idle /\
    s_log st2 = s_log st /\ s_disk st2 = s_disk st.
Proof.
  intros ND P S1 S2 Oo Fk.
  assert (St : start e st c ord = Some (ST (s_disk st) (if contains_pch c then PcPch else PcObj) c ord (user_of c)
             (Some s) ts_default false true (s_log st))).
  { unfold start. rewrite Oo, Fk, S1. cbn [negb orb]. destruct (existsb is_fother (all_commands e c ord)) eqn:E; [|reflexivity].
    exfalso. apply existsb_exists in E as (r & Hr & Hf). rewrite forallb_forall in Fk. specialize (Fk r Hr). destruct r; discriminate. }
  unfold idle_run.
  assert (Tail : forall st3, s_pc st3 = PcObj -> s_cfg st3 = c -> like c (s_user st3) -> s_load st3 = Some s ->
     s_dirty st3 = false -> s_ok st3 = true -> s_disk st3 = s_disk st -> s_log st3 = s_log st ->
     exists st2, exec e st3 [EvObjCheck; EvLinkCheck; EvEnd WOk] = Some st2 /\ s_ok st2 = true /\ s_pc st2 = Idle /\
       s_log st2 = s_log st /\ s_disk st2 = s_disk st).
  { intros st3 R1 R2 R3 R4 R5 R6 R7 R8. cbn [exec step]. rewrite R1.
    destruct (clean_obj_check c s ND st3) as (u & b & Lu & ->); try assumption; [rewrite R7; exact S2|]. stp.
    destruct (clean_link_check c s (with_pc (with_buf (with_dirty (with_user st3 u) false) b) (PcCompile [])))
      as (u2 & Lu2 & ->); stp; try assumption; try reflexivity; [rewrite R7; exact S2|].
    unfold end_task. stp. eexists. split; [reflexivity|]. stp. auto. }
  erewrite exec_cons by (cbn [step]; rewrite P; exact St).
  destruct (contains_pch c) eqn:Ec; cbn [app].
  - apply contains_pch_iff in Ec.
    erewrite exec_cons by (cbn [step s_pc]; reflexivity).
    match goal with |- context [pch_check ?x] => destruct (clean_pch_check c s x) as (u & Lu & ->) end; stp;
      try assumption; try reflexivity; [apply like_user|].
    apply Tail; stp; try assumption; reflexivity.
  - apply Tail; stp; try reflexivity. apply like_user.
Qed.

Theorem two_processes rg e d0 evs h st c l1 i w l2 s1 s2 :
  templates_ok e -> history rg e d0 evs h st -> s_pc st = Idle -> permitted e h c ->
  (forall f, In f (tracked c) -> d_mt (s_disk st) f <> None) ->
  Forall (fun x => orderly e c (snd x)) (l1 ++ (i, EvEnd w) :: l2) ->
  sh_exec e (sh_start (s_disk st)) (l1 ++ [(i, EvEnd w)]) = Some s1 -> s_ok (sh_proc s1 i) = true ->
  sh_exec e s1 l2 = Some s2 ->
  all_current e c (sh_disk s2) /\
  (forall j ord, s_pc (sh_proc s2 j) = Idle -> ord_ok ord (sources c) = true ->
     forallb is_fok (all_commands e c ord) = true ->
     exists s3, sh_exec e s2 (map (pair j) (idle_run c ord)) = Some s3 /\ s_ok (sh_proc s3 j) = true /\
       sh_disk s3 = sh_disk s2 /\ s_log (sh_proc s3 j) = s_log (sh_proc s2 j)).
Proof.
  intros T H P Pm Ex Hl S1 O S2.
  destruct (same_build rg e h (s_disk st) c Pm Ex (idle_safe rg e d0 evs h st T H P) (sh_start (s_disk st)) l1 i w l2 s1 s2
    eq_refl (fun _ => eq_refl) Hl S1 O S2) as (A & (t & B1 & B2)).
  split; [exact A|]. intros j ord Pj Oo Fk.
  destruct (idle_from e c t (with_disk (sh_proc s2 j) (sh_disk s2)) ord (nodup_sources e c (proj1 Pm)) Pj B1 B2 Oo Fk)
    as (st2 & X & Y1 & _ & Y2 & Y3).
  destruct (sh_alone e j _ s2 st2 X) as (s3 & Z1 & Z2 & Z3); [discriminate|].
  exists s3. rewrite Z3. split; [exact Z1|]. split; [exact Y1|]. split; [rewrite Z2; exact Y3|exact Y2].
Qed.
