(** Repeated runs: what every process keeps, the comparison with a new process,
    and success. *)
From Verif Require Import Prelude Proof_Prelude Model_Path Model_Json Model_Schema Model_Command Spec_Command
  Model_ToolchainConfig Model_Target Spec_Target Proof_TargetBase Proof_TargetInv Proof_TargetRun
  Proof_TargetStep Proof_TargetStep2 Proof_TargetMain Model_Again Spec_Again Proof_Again.

Definition startable (e : tenv) (c : cfg) (ord : list string) : Prop :=
  negb (ord_ok ord (sources c)) || existsb is_fother (all_commands e c ord) = false /\
  forallb is_fok (all_commands e c ord) = true.

Definition started (st : tstate) (c : cfg) (ord : list string) : tstate :=
  ST (s_disk st) (if contains_pch c then PcPch else PcObj) c ord (user_of c)
     (stored (s_disk st)) ts_default false true (s_log st).

Lemma start_startable e st c ord : startable e c ord -> start e st c ord = Some (started st c ord).
Proof. intros [A B]. unfold start. rewrite A, B. reflexivity. Qed.
Lemma start_cases e st c ord st' : start e st c ord = Some st' ->
  (startable e c ord /\ st' = started st c ord) \/ st' = with_ok st false.
Proof.
  unfold start, startable. destruct (_ || _); [discriminate|]. destruct (forallb _ _).
  - intros [= <-]. left. split; [split; reflexivity|reflexivity].
  - intros [= <-]. right. reflexivity.
Qed.

Definition idleb (p : pcount) : bool := match p with Idle => true | _ => false end.
Lemma idleb_true p : idleb p = true -> p = Idle.
Proof. destruct p; [reflexivity|discriminate..]. Qed.
Lemma idleb_false p : idleb p = false -> p <> Idle.
Proof. intros H E. rewrite E in H. discriminate. Qed.
Lemma not_idle p : p <> Idle -> idleb p = false.
Proof. destruct p; [intros H; destruct (H eq_refl)|reflexivity..]. Qed.

Lemma run_keeps e st ev st' : of_run ev = true -> step e st ev = Some st' ->
  s_cfg st' = s_cfg st /\ s_ord st' = s_ord st /\ idleb (s_pc st') = idleb (s_pc st).
Proof.
  intros OR H. destruct ev; try discriminate OR; cbn [step] in H.
  1-5: injection H as <-; stp; auto.
  - destruct (s_pc st) eqn:E; try discriminate H. injection H as <-. unfold pch_check.
    destruct (negb (s_ok st)); [stp; auto|]. destruct (pch_pre _ _) as [u b]. destruct (negb b); [stp; auto|].
    destruct (_ || _); stp; auto.
  - destruct (s_pc st) eqn:E; try discriminate H. unfold pch_exec in H. destruct (pch_command _ _); try discriminate H.
    injection H as <-. destruct (run_res _ _); stp; auto.
  - destruct (s_pc st) eqn:E; try discriminate H. injection H as <-. unfold obj_check.
    destruct (negb (s_ok st)); [stp; auto|]. destruct (obj_pre _ _) as [u b]. destruct (negb b); [stp; auto|].
    match goal with |- context [if ?b then (ts_sources ?x, [], true) else ?y] => destruct (if b then (ts_sources x, [], true) else y) as [[sel dum] dd] end. stp; auto.
  - destruct (s_pc st) eqn:E; try discriminate H. unfold compile_one in H. destruct (take_pending _ _) as [[i r']|]; [|discriminate H].
    destruct (compile_command _ _ _); try discriminate H.
    injection H as <-. destruct (run_res _ _); stp; auto.
  - destruct (s_pc st) as [| | | |[|? ?]| |] eqn:E; try discriminate H. injection H as <-. unfold link_check.
    destruct (negb (s_ok st)); [stp; auto|]. destruct (link_pre _ _) as [u b]. destruct (negb b); [stp; auto|].
    match goal with |- context [with_dirty _ ?r] => destruct r end; stp; auto.
  - destruct (s_pc st) eqn:E; try discriminate H. unfold link_exec in H. destruct (link_command _ _ _); try discriminate H.
    injection H as <-. destruct (run_res _ _); stp; auto.
Qed.

Lemma Sim_refl st : like (s_cfg st) (s_user st) -> Sim false [] [] st st.
Proof. intros L. constructor; auto. exists (s_log st). auto. Qed.
Lemma run_like e st ev st' : of_run ev = true -> step e st ev = Some st' ->
  like (s_cfg st) (s_user st) -> like (s_cfg st') (s_user st').
Proof.
  intros OR H L. destruct (sim_step e false [] [] st st (Sim_refl st L) ev st' OR H) as (sh' & _ & S).
  exact (m_like _ _ _ _ _ S).
Qed.

Lemma end_keeps e st w st' : step e st (EvEnd w) = Some st' ->
  s_ord st' = s_ord st /\ s_user st' = s_user st /\ s_load st' = s_load st.
Proof.
  cbn [step]. destruct (s_pc st); try discriminate. unfold end_task. intros H. destruct (s_dirty st).
  - destruct (store_text _); [destruct w as [| |n r]|destruct w; try discriminate H].
    + injection H as <-. stp. auto.
    + injection H as <-. stp. auto.
    + destruct (short _ _); [|discriminate H]. injection H as <-. destruct r; stp; auto.
    + injection H as <-. stp. auto.
  - destruct w; try discriminate H. injection H as <-. stp. auto.
Qed.
Lemma crash_idle e st st' : step e st EvCrash = Some st' -> s_pc st' = Idle.
Proof. cbn [step]. destruct (s_pc st); intros H; try discriminate H; injection H as <-; reflexivity. Qed.
Lemma crash_end_idle e st n st' : step e st (EvCrashEnd n) = Some st' -> s_pc st' = Idle.
Proof.
  cbn [step]. destruct (s_pc st); intros H; try discriminate H. destruct (s_dirty st); [|discriminate H].
  destruct (bind _ _); [|discriminate H]. injection H as <-. reflexivity.
Qed.

(** ** What every process keeps *)

Definition Ready (e : tenv) (st : tstate) : Prop :=
  startable e (s_cfg st) (s_ord st) /\ like (s_cfg st) (s_user st).
Definition AInv (e : tenv) (a : astate) : Prop :=
  match a_phase a with
  | Out => s_pc (a_st a) = Idle
  | Rest _ => s_pc (a_st a) = Idle /\ Ready e (a_st a)
  | First | Rep => s_pc (a_st a) <> Idle /\ Ready e (a_st a)
  end.

Lemma AInv_run e a ev st' : of_run ev = true -> step e (a_st a) ev = Some st' -> AInv e a -> AInv e (AS st' (a_dirty a) (a_phase a)).
Proof.
  intros OR S I. destruct (run_keeps e _ _ _ OR S) as (C & O & P). unfold AInv in *. cbn [a_phase a_st].
  assert (X : Ready e (a_st a) -> Ready e st').
  { intros [A B]. split; [rewrite C, O; exact A|exact (run_like e _ _ _ OR S B)]. }
  destruct (a_phase a).
  - rewrite I in P. apply idleb_true. exact P.
  - destruct I as [I1 I2]. split; [|exact (X I2)]. apply idleb_false. rewrite P. apply not_idle. exact I1.
  - destruct I as [I1 I2]. split; [|exact (X I2)]. rewrite I1 in P. apply idleb_true. exact P.
  - destruct I as [I1 I2]. split; [|exact (X I2)]. apply idleb_false. rewrite P. apply not_idle. exact I1.
Qed.

Lemma again_pc (c : cfg) : (if contains_pch c then PcPch else PcObj) <> Idle.
Proof. destruct (contains_pch c); discriminate. Qed.

Lemma AInv_step e a ev a' : astep e a ev = Some a' -> AInv e a -> AInv e a'.
Proof.
  intros S I. destruct ev as [x| |]; cbn [astep] in S.
  - destruct (step e (a_st a) x) as [st'|] eqn:Sx; [|discriminate S].
    destruct (of_run x) eqn:OR.
    { assert (S' : Some (AS st' (a_dirty a) (a_phase a)) = Some a') by (destruct x; try discriminate OR; exact S).
      injection S' as <-. exact (AInv_run e a x st' OR Sx I). }
    destruct x; try discriminate OR.
    + injection S as <-. unfold AInv. cbn. exact (crash_idle e _ _ Sx).
    + cbn [step] in Sx. injection Sx as <-. injection S as <-. unfold AInv, Ready in *. cbn [a_st a_phase]. stp. exact I.
    + unfold AInv in I. destruct (a_phase a); try discriminate S. cbn [step] in Sx. rewrite I in Sx. injection S as <-.
      apply start_cases in Sx as [[A ->]| ->]; unfold AInv; cbn [a_phase a_st]; stp.
      * unfold started. stp. destruct (contains_pch c); cbn [a_phase]; (split; [discriminate|]); (split; [exact A|apply like_user]).
      * rewrite I. reflexivity.
    + injection S as <-. destruct (step_end _ _ _ _ Sx) as (P1 & P2 & P3 & _). destruct (end_keeps e _ _ _ Sx) as (K1 & K2 & _).
      unfold AInv in *. cbn [a_phase a_st]. destruct (s_ok st') eqn:Ok.
      * split; [exact P2|]. unfold Ready. rewrite P3, K1, K2.
        destruct (a_phase a); [rewrite I in P1; discriminate P1| exact (proj2 I)..].
      * exact P2.
    + injection S as <-. unfold AInv. cbn. exact (crash_end_idle e _ _ _ Sx).
  - unfold AInv in I. destruct (a_phase a); try discriminate S. destruct (s_ok (a_st a)); [|discriminate S]. injection S as <-.
    unfold AInv. cbn [a_phase a_st]. stp. split; [apply again_pc|]. destruct I as [_ I]. exact I.
  - unfold AInv in I. destruct (a_phase a); try discriminate S. injection S as <-. exact (proj1 I).
Qed.
Lemma AInv_exec e : forall evs a a', aexec e a evs = Some a' -> AInv e a -> AInv e a'.
Proof.
  induction evs as [|ev evs IH]; intros a a' H I; cbn [aexec] in H; [injection H as <-; exact I|].
  destruct (astep e a ev) as [a1|] eqn:S; [|discriminate H]. exact (IH a1 a' H (AInv_step e a ev a1 S I)).
Qed.
Lemma AInv_init e d : AInv e (ainit d).
Proof. reflexivity. Qed.

(** ** The repeated run and the new process *)

Lemma again_Sim e a (k : bool) (sh : tstate) :
  Ready e (a_st a) -> a_dirty a = k ->
  s_ok (a_st a) = true ->
  s_disk sh = (if k then set_store (s_disk (a_st a)) None else s_disk (a_st a)) ->
  (k = false -> s_load (a_st a) = stored (s_disk (a_st a))) ->
  Sim k (s_log (a_st a)) (s_log sh)
    (with_pc (with_dirty (a_st a) (a_dirty a)) (if contains_pch (s_cfg (a_st a)) then PcPch else PcObj))
    (started sh (s_cfg (a_st a)) (s_ord (a_st a))).
Proof.
  intros [A B] D O K Ld. unfold started. constructor; stp; auto.
  - apply like_user.
  - destruct k; [split; [exact D|]|split; [congruence|]].
    + rewrite K. reflexivity.
    + rewrite K, (Ld eq_refl). reflexivity.
  - exists []. rewrite !app_nil_r. auto.
Qed.

Lemma sim_exec e k L L' : forall evs a sh a',
  forallb of_run evs = true -> Sim k L L' (a_st a) sh -> aexec e a (map AOnce evs) = Some a' ->
  exists sh', exec e sh evs = Some sh' /\ Sim k L L' (a_st a') sh' /\ a_phase a' = a_phase a.
Proof.
  induction evs as [|ev evs IH]; intros a sh a' F S H; cbn [map aexec exec forallb] in *.
  - injection H as <-. exists sh. auto.
  - apply andb_true_iff in F as [F1 F2]. destruct (astep e a (AOnce ev)) as [a1|] eqn:Sa; [|discriminate H].
    cbn [astep] in Sa. destruct (step e (a_st a) ev) as [st'|] eqn:Sx; [|discriminate Sa].
    assert (S' : Some (AS st' (a_dirty a) (a_phase a)) = Some a1) by (destruct ev; try discriminate F1; exact Sa).
    injection S' as <-. destruct (sim_step e k L L' _ _ S ev st' F1 Sx) as (sh1 & Ssh & S1). rewrite Ssh.
    destruct (IH (AS st' (a_dirty a) (a_phase a)) sh1 a' F2 S1 H) as (sh' & X1 & X2 & X3). exists sh'. auto.
Qed.

Theorem again_fresh e d0 pre a evs a' :
  aexec e (ainit d0) pre = Some a -> a_dirty a = true -> forallb of_run evs = true ->
  aexec e a (AAgain :: map AOnce evs) = Some a' ->
  exists sh, exec e (init (s_disk (a_st a))) (EvStart (s_cfg (a_st a)) (s_ord (a_st a)) :: evs) = Some sh /\
    s_pc (a_st a') = s_pc sh /\ s_ok (a_st a') = s_ok sh /\ same_build (s_disk (a_st a')) (s_disk sh) /\
    s_log (a_st a') = s_log (a_st a) ++ s_log sh.
Proof.
  intros H D F X. pose proof (AInv_exec e _ _ _ H (AInv_init e d0)) as I.
  cbn [aexec] in X. destruct (astep e a AAgain) as [a1|] eqn:Sa; [|discriminate X]. cbn [astep] in Sa. unfold AInv in I.
  destruct (a_phase a); try discriminate Sa. destruct (s_ok (a_st a)) eqn:Ok; [|discriminate Sa]. injection Sa as <-.
  destruct I as [I1 I2].
  pose proof (again_Sim e a true (init (s_disk (a_st a))) I2 D Ok eq_refl) as S0.
  destruct (sim_exec e true _ _ evs (AS (with_pc (with_dirty (a_st a) (a_dirty a))
     (if contains_pch (s_cfg (a_st a)) then PcPch else PcObj)) (a_dirty a) Rep) _ a' F (S0 ltac:(discriminate)) X) as (sh & X1 & X2 & _).
  exists sh. cbn [exec step]. change (s_pc (init (s_disk (a_st a)))) with Idle. cbn iota.
  rewrite (start_startable _ _ _ _ (proj1 I2)). split; [exact X1|]. destruct X2 as [P C O K U U' Dk G (x & LG1 & LG2)].
  split; [congruence|]. split; [congruence|]. split.
  - rewrite Dk. repeat split.
  - cbn [init s_log] in LG2. cbn [app] in LG2. congruence.
Qed.
