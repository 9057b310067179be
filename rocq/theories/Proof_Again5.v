(** What a repeated run records, compared with a new process. *)
From Verif Require Import Prelude Proof_Prelude Model_Path Model_Json Model_Schema Proof_Dec Model_Command Spec_Command
  Model_ToolchainConfig Model_Target Spec_Target Proof_TargetBase Proof_TargetInv Proof_TargetRun
  Proof_TargetStep Proof_TargetStep2 Proof_TargetMain Model_Again Spec_Again Proof_Again Proof_Again2 Proof_Again3 Proof_Again4.

Definition pch_stage (p : pcount) : bool := match p with PcPch | PcPchExec => true | _ => false end.
Definition late1 (p : pcount) : bool := match p with PcCompile _ | PcLinkExec | PcEnd => true | _ => false end.
Definition late2 (p : pcount) : bool := match p with PcLinkExec | PcEnd => true | _ => false end.
(** Entries recorded earlier are not newer. *)
Definition Pair (old l : infolist) : Prop :=
  forall i j, In i old -> In j l -> pi_path i = pi_path j ->
  forall t t', pi_hash i = dec_of_N t -> pi_hash j = dec_of_N t' -> (t <= t')%N.

Definition NoPch (st : tstate) : Prop :=
  contains_pch (s_cfg st) = false -> ts_pch_compiled (s_buf st) = false /\ ts_pchs (s_buf st) = [] /\ pch_stage (s_pc st) = false.

Record Ext (old : infolist) (st sh : tstate) : Prop := {
  x_src : ts_sources (s_buf st) = old ++ ts_sources (s_buf sh);
  x_nopch : NoPch st;
  x_pchx : s_pc st = PcPchExec -> ts_pchs (s_user st) = ts_pchs (s_user sh);
  x_pch : contains_pch (s_cfg st) = true -> pch_stage (s_pc st) = false ->
          ts_pchs (s_buf st) = ts_pchs (s_buf sh) /\ ts_pch_compiled (s_buf sh) = true;
  x_obj : late1 (s_pc st) = true ->
          ts_headers (s_user st) = ts_headers (s_user sh) /\ ts_compile_deps (s_user st) = ts_compile_deps (s_user sh) /\
          s_dirty sh = s_dirty st;
  x_lnk : late2 (s_pc st) = true ->
          ts_libs (s_user st) = ts_libs (s_user sh) /\ ts_link_deps (s_user st) = ts_link_deps (s_user sh);
  x_pair : Pair old (ts_sources (s_buf sh) ++ pend (s_pc sh)) }.

Lemma Pair_sub (old l l' : infolist) : Pair old l -> incl l' l -> Pair old l'.
Proof. intros P I i j Hi Hj. exact (P i j Hi (I j Hj)). Qed.

Lemma fold_add_fields (dum : infolist) : forall b,
  ts_pchs (fold_left add_source dum b) = ts_pchs b /\ ts_pch_compiled (fold_left add_source dum b) = ts_pch_compiled b /\
  ts_sources (fold_left add_source dum b) = ts_sources b ++ map (fun i => PI (to_path_string (pi_path i)) (pi_hash i)) dum.
Proof.
  induction dum as [|i dum IH]; intros b; cbn [fold_left map]; [rewrite app_nil_r; auto|].
  destruct (IH (add_source b i)) as (A & B & C). rewrite A, B, C. tsp. unfold il_emplace. rewrite <- app_assoc. auto.
Qed.
Lemma link_pre_keeps (mt : times) (u u' : tschema) (b : bool) :
  link_pre mt u = (u', b) -> ts_headers u' = ts_headers u /\ ts_compile_deps u' = ts_compile_deps u.
Proof.
  unfold link_pre. destruct (hash_all mt (ts_libs u)) as [l b1]. destruct b1; [|intros [= <- <-]; split; reflexivity].
  destruct (hash_all mt _) as [d b2]. intros [= <- <-]. split; reflexivity.
Qed.

Section ExtStep.
Context (e : tenv) (k : bool) (L L' : list xcmd) (h : hist) (old : infolist) (st sh : tstate).
Context (M : Sim k L L' st sh) (X : Ext old st sh) (F : FB h st) (N : nextok h (d_mt (s_disk st))).

Lemma ext_pch_check : s_pc st = PcPch -> s_ok (pch_check st) = true -> Ext old (pch_check st) (pch_check sh).
Proof using M X.
  intros Pc. pose proof (m_mt _ _ _ _ _ M) as Mt. destruct M as [P C O K U U' D G LG]. destruct X as [X1 X2 X3 X4 X5 X6 X7].
  unfold pch_check. rewrite K. destruct (s_ok st) eqn:OK; cbn [negb]; [|stp; congruence]. rewrite Mt.
  destruct (pch_pre (d_mt (s_disk st)) (s_user st)) as [u x] eqn:E1.
  destruct (pch_pre (d_mt (s_disk st)) (s_user sh)) as [v y] eqn:E2.
  destruct (pch_pre_two _ _ _ _ _ _ _ _ U U' E1 E2) as (<- & Lu & Lv & XX).
  destruct x; cbn [negb]; [|stp; discriminate]. destruct (XX eq_refl) as [XX1 XX2]. stp.
  assert (Np : contains_pch (s_cfg st) = true).
  { destruct (contains_pch (s_cfg st)) eqn:E; [reflexivity|]. destruct (X2 E) as (_ & _ & Y). rewrite Pc in Y. discriminate Y. }
  assert (Q1 : forall d d' : bool, Ext old (with_pc (with_dirty (with_user st u) d) PcPchExec) (with_pc (with_dirty (with_user sh v) d') PcPchExec)).
  { intros d d'. constructor; stp; cbn [late1 late2 pch_stage]; try congruence.
    - intros Y. stp. congruence.
    - apply (Pair_sub old _ _ X7). intros i Hi. rewrite in_app_iff in *. cbn [pend In] in *. tauto. }
  destruct k.
  - destruct G as [G1 G2]. rewrite G1, G2. cbn [orb]. rewrite orb_true_r. intros _. apply Q1.
  - destruct G as [G1 G2]. rewrite G1, G2.
    replace (match s_load st with None => true | Some l => negb (pch_same l v) end)
      with (match s_load st with None => true | Some l => negb (pch_same l u) end).
    2:{ destruct (s_load st); [|reflexivity]. rewrite (pch_same_two (s_cfg st) t u v); auto. }
    destruct (s_dirty st || _) eqn:Dd; intros _; [apply Q1|].
    constructor; stp; tsp; cbn [late1 late2 pch_stage]; try congruence.
    + intros Y. stp. congruence.
    + auto.
    + apply (Pair_sub old _ _ X7). intros i Hi. rewrite in_app_iff in *. cbn [pend In] in *. tauto.
Qed.

Lemma ext_obj_check : s_pc st = PcObj -> s_ok (obj_check st) = true -> Ext old (obj_check st) (obj_check sh).
Proof using M X F N.
  intros Pc Ok. pose proof (m_mt _ _ _ _ _ M) as Mt. pose proof (sim_obj_check _ _ _ _ _ M) as M'.
  pose proof M as [P C O K U U' D G LG]. pose proof X as [X1 X2 X3 X4 X5 X6 X7].
  assert (Pr : Pair old (ts_sources (s_buf (obj_check sh)) ++ pend (s_pc (obj_check sh)))).
  { assert (Lsh : like (s_cfg sh) (s_user sh)) by (rewrite C; exact U').
    assert (Osh : s_ok (obj_check sh) = true) by (rewrite (m_ok _ _ _ _ _ M'); exact Ok).
    destruct (obj_check_new sh Lsh Osh) as (new & E1 & E2). rewrite E1. intros i j Hi Hj Pij t t' Ht Ht'.
    apply in_app_iff in Hj as [Hj|Hj].
    - apply (X7 i j Hi); [apply in_app_iff; left; exact Hj|exact Pij|exact Ht|exact Ht'].
    - destruct (E2 j Hj) as (_ & (t1 & M1 & M2)). rewrite M2 in Ht'. apply dec_of_N_inj in Ht'. subst t1.
      destruct (F i) as (_ & t2 & B1 & _ & B3); [apply in_app_iff; left; rewrite X1; apply in_app_iff; left; exact Hi|].
      rewrite B1 in Ht. apply dec_of_N_inj in Ht. subst t2. apply B3. rewrite Pij, <- Mt. exact M1. }
  revert Ok Pr. unfold obj_check. rewrite K. destruct (s_ok st) eqn:OK; cbn [negb]; [|stp; congruence]. rewrite Mt.
  destruct (obj_pre (d_mt (s_disk st)) (s_user st)) as [u x] eqn:E1.
  destruct (obj_pre (d_mt (s_disk st)) (s_user sh)) as [v y] eqn:E2.
  destruct (obj_pre_two _ _ _ _ _ _ _ _ U U' E1 E2) as (<- & Lu & Lv & XX).
  destruct x; cbn [negb]; [|stp; discriminate]. destruct (XX eq_refl) as (XX0 & XX1 & XX2). stp.
  assert (Q1 : forall (d : bool) dum sel,
    Pair old (ts_sources (fold_left add_source dum (s_buf sh)) ++ pend (PcCompile sel)) ->
    Ext old (with_pc (with_buf (with_dirty (with_user st u) d) (fold_left add_source dum (s_buf st))) (PcCompile sel))
            (with_pc (with_buf (with_dirty (with_user sh v) d) (fold_left add_source dum (s_buf sh))) (PcCompile sel))).
  { intros d dum sel Pr. destruct (fold_add_fields dum (s_buf st)) as (A1 & A2 & A3).
    destruct (fold_add_fields dum (s_buf sh)) as (B1 & B2 & B3).
    constructor; stp; cbn [late1 late2 pch_stage]; try congruence.
    - rewrite A3, B3, X1, app_assoc. reflexivity.
    - intros Y. stp. destruct (X2 Y) as (Y1 & Y2 & _). rewrite A1, A2. auto.
    - intros Y _. rewrite A1, B1, B2. apply (X4 Y). rewrite Pc. reflexivity.
    - auto.
    - exact Pr. }
  destruct k.
  - destruct G as [G1 G2]. rewrite G1, G2. cbn [orb].
    replace (match s_load st with None => true | Some _ => true end) with true by (destruct (s_load st); reflexivity).
    rewrite XX0. intros _ Pr. exact (Q1 true [] (ts_sources v) Pr).
  - destruct G as [G1 G2]. rewrite G1, G2.
    replace (match s_load st with None => true | Some l => s_dirty st || negb (obj_same l v) end)
      with (match s_load st with None => true | Some l => s_dirty st || negb (obj_same l u) end).
    2:{ destruct (s_load st); [|reflexivity]. rewrite (obj_same_two (s_cfg st) t u v); auto. }
    rewrite <- XX0.
    match goal with |- context [if ?b then (ts_sources ?x, [], true) else ?y] => destruct (if b then (ts_sources x, [], true) else y) as [[sel dum] dd] end.
    stp. intros _ Pr. exact (Q1 dd dum sel Pr).
Qed.

Lemma ext_link_check : late1 (s_pc st) = true -> s_ok (link_check st) = true -> Ext old (link_check st) (link_check sh).
Proof using M X.
  intros Pc. pose proof (m_mt _ _ _ _ _ M) as Mt. destruct M as [P C O K U U' D G LG]. destruct X as [X1 X2 X3 X4 X5 X6 X7].
  unfold link_check. rewrite K. destruct (s_ok st) eqn:OK; cbn [negb]; [|stp; congruence]. rewrite Mt.
  destruct (link_pre (d_mt (s_disk st)) (s_user st)) as [u x] eqn:E1.
  destruct (link_pre (d_mt (s_disk st)) (s_user sh)) as [v y] eqn:E2.
  destruct (link_pre_two _ _ _ _ _ _ _ _ U U' E1 E2) as (<- & Lu & Lv & XX).
  destruct x; cbn [negb]; [|stp; discriminate]. destruct (XX eq_refl) as [XX1 XX2]. stp.
  destruct (link_pre_keeps _ _ _ _ E1) as [Y1 Y2]. destruct (link_pre_keeps _ _ _ _ E2) as [Z1 Z2]. destruct (X5 Pc) as (W1 & W2 & W3).
  assert (PS : pch_stage (s_pc st) = false) by (destruct (s_pc st); try discriminate Pc; reflexivity).
  assert (Q1 : forall d : bool, Ext old (with_pc (with_dirty (with_user st u) d) (if d then PcLinkExec else PcEnd))
                                        (with_pc (with_dirty (with_user sh v) d) (if d then PcLinkExec else PcEnd))).
  { intros d. assert (PS' : pch_stage (if d then PcLinkExec else PcEnd) = false) by (destruct d; reflexivity).
    constructor; stp; try assumption.
    - intros Y. stp. destruct (X2 Y) as (V1 & V2 & _). auto.
    - intros Y. destruct d; discriminate Y.
    - intros Y _. exact (X4 Y PS).
    - intros _. split; [congruence|]. split; [congruence|reflexivity].
    - intros _. split; congruence.
    - apply (Pair_sub old _ _ X7). intros i Hi. rewrite in_app_iff in *. destruct d; cbn [pend In] in *; tauto. }
  destruct k.
  - destruct G as [G1 G2]. rewrite G1, G2. cbn [orb].
    replace (match s_load st with None => true | Some _ => true end) with true by (destruct (s_load st); reflexivity). intros _. exact (Q1 true).
  - destruct G as [G1 G2]. rewrite G1, G2.
    replace (match s_load st with None => true | Some l => s_dirty st || negb (link_same l v) end)
      with (match s_load st with None => true | Some l => s_dirty st || negb (link_same l u) end).
    2:{ destruct (s_load st); [|reflexivity]. rewrite (link_same_two (s_cfg st) t u v); auto. }
    intros _. apply Q1.
Qed.

Lemma ext_step (ev : event) (st' sh' : tstate) :
  of_run ev = true -> step e st ev = Some st' -> step e sh ev = Some sh' -> s_ok st' = true -> Ext old st' sh'.
Proof using M X F N.
  intros OR H H' Ok. pose proof (m_pc _ _ _ _ _ M) as P. pose proof (m_cfg _ _ _ _ _ M) as C. pose proof (m_ord _ _ _ _ _ M) as Or.
  destruct ev; try discriminate OR; cbn [step] in *; rewrite ?P in H'.
  - injection H as <-. injection H' as <-. destruct X. constructor; stp; assumption.
  - injection H as <-. injection H' as <-. stp. discriminate Ok.
  - injection H as <-. injection H' as <-. destruct X. constructor; stp; assumption.
  - injection H as <-. injection H' as <-. destruct X. constructor; stp; assumption.
  - injection H as <-. injection H' as <-. destruct X. constructor; stp; assumption.
  - destruct (s_pc st) eqn:E; try discriminate H. injection H as <-. injection H' as <-. apply ext_pch_check; assumption.
  - destruct (s_pc st) eqn:E; try discriminate H. unfold pch_exec in H, H'. rewrite C in H'.
    destruct (pch_command e (s_cfg st)) as [cmd| |]; try discriminate H. injection H as <-. injection H' as <-.
    destruct (run_res cmd r) as [|lo|]; stp; try discriminate Ok. destruct X as [X1 X2 X3 X4 X5 X6 X7].
    constructor; stp; tsp; cbn [late1 late2 pch_stage]; try congruence.
    + intros Y. stp. destruct (X2 Y) as (_ & _ & Y3). rewrite E in Y3. discriminate Y3.
    + intros _ _. split; [exact (X3 E)|reflexivity].
    + apply (Pair_sub old _ _ X7). intros i Hi. rewrite in_app_iff in *. cbn [pend In] in *. tauto.
  - destruct (s_pc st) eqn:E; try discriminate H. injection H as <-. injection H' as <-. apply ext_obj_check; assumption.
  - destruct (s_pc st) eqn:E; try discriminate H. unfold compile_one in H, H'. rewrite C in H'.
    destruct (take_pending s pending) as [[i rest]|] eqn:TP; [|discriminate H].
    destruct (compile_command e (s_cfg st) s) as [cmd| |]; try discriminate H. injection H as <-. injection H' as <-.
    destruct (run_res cmd r) as [|lo|]; stp; try discriminate Ok. apply take_pending_spec in TP as [TP1 TP2].
    assert (NX : npath (pi_path i)).
    { pose proof (sources_npath (s_cfg st)) as NP. rewrite Forall_forall in NP. apply NP. apply (F i). apply in_app_iff. right.
      rewrite E. cbn [pend]. rewrite TP2. left. reflexivity. }
    destruct X as [X1 X2 X3 X4 X5 X6 X7]. rewrite E in *.
    constructor; stp; rewrite ?(add_source_npath _ i NX); tsp; cbn [late1 late2 pch_stage]; try congruence.
    + rewrite X1, app_assoc. reflexivity.
    + intros Y. stp. destruct (X2 Y) as (Y1 & Y2 & _). auto.
    + intros Y _. exact (X4 Y eq_refl).
    + intros _. exact (X5 eq_refl).
    + apply (Pair_sub old _ _ X7). rewrite P. cbn [pend]. intros x Hx. rewrite !in_app_iff in *. rewrite TP2. cbn [In] in *. tauto.
  - destruct (s_pc st) as [| | | |[|? ?]| |] eqn:E; try discriminate H. injection H as <-. injection H' as <-.
    apply ext_link_check; [rewrite E; reflexivity|exact Ok].
  - destruct (s_pc st) eqn:E; try discriminate H. unfold link_exec in H, H'. rewrite C, Or in H'.
    destruct (link_command e (s_cfg st) (s_ord st)) as [cmd| |]; try discriminate H. injection H as <-. injection H' as <-.
    destruct (run_res cmd r) as [|lo|]; stp; try discriminate Ok. destruct X as [X1 X2 X3 X4 X5 X6 X7]. rewrite E in *.
    constructor; stp; tsp; cbn [late1 late2 pch_stage]; try congruence.
    + intros Y. stp. destruct (X2 Y) as (Y1 & Y2 & _). auto.
    + intros Y _. exact (X4 Y eq_refl).
    + intros _. exact (X5 eq_refl).
    + intros _. exact (X6 eq_refl).
    + apply (Pair_sub old _ _ X7). rewrite P. intros x Hx. rewrite !in_app_iff in *. cbn [pend In] in *. tauto.
Qed.
End ExtStep.
