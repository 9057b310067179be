(** A run with late calls can always come to its end. *)
From Verif Require Import Prelude Proof_Prelude Model_Path Model_Json Model_Schema Model_Command Model_ToolchainConfig Model_Target Model_Sync Spec_Sync
  Model_Api Spec_Api Spec_Target Proof_TargetBase Proof_TargetStep Proof_TargetMain Proof_TargetRuns Proof_Api Model_Late Spec_Late Proof_Late Proof_Late2.

Definition at_pch (p : pcount) : Prop := p = PcPch \/ p = PcPchExec.
Ltac nopch := let Q := fresh in intros Q; exfalso; unfold at_pch in Q; stp; destruct Q as [Q|Q]; discriminate Q.
Lemma at_pch_step e st ev l' o : (forall c r, ev <> EvStart c r) -> lstep e (LS st o) (LEv ev) = Some l' -> at_pch (s_pc (l_st l')) -> at_pch (s_pc st).
Proof.
  intros NS H. destruct ev; cbn [lstep l_st l_open step] in H.
  - injection H as <-. tauto.
  - injection H as <-. tauto.
  - destruct (s_pc st); try discriminate H; injection H as <-; nopch.
  - injection H as <-. tauto.
  - injection H as <-. tauto.
  - injection H as <-. tauto.
  - injection H as <-. tauto.
  - exfalso. exact (NS _ _ eq_refl).
  - destruct (s_pc st) eqn:PC; try discriminate H. intros _. apply or_introl. reflexivity.
  - destruct (s_pc st) eqn:PC; try discriminate H. intros _. apply or_intror. reflexivity.
  - destruct (s_pc st); try discriminate H. injection H as <-. cbn [l_st]. unfold obj_check. destruct (negb (s_ok st)); [nopch|].
    destruct (obj_pre _ _) as [u b]. destruct (negb b); [nopch|].
    match goal with |- context [let '(_, _) := ?X in _] => destruct X as [[sel dum] dy2] end. nopch.
  - destruct (mem_str s (sources (s_cfg st))).
    + destruct (s_pc st); try discriminate H. unfold compile_one in H. destruct (take_pending s pending) as [[i rest]|]; [|discriminate H].
      destruct (compile_command e (s_cfg st) s) as [cmd| |]; try discriminate H. injection H as <-. cbn [l_st]. destruct (run_res cmd r); nopch.
    + unfold late_compile in H. destruct (s_pc st); try discriminate H. destruct (take_pending s pending) as [[i rest]|]; [|discriminate H].
      injection H as <-. cbn [l_st]. nopch.
  - destruct (s_pc st) as [| | | |[|]| |]; try discriminate H. injection H as <-. cbn [l_st]. unfold link_check. destruct (negb (s_ok st)); [nopch|].
    destruct (link_pre _ _) as [u b]. destruct (negb b); [nopch|]. stp. match goal with |- context [if ?X then PcLinkExec else _] => destruct X end; nopch.
  - destruct (s_pc st); try discriminate H. unfold link_exec in H. destruct (link_command e (s_cfg st) (s_ord st)) as [cmd| |]; try discriminate H. injection H as <-. cbn [l_st].
    destruct (run_res cmd r); nopch.
  - destruct (s_pc st); try discriminate H. unfold end_task in H. destruct (s_dirty st).
    + destruct (store_text _) as [tx|].
      * destruct w; [injection H as <-|injection H as <-|destruct (short n tx); [|discriminate H]; injection H as <-; destruct reported_ok]; cbn [l_st]; nopch.
      * destruct w; try discriminate H. injection H as <-. cbn [l_st]. nopch.
    + destruct w; try discriminate H. injection H as <-. cbn [l_st]. nopch.
  - destruct (s_pc st); try discriminate H. destruct (s_dirty st); [|discriminate H].
    destruct (bind _ (short n)); [|discriminate H]. injection H as <-. cbn [l_st]. nopch.
Qed.
Lemma at_pch_run e run : one_process run -> forall l l', lexec e l (map LEv run) = Some l' -> at_pch (s_pc (l_st l')) -> at_pch (s_pc (l_st l)).
Proof.
  induction run as [|ev run IH]; intros NS l l' H A; cbn [map lexec] in H; [injection H as <-; exact A|].
  destruct (lstep e l (LEv ev)) as [l1|] eqn:E; [|discriminate H]. destruct l as [st o]. cbn [l_st].
  apply (at_pch_step e st ev l1 o (fun c r X => NS c r (or_introl X)) E). exact (IH (fun c r I => NS c r (or_intror I)) l1 l' H A).
Qed.

Section Ends.
Variables (e : tenv) (c : cfg) (ord : list string).
Hypothesis F : commands_fine e c ord.
Hypothesis OK : ord_ok ord (sources c) = true.
(** The tasks go on undisturbed until the process has come to its end. *)
Definition goes_on (l : lstate) : Prop :=
  exists run2 l2, Forall of_task run2 /\ lexec e l (map LEv run2) = Some l2 /\ s_pc (l_st l2) = Idle.
Lemma goes_on_step l ev l1 : of_task ev -> lstep e l (LEv ev) = Some l1 -> goes_on l1 -> goes_on l.
Proof.
  intros T H (r & l2 & A & B & C). exists (ev :: r), l2. split; [constructor; [exact T|exact A]|]. split; [|exact C]. cbn [map lexec]. rewrite H. exact B.
Qed.
Lemma on_end st o : s_pc st = PcEnd -> goes_on (LS st o).
Proof.
  intros P. destruct (end_task st WOk) as [st'|] eqn:E.
  - exists [EvEnd WOk], (LS st' false). split; [repeat constructor|]. split; [cbn [map lexec lstep l_st step]; rewrite P, E; reflexivity|]. cbn [l_st].
    unfold end_task in E. destruct (s_dirty st); [destruct (store_text _)|]; injection E as <-; reflexivity.
  - exfalso. unfold end_task in E. destruct (s_dirty st); [destruct (store_text _)|]; discriminate E.
Qed.
Lemma on_link st o : s_cfg st = c -> s_ord st = ord -> s_pc st = PcLinkExec -> goes_on (LS st o).
Proof.
  intros C O P. destruct (fine_link e ord c F) as (cmd & L & N).
  assert (E : exists st', link_exec e st XOk = Some st' /\ s_pc st' = PcEnd).
  { unfold link_exec. rewrite C, O, L. eexists. split; [reflexivity|]. rewrite (run_res_fine cmd XOk N). reflexivity. }
  destruct E as (st' & E & P'). apply (goes_on_step _ (EvLinkExec XOk) (LS st' false)); [exact Logic.I| |exact (on_end st' false P')].
  cbn [lstep l_st step]. rewrite P, E. reflexivity.
Qed.
Lemma on_compile n : forall st o p, s_cfg st = c -> s_ord st = ord -> s_pc st = PcCompile p -> length p = n -> goes_on (LS st o).
Proof.
  induction n as [|n IH]; intros st o p C O P L; destruct p as [|i p]; try discriminate L.
  - apply (goes_on_step _ EvLinkCheck (LS (link_check st) false)); [exact Logic.I|cbn [lstep l_st step]; rewrite P; reflexivity|].
    unfold link_check. destruct (negb (s_ok st)); [apply on_end; reflexivity|]. destruct (link_pre _ _) as [u b]. destruct (negb b); [apply on_end; reflexivity|].
    stp. match goal with |- context [if ?X then PcLinkExec else _] => destruct X end; [apply on_link; [exact C|exact O|reflexivity]|apply on_end; reflexivity].
  - assert (T : take_pending (pi_path i) (i :: p) = Some (i, p)) by (cbn [take_pending]; rewrite String.eqb_refl; reflexivity).
    assert (S1 : exists st', lstep e (LS st o) (LEv (EvCompile (pi_path i) XOk)) = Some (LS st' false) /\ s_cfg st' = c /\ s_ord st' = ord /\ s_pc st' = PcCompile p).
    { cbn [lstep l_st]. rewrite C. destruct (mem_str (pi_path i) (sources c)) eqn:M.
      - apply mem_str_In in M. cbn [step]. rewrite P. unfold compile_one. rewrite T, C.
        destruct (F (compile_command e c (pi_path i))) as (cmd & Q & N); [clear P T L IH|rewrite Q, (run_res_fine cmd XOk N); eexists; split; [reflexivity|]; stp; split; [exact C|split; [exact O|reflexivity]]].
        unfold all_commands. apply in_or_app. apply or_intror. apply in_or_app. apply or_introl. apply in_map. unfold ord_ok in OK. apply andb_true_iff in OK as [_ O2]. rewrite forallb_forall in O2. apply mem_str_In. exact (O2 _ M).
      - unfold late_compile. rewrite P, T. eexists. split; [reflexivity|]. stp. split; [exact C|split; [exact O|reflexivity]]. }
    destruct S1 as (st' & S1 & C' & O' & P'). apply (goes_on_step _ (EvCompile (pi_path i) XOk) _ Logic.I S1). apply (IH st' false p C' O' P'). injection L as L. exact L.
Qed.
Lemma on_obj st o : s_cfg st = c -> s_ord st = ord -> s_pc st = PcObj -> goes_on (LS st o).
Proof.
  intros C O P. apply (goes_on_step _ EvObjCheck (LS (obj_check st) false)); [exact Logic.I|cbn [lstep l_st step]; rewrite P; reflexivity|].
  unfold obj_check. destruct (negb (s_ok st)); [apply (on_compile 0 _ _ []); [exact C|exact O|reflexivity|reflexivity]|].
  destruct (obj_pre _ _) as [u b]. destruct (negb b); [apply (on_compile 0 _ _ []); [exact C|exact O|reflexivity|reflexivity]|].
  match goal with |- context [let '(_, _) := ?X in _] => destruct X as [[sel dum] dy2] end. apply (on_compile (length sel) _ _ sel); [exact C|exact O|reflexivity|reflexivity].
Qed.
Lemma on_pch_exec st o : contains_pch c = true -> s_cfg st = c -> s_ord st = ord -> s_pc st = PcPchExec -> goes_on (LS st o).
Proof.
  intros K C O P. destruct (fine_pch e ord c F K) as (cmd & L & N).
  assert (E : exists st', pch_exec e st XOk = Some st' /\ s_pc st' = PcObj /\ s_cfg st' = c /\ s_ord st' = ord).
  { unfold pch_exec. rewrite C, L. eexists. split; [reflexivity|]. rewrite (run_res_fine cmd XOk N). stp. split; [reflexivity|]. split; [exact C|exact O]. }
  destruct E as (st' & E & P' & C' & O'). apply (goes_on_step _ (EvPchExec XOk) (LS st' false)); [exact Logic.I| |exact (on_obj st' false C' O' P')].
  cbn [lstep l_st step]. rewrite P, E. reflexivity.
Qed.
Lemma on_pch st o : contains_pch c = true -> s_cfg st = c -> s_ord st = ord -> s_pc st = PcPch -> goes_on (LS st o).
Proof.
  intros K C O P. apply (goes_on_step _ EvPchCheck (LS (pch_check st) false)); [exact Logic.I|cbn [lstep l_st step]; rewrite P; reflexivity|].
  unfold pch_check. destruct (negb (s_ok st)); [apply on_obj; [exact C|exact O|reflexivity]|].
  destruct (pch_pre _ _) as [u b]. destruct (negb b); [apply on_obj; [exact C|exact O|reflexivity]|].
  match goal with |- context [if ?X then _ else _] => destruct X end; [apply on_pch_exec; [exact K|exact C|exact O|reflexivity]|apply on_obj; [exact C|exact O|reflexivity]].
Qed.
End Ends.

Theorem late_ends e u0 ord ls cs run st l : commands_fine e (cfg_of u0) ord -> one_process run -> lexec e (LS st false) (late_run e u0 ord ls cs run) = Some l ->
  s_pc (l_st l) <> Idle -> exists run2 l2, Forall of_task run2 /\ lexec e l (map LEv run2) = Some l2 /\ s_pc (l_st l2) = Idle.
Proof.
  intros F NS H PC.
  assert (OO : ord_ok ord (sources (cfg_of u0)) = true).
  { destruct (late_begin _ _ _ _ _ _ _ _ H) as (sa & _ & SA & _). exact (proj1 (start_fine _ _ _ _ _ F SA)). }
  assert (G : s_cfg (l_st l) = cfg_of u0 /\ s_ord (l_st l) = ord /\ (at_pch (s_pc (l_st l)) -> contains_pch (cfg_of u0) = true)).
  { apply late_begin in H as (sa & _ & _ & -> & H).
    assert (X : exists l0, lexec e l0 (map LEv run) = Some l /\ s_cfg (l_st l0) = cfg_of u0 /\ s_ord (l_st l0) = ord /\
              (at_pch (s_pc (l_st l0)) -> contains_pch (cfg_of u0) = true)).
    { destruct H as [(u1 & _ & H)|[_ H]]; eexists; (split; [exact H|]); cbn [l_st]; stp; (split; [reflexivity|]); (split; [reflexivity|]).
      - destruct (contains_pch (cfg_of u0)); [reflexivity|]. intros [Q|Q]; discriminate Q.
      - intros [Q|Q]; discriminate Q. }
    clear H. destruct X as (l0 & H & C & O & K).
    destruct (logged_run e (cfg_of u0) ord (s_log (l_st l0)) run NS l0 l) as (C' & O' & _); [|exact H|].
    { split; [exact C|]. split; [exact O|]. exists []. rewrite app_nil_r. split; [reflexivity|constructor]. }
    split; [exact C'|]. split; [exact O'|]. intros A. apply K. exact (at_pch_run e run NS l0 l H A). }
  destruct G as (C & O & K). destruct l as [s o]. cbn [l_st] in *. change (goes_on e (LS s o)). destruct (s_pc s) eqn:P.
  - contradiction.
  - exact (on_pch e (cfg_of u0) ord F OO s o (K (or_introl eq_refl)) C O P).
  - exact (on_pch_exec e (cfg_of u0) ord F OO s o (K (or_intror eq_refl)) C O P).
  - exact (on_obj e (cfg_of u0) ord F OO s o C O P).
  - exact (on_compile e (cfg_of u0) ord F OO _ s o _ C O P eq_refl).
  - exact (on_link e (cfg_of u0) ord F s o C O P).
  - exact (on_end e s o P).
Qed.
