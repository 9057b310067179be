(** Which commands a late description runs, and when it makes no difference. *)
From Verif Require Import Prelude Proof_Prelude Model_Path Model_Json Model_Schema Model_Command Model_ToolchainConfig Model_Target Model_Sync Spec_Sync
  Model_Api Spec_Api Spec_Target Proof_TargetBase Proof_TargetStep Proof_TargetMain Proof_TargetRuns Proof_Api Model_Late Spec_Late Proof_Late.

(** ** Commands *)
Definition Logged (e : tenv) (c : cfg) (ord : list string) (L0 : list xcmd) (st : tstate) : Prop :=
  s_cfg st = c /\ s_ord st = ord /\ exists x, s_log st = L0 ++ x /\ Forall (issued e c ord) x.
Lemma logged_more e c ord L0 st st' x : Logged e c ord L0 st -> s_cfg st' = s_cfg st -> s_ord st' = s_ord st -> s_log st' = s_log st ++ [x] ->
  issued e c ord x -> Logged e c ord L0 st'.
Proof.
  intros (A & B & y & C & D) E F G I. split; [congruence|]. split; [congruence|]. exists (y ++ [x]). rewrite G, C, app_assoc. split; [reflexivity|].
  apply Forall_app. split; [exact D|repeat constructor; exact I].
Qed.
Lemma logged_same e c ord L0 st st' : Logged e c ord L0 st -> s_cfg st' = s_cfg st -> s_ord st' = s_ord st -> s_log st' = s_log st -> Logged e c ord L0 st'.
Proof. intros (A & B & y & C & D) E F G. split; [congruence|]. split; [congruence|]. exists y. rewrite G. split; [exact C|exact D]. Qed.

Lemma logged_step e c ord L0 st ev l' o : (forall c r, ev <> EvStart c r) -> Logged e c ord L0 st ->
  lstep e (LS st o) (LEv ev) = Some l' -> Logged e c ord L0 (l_st l').
Proof.
  intros NS G H. pose proof G as (A & B & _). destruct ev; cbn [lstep l_st l_open step] in H.
  - injection H as <-. apply (logged_same _ _ _ _ _ _ G); reflexivity.
  - injection H as <-. apply (logged_same _ _ _ _ _ _ G); reflexivity.
  - destruct (s_pc st); try discriminate H; injection H as <-; apply (logged_same _ _ _ _ _ _ G); reflexivity.
  - injection H as <-. apply (logged_same _ _ _ _ _ _ G); reflexivity.
  - injection H as <-. apply (logged_same _ _ _ _ _ _ G); reflexivity.
  - injection H as <-. apply (logged_same _ _ _ _ _ _ G); reflexivity.
  - injection H as <-. apply (logged_same _ _ _ _ _ _ G); reflexivity.
  - exfalso. exact (NS _ _ eq_refl).
  - destruct (s_pc st); try discriminate H. injection H as <-. cbn [l_st]. unfold pch_check. destruct (negb (s_ok st)); [apply (logged_same _ _ _ _ _ _ G); reflexivity|].
    destruct (pch_pre _ _) as [u b]. destruct (negb b); [apply (logged_same _ _ _ _ _ _ G); reflexivity|].
    match goal with |- context [if ?X then _ else _] => destruct X end; apply (logged_same _ _ _ _ _ _ G); reflexivity.
  - destruct (s_pc st); try discriminate H. unfold pch_exec in H. destruct (pch_command e (s_cfg st)) as [cmd| |] eqn:E; try discriminate H. injection H as <-. cbn [l_st].
    rewrite A in E. destruct (run_res cmd r);
      first [apply (logged_more _ _ _ _ _ _ (XPch cmd) G); [reflexivity|reflexivity|reflexivity|exact E] | apply (logged_same _ _ _ _ _ _ G); reflexivity].
  - destruct (s_pc st); try discriminate H. injection H as <-. cbn [l_st]. unfold obj_check. destruct (negb (s_ok st)); [apply (logged_same _ _ _ _ _ _ G); reflexivity|].
    destruct (obj_pre _ _) as [u b]. destruct (negb b); [apply (logged_same _ _ _ _ _ _ G); reflexivity|].
    match goal with |- context [let '(_, _) := ?X in _] => destruct X as [[sel dum] dy2] end. apply (logged_same _ _ _ _ _ _ G); reflexivity.
  - destruct (mem_str s (sources (s_cfg st))) eqn:M.
    + destruct (s_pc st); try discriminate H. unfold compile_one in H. destruct (take_pending s pending) as [[i rest]|]; [|discriminate H].
      destruct (compile_command e (s_cfg st) s) as [cmd| |] eqn:E; try discriminate H. injection H as <-. cbn [l_st].
      apply mem_str_In in M. rewrite A in E, M. destruct (run_res cmd r);
        first [apply (logged_more _ _ _ _ _ _ (XObj s cmd) G); [reflexivity|reflexivity|reflexivity|exact (conj M E)] | apply (logged_same _ _ _ _ _ _ G); reflexivity].
    + unfold late_compile in H. destruct (s_pc st); try discriminate H. destruct (take_pending s pending) as [[i rest]|]; [|discriminate H].
      injection H as <-. apply (logged_same _ _ _ _ _ _ G); reflexivity.
  - destruct (s_pc st) as [| | | |[|]| |]; try discriminate H. injection H as <-. cbn [l_st]. unfold link_check. destruct (negb (s_ok st)); [apply (logged_same _ _ _ _ _ _ G); reflexivity|].
    destruct (link_pre _ _) as [u b]. destruct (negb b); [apply (logged_same _ _ _ _ _ _ G); reflexivity|]. apply (logged_same _ _ _ _ _ _ G); reflexivity.
  - destruct (s_pc st); try discriminate H. unfold link_exec in H. destruct (link_command e (s_cfg st) (s_ord st)) as [cmd| |] eqn:E; try discriminate H. injection H as <-. cbn [l_st].
    rewrite A, B in E. destruct (run_res cmd r);
      first [apply (logged_more _ _ _ _ _ _ (XLink cmd) G); [reflexivity|reflexivity|reflexivity|exact E] | apply (logged_same _ _ _ _ _ _ G); reflexivity].
  - destruct (s_pc st); try discriminate H. unfold end_task in H. destruct (s_dirty st).
    + destruct (store_text _) as [tx|].
      * destruct w; [injection H as <-|injection H as <-|destruct (short n tx); [|discriminate H]; injection H as <-; destruct reported_ok];
          apply (logged_same _ _ _ _ _ _ G); reflexivity.
      * destruct w; try discriminate H. injection H as <-. apply (logged_same _ _ _ _ _ _ G); reflexivity.
    + destruct w; try discriminate H. injection H as <-. apply (logged_same _ _ _ _ _ _ G); reflexivity.
  - destruct (s_pc st); try discriminate H. destruct (s_dirty st); [|discriminate H].
    destruct (bind _ (short n)); [|discriminate H]. injection H as <-. apply (logged_same _ _ _ _ _ _ G); reflexivity.
Qed.
Lemma logged_run e c ord L0 run : one_process run -> forall l l', Logged e c ord L0 (l_st l) -> lexec e l (map LEv run) = Some l' -> Logged e c ord L0 (l_st l').
Proof.
  induction run as [|ev run IH]; intros NS l l' G H; cbn [map lexec] in H; [injection H as <-; exact G|].
  destruct (lstep e l (LEv ev)) as [l1|] eqn:E; [|discriminate H]. destruct l as [st o].
  apply (IH (fun c r I => NS c r (or_intror I)) l1 l'); [|exact H].
  exact (logged_step e c ord L0 st ev l1 o (fun c r X => NS c r (or_introl X)) G E).
Qed.
(** Where the run begins. *)
Lemma late_begin e u0 ord ls cs run st l : lexec e (LS st false) (late_run e u0 ord ls cs run) = Some l ->
  exists sa, s_pc st = Idle /\ start e st (cfg_of u0) ord = Some sa /\
    sa = ST (s_disk st) (if contains_pch (cfg_of u0) then PcPch else PcObj) (cfg_of u0) ord (user_of (cfg_of u0)) (stored (s_disk st)) ts_default false true (s_log st) /\
    ((exists u1, api_run (AE (te_tc e) (te_root e) ls) (user_of (cfg_of u0)) cs = Ok u1 /\ lexec e (LS (with_user sa u1) true) (map LEv run) = Some l) \/
     (api_run (AE (te_tc e) (te_root e) ls) (user_of (cfg_of u0)) cs = Fatal /\ lexec e (LS (killed sa) false) (map LEv run) = Some l)).
Proof.
  intros H. unfold late_run in H. cbn [lexec lstep l_st step] in H. destruct (s_pc st) eqn:PC; try discriminate H.
  destruct (start e st (cfg_of u0) ord) as [sa|] eqn:E; [|discriminate H]. exists sa. split; [reflexivity|]. split; [reflexivity|].
  unfold start in E. destruct (negb (ord_ok ord (sources (cfg_of u0))) || existsb is_fother (all_commands e (cfg_of u0) ord)); [discriminate E|].
  destruct (forallb is_fok (all_commands e (cfg_of u0) ord)); injection E as <-.
  - split; [reflexivity|]. cbn [l_open l_st] in H. stp.
    assert (PO : (match (if contains_pch (cfg_of u0) then PcPch else PcObj) with Idle => false | _ => true end) = true) by (destruct (contains_pch (cfg_of u0)); reflexivity).
    rewrite PO in H. destruct (api_run (AE (te_tc e) (te_root e) ls) (user_of (cfg_of u0)) cs) as [u1|] eqn:R; stp.
    + left. exists u1. split; [reflexivity|exact H].
    + right. split; [reflexivity|exact H].
  - stp. rewrite PC in H. discriminate H.
Qed.
Theorem late_issued e u0 ord ls cs run st l : one_process run -> lexec e (LS st false) (late_run e u0 ord ls cs run) = Some l ->
  exists x, s_log (l_st l) = s_log st ++ x /\ Forall (issued e (cfg_of u0) ord) x.
Proof.
  intros NS H. apply late_begin in H as (sa & PC & _ & -> & [(u1 & _ & H)|[_ H]]);
  (refine (proj2 (proj2 (logged_run e (cfg_of u0) ord (s_log st) run NS _ l _ H))); cbn [l_st]; split; [reflexivity|]; split; [reflexivity|];
   exists []; rewrite app_nil_r; split; [reflexivity|constructor]).
Qed.

(** ** A late source *)
Lemma not_ok_step e st ev l' o : (forall c r, ev <> EvStart c r) -> s_ok st = false -> lstep e (LS st o) (LEv ev) = Some l' -> s_ok (l_st l') = false.
Proof.
  intros NS G H. destruct ev; cbn [lstep l_st l_open step] in H.
  - injection H as <-. exact G.
  - injection H as <-. reflexivity.
  - destruct (s_pc st); try discriminate H; injection H as <-; reflexivity.
  - injection H as <-. exact G.
  - injection H as <-. exact G.
  - injection H as <-. exact G.
  - injection H as <-. exact G.
  - exfalso. exact (NS _ _ eq_refl).
  - destruct (s_pc st); try discriminate H. injection H as <-. cbn [l_st]. unfold pch_check. rewrite G. exact G.
  - destruct (s_pc st); try discriminate H. unfold pch_exec in H. destruct (pch_command e (s_cfg st)) as [cmd| |] eqn:E; try discriminate H. injection H as <-. cbn [l_st].
    destruct (run_res cmd r); stp; first [exact G|reflexivity].
  - destruct (s_pc st); try discriminate H. injection H as <-. cbn [l_st]. unfold obj_check. rewrite G. exact G.
  - destruct (mem_str s (sources (s_cfg st))) eqn:M.
    + destruct (s_pc st); try discriminate H. unfold compile_one in H. destruct (take_pending s pending) as [[i rest]|]; [|discriminate H].
      destruct (compile_command e (s_cfg st) s) as [cmd| |] eqn:E; try discriminate H. injection H as <-. cbn [l_st].
      destruct (run_res cmd r); stp; first [exact G|reflexivity].
    + unfold late_compile in H. destruct (s_pc st); try discriminate H. destruct (take_pending s pending) as [[i rest]|]; [|discriminate H].
      injection H as <-. reflexivity.
  - destruct (s_pc st) as [| | | |[|]| |]; try discriminate H. injection H as <-. cbn [l_st]. unfold link_check. rewrite G. exact G.
  - destruct (s_pc st); try discriminate H. unfold link_exec in H. destruct (link_command e (s_cfg st) (s_ord st)) as [cmd| |] eqn:E; try discriminate H. injection H as <-. cbn [l_st].
    destruct (run_res cmd r); stp; first [exact G|reflexivity].
  - destruct (s_pc st); try discriminate H. unfold end_task in H. destruct (s_dirty st).
    + destruct (store_text _) as [tx|].
      * destruct w; [injection H as <-|injection H as <-|destruct (short n tx); [|discriminate H]; injection H as <-; destruct reported_ok]; stp; first [exact G|reflexivity].
      * destruct w; try discriminate H. injection H as <-. reflexivity.
    + destruct w; try discriminate H. injection H as <-. exact G.
  - destruct (s_pc st); try discriminate H. destruct (s_dirty st); [|discriminate H].
    destruct (bind _ (short n)); [|discriminate H]. injection H as <-. reflexivity.
Qed.
Lemma not_ok_run e run : one_process run -> forall l l', s_ok (l_st l) = false -> lexec e l (map LEv run) = Some l' -> s_ok (l_st l') = false.
Proof.
  induction run as [|ev run IH]; intros NS l l' G H; cbn [map lexec] in H; [injection H as <-; exact G|].
  destruct (lstep e l (LEv ev)) as [l1|] eqn:E; [|discriminate H]. destruct l as [st o].
  apply (IH (fun c r I => NS c r (or_intror I)) l1 l'); [|exact H]. exact (not_ok_step e st ev l1 o (fun c r X => NS c r (or_introl X)) G E).
Qed.
Lemma lexec_app e a : forall l b, lexec e l (a ++ b) = match lexec e l a with Some l1 => lexec e l1 b | None => None end.
Proof. induction a as [|x a IH]; intros l b; cbn [app lexec]; [reflexivity|]. destruct (lstep e l x); [apply IH|reflexivity]. Qed.
Lemma source_fails_run e c ord L0 run s r : one_process run -> In (EvCompile s r) run -> ~ In s (sources c) -> forall l l', Logged e c ord L0 (l_st l) ->
  lexec e l (map LEv run) = Some l' -> s_ok (l_st l') = false.
Proof.
  intros NS I N l l' G H. apply in_split in I as (r1 & r2 & ->). rewrite map_app, lexec_app in H.
  destruct (lexec e l (map LEv r1)) as [l1|] eqn:E; [|discriminate H]. cbn [map lexec] in H.
  assert (N1 : one_process r1) by (intros c1 q X; apply (NS c1 q); apply in_or_app; left; exact X).
  assert (N2 : one_process r2) by (intros c1 q X; apply (NS c1 q); apply in_or_app; right; right; exact X).
  pose proof (logged_run e c ord L0 r1 N1 l l1 G E) as (C & _). destruct (lstep e l1 (LEv (EvCompile s r))) as [l2|] eqn:E2; [|discriminate H].
  apply (not_ok_run e r2 N2 l2 l'); [|exact H]. destruct l1 as [st o]. cbn [lstep l_st] in E2, C. rewrite C in E2.
  destruct (mem_str s (sources c)) eqn:M; [apply mem_str_In in M; contradiction|]. unfold late_compile in E2.
  destruct (s_pc st); try discriminate E2. destruct (take_pending s pending) as [[i rest]|]; [|discriminate E2]. injection E2 as <-. reflexivity.
Qed.
Theorem late_source_fails e u0 ord ls cs run st l s r : one_process run -> lexec e (LS st false) (late_run e u0 ord ls cs run) = Some l ->
  In (EvCompile s r) run -> ~ In s (sources (cfg_of u0)) -> s_ok (l_st l) = false.
Proof.
  intros NS H I N. apply late_begin in H as (sa & PC & _ & -> & [(u1 & _ & H)|[_ H]]);
  (refine (source_fails_run e (cfg_of u0) ord (s_log st) run s r NS I N _ l _ H); cbn [l_st]; split; [reflexivity|]; split; [reflexivity|];
   exists []; rewrite app_nil_r; split; [reflexivity|constructor]).
Qed.
