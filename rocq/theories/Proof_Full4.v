(** Programs with targets and generators: runs with nothing to do. *)
From Verif Require Import Prelude Proof_Prelude Model_Path Model_Schema Model_Command Model_ToolchainConfig Model_Target
  Spec_Target Proof_TargetInv Model_Gen Spec_Gen Proof_GenRuns Model_Reg Spec_Reg Proof_Reg Proof_RegRun
  Model_Project Spec_Project Proof_Project Proof_Project2 Proof_Project3 Proof_Project4 Model_Full Spec_Full Proof_Full Proof_Full2 Proof_Full3.

Lemma fundisturbed_run rg bd u8 mt0 l files gids pre w r run h F : Forall fundisturbed run ->
  fhistory rg bd u8 mt0 l files gids (pre ++ FP (PRun w r) :: run) h F -> exists x, p_run (f_proj F) = Some (w, r, x).
Proof.
  intros U H. destruct (run_projection _ _ _ _ _ _ _ _ _ _ _ U _ _ H) as (pre' & run' & P & U').
  exact (run_in_progress _ _ _ _ _ _ _ _ _ U' P).
Qed.
Lemma fail_gundisturbed o b g : Forall (gundisturbed o) (gfail_others b g).
Proof. unfold gfail_others. destruct (_ && _); repeat constructor. Qed.
Lemma fail_keeps u8 b g g1 g' : gexec u8 g1 (gfail_others b g) = Some g' -> g_pc g' = g_pc g1 /\ (g_ok g' = true -> g_ok g1 = true).
Proof. unfold gfail_others. destruct (_ && _); cbn [gexec gstep]; intros [= <-]; split; auto. discriminate. Qed.
Lemma edits_keep u8 w : forall g g', gexec u8 g (edits w) = Some g' -> g_pc g' = g_pc g /\ g_ok g' = g_ok g.
Proof.
  induction w as [|[f t] w IH]; intros g g' X; cbn [edits map gexec gstep fst snd] in X; [injection X as <-; auto|].
  exact (IH _ _ X).
Qed.

(** An event of another builder during the run. *)
Lemma other_gen u8 F ev j g g' : fundisturbed ev -> (forall x, ev <> FStep j x) -> gexec u8 g (gdelivered u8 F ev j g) = Some g' ->
  g_pc g' = g_pc g /\ (g_ok g' = true -> g_ok g = true).
Proof.
  intros U N X. destruct ev as [pe| | |i x]; try destruct U; cbn [fundisturbed gdelivered] in *.
  - destruct pe as [f t|i|i c ord|w r|i|i y t|i f t|i|i okk|ls]; try destruct U; cbn [gdelivered] in X.
    + injection X as <-. auto.
    + destruct (assoc i (p_targets (f_proj F))) as [[e st]|]; [|injection X as <-; auto].
      destruct t as [t|]; cbn [app gexec gstep] in X; exact (fail_keeps _ _ _ _ _ X).
    + cbn [gexec gstep] in X. injection X as <-. auto.
    + exact (fail_keeps _ _ _ _ _ X).
    + destruct (assoc i (p_targets (f_proj F))); [injection X as <-; auto|exact (fail_keeps _ _ _ _ _ X)].
  - destruct (String.eqb_spec i j) as [->|Nij]; [destruct (N x eq_refl)|]. rewrite gexec_app' in X.
    destruct (gexec u8 g (map _ _)) as [g1|] eqn:E; [|discriminate]. destruct (edits_keep _ _ _ _ E) as [K1 K2].
    destruct (fail_keeps _ _ _ _ _ X) as [K3 K4]. rewrite <- K1, <- K2. auto.
Qed.

Lemma gen_settles rg bd u8 mt0 l files gids pre w r run : (forall j, lawful (bd j)) -> fresh_full mt0 l gids ->
  Forall fundisturbed run -> Forall ffull_writes run ->
  forall h F, fhistory rg bd u8 mt0 l files gids (pre ++ FP (PRun w r) :: run) h F ->
  (forall j o, In (j, o) (f_objs F) -> sane_handlers o) ->
  forall j g o, In (j, g) (f_gens F) -> In (j, o) (f_objs F) -> g_pc g = GIdle -> g_ok g = true -> resting u8 o g.
Proof.
  intros Law Fr. induction run as [|ev run IH] using rev_ind; intros U Fw h F H Sa j g o Hg Ho Pc Ok.
  - exfalso. pose proof (fhistory_FInv _ _ _ _ _ _ _ _ _ _ Law Fr H) as I. pose proof (fi_g _ _ _ _ _ _ _ _ I j g Hg) as J.
    pose proof (assoc_NoDup_In _ _ _ (fi_objs _ _ _ _ _ _ _ _ I) Ho) as Ha.
    apply fhistory_snoc_inv in H as (h1 & F1 & _ & _ & S & _). destruct (fstep_inv _ _ _ _ S) as (_ & X & _ & _).
    cbn [pdelivered pexec] in X. destruct (pstep (f_proj F1) (PRun w r)) as [p1|] eqn:Sp; [|discriminate]. injection X as X.
    unfold pstep in Sp. cbn [process] in Sp. destruct (p_run (f_proj F1)); [discriminate|]. destruct (deliver _ _ _); [|discriminate].
    injection Sp as <-. rewrite <- X in J. cbn [p_run p_ok] in J.
    rewrite (ji_early _ _ _ _ _ _ _ _ _ _ J o w r (x_init (rg_edges r)) Ha eq_refl) in Pc; [discriminate|]. intros [].
  - rewrite app_comm_cons, app_assoc in H. apply fhistory_snoc_inv in H as (h1 & F1 & H1 & A & S & Eh).
    apply Forall_app in U as [U1 U2]. apply Forall_inv in U2. apply Forall_app in Fw as [W1 W2]. apply Forall_inv in W2.
    destruct (fstep_inv _ _ _ _ S) as (Al & Xp & D & B). destruct (gdeliver_In _ _ _ _ _ _ _ D Hg) as (g1 & Hg1 & X).
    assert (B' : f_objs F = f_objs F1).
    { rewrite B. destruct ev as [pe| | |]; try destruct U2; try reflexivity. destruct pe; try destruct U2; reflexivity. }
    rewrite B' in *.
    pose proof (fhistory_FInv _ _ _ _ _ _ _ _ _ _ Law Fr H1) as I1. rewrite (fundisturbed_edited _ _ _ _ U1) in I1.
    pose proof (fi_g _ _ _ _ _ _ _ _ I1 j g1 Hg1) as J. pose proof (assoc_NoDup_In _ _ _ (fi_objs _ _ _ _ _ _ _ _ I1) Ho) as Ha.
    destruct (fundisturbed_run _ _ _ _ _ _ _ _ _ _ _ _ _ U1 H1) as (x & Hx).
    assert (Dc : (exists y, ev = FStep j y) \/ (forall y, ev <> FStep j y)).
    { destruct ev as [pe|i|i o0|i y]; try (right; discriminate). destruct (String.eqb_spec i j) as [->|Ni]; [left; eauto|right].
      intros y0 [= K _]. contradiction. }
    destruct Dc as [(y & ->)|N].
    + cbn [gdelivered] in X. rewrite String.eqb_refl in X. cbn [gexec] in X. destruct (gstep u8 g1 y) as [g2|] eqn:St; [|discriminate].
      injection X as ->. cbn [fallowed] in Al. rewrite Hx, (assoc_NoDup_In _ _ _ (fi_nd _ _ _ _ _ _ _ _ I1) Hg1), Ha in Al.
      apply andb_true_iff in Al as [_ Ig]. destruct (generate_step _ _ _ _ Ig St) as (Sc & _ & Si & _ & So).
      destruct (Si Pc Ok) as (wr & ->). cbn [fadmissible] in A. destruct A as (A1 & _).
      destruct (ji_hist _ _ _ _ _ _ _ _ _ _ J) as (m0 & evs & Hh). pose proof (ghistory_snoc _ _ _ _ _ _ _ _ _ Hh (A1 g1 Hg1) St) as Hh'.
      assert (wr = WOk) as ->.
      { cbn [gstep] in St. destruct (g_pc g1); try discriminate. destruct (forallb _ _); [|discriminate]. unfold gfinish in St.
        destruct (gdirty g1); [destruct (final_text g1) as [t|]|]; destruct wr as [| |n rep]; try discriminate; try reflexivity.
        - injection St as <-. discriminate.
        - destruct (short n t); [|discriminate]. destruct rep; [destruct (W2 n eq_refl)|]. injection St as <-. discriminate. }
      assert (Cc : g_cfg g = o) by (rewrite Sc; exact (ji_cfg _ _ _ _ _ _ _ _ _ _ J o Ha)).
      rewrite <- Cc. apply (after_resting _ _ _ _ _ _ _ (Law j) Hh' Ok). rewrite Cc. exact (Sa j o Ho).
    + destruct (other_gen _ _ _ _ _ _ U2 N X) as [Kp Ko]. rewrite Pc in Kp. symmetry in Kp.
      pose proof (IH U1 W1 _ _ H1 Sa j g1 o Hg1 Ho Kp (Ko Ok)) as R.
      assert (Hm : forall b f, In b (x_running x) -> writes (f_proj F1) b f -> b <> j -> forall k gi, In (k, gi) (go_ids o) -> ~ In f (inputs_of gi)).
      { intros b f Rn W Nb. destruct (gwrite_harmless _ _ _ _ _ _ (proj1 Fr) _ _ _ _ _ _ _ _ _ _ I1 Hx Rn W Nb Hg1) as [K|[K|K]]; [congruence|congruence|].
        rewrite (ji_cfg _ _ _ _ _ _ _ _ _ _ J o Ha) in K. exact K. }
      apply (resting_exec u8 o (gdelivered u8 F1 ev j g1) g1 g R); [|exact X].
      destruct ev as [pe| | |i y]; try destruct U2; cbn [gdelivered].
      * cbn [pdelivered pexec] in Xp. destruct (pstep (f_proj F1) pe) as [p1|] eqn:Sp; [|discriminate]. unfold pstep in Sp.
        destruct (process (f_proj F1) pe) as [[[b rn] ok]|] eqn:E; [|discriminate]. cbn [fundisturbed] in U2.
        destruct pe as [f t|i|i c0 ord|w0 r0|i|i y t|i f t|i|i okk|l0]; try destruct U2; cbn [gdelivered process] in *; rewrite ?Hx in E.
        -- constructor.
        -- destruct (assoc i (p_targets (f_proj F1))) as [[ei sti]|] eqn:Ei; [|discriminate]. destruct (assoc i (p_built (f_proj F1))); [|discriminate].
           destruct (mem_str i (x_running x) && in_taskflow y && _) eqn:Co; [|discriminate].
           apply andb_true_iff in Co as [Co Ct]. apply andb_true_iff in Co as [Cr Cf]. apply mem_str_In in Cr.
           apply Forall_app. split; [|apply fail_gundisturbed]. destruct t as [t|]; [|constructor]. constructor; [|constructor].
           cbn [gundisturbed]. apply (Hm i); [exact Cr| |].
           ++ left. exists ei, sti. split; [exact (assoc_In _ _ _ Ei)|reflexivity].
           ++ intros ->. apply (fi_dis _ _ _ _ _ _ _ _ I1 j (in_map fst _ _ Hg1)). apply (in_map fst _ _ (assoc_In _ _ _ Ei)).
        -- destruct (assoc i (p_gens (f_proj F1))) as [fs|] eqn:Eg; [|discriminate].
           destruct (mem_str i (x_running x) && mem_str f fs) eqn:Co; [|discriminate]. apply andb_true_iff in Co as [Cr Cf].
           apply mem_str_In in Cr, Cf. constructor; [|constructor]. cbn [gundisturbed]. apply (Hm i); [exact Cr| |].
           ++ right. exists fs. split; [exact (assoc_In _ _ _ Eg)|exact Cf].
           ++ intros ->. cbn [fallowed] in Al. rewrite (assoc_NoDup_In _ _ _ (fi_nd _ _ _ _ _ _ _ _ I1) Hg1) in Al. discriminate.
        -- apply fail_gundisturbed.
        -- destruct (assoc i (p_targets (f_proj F1))); [constructor|apply fail_gundisturbed].
      * destruct (String.eqb_spec i j) as [->|Nij]; [destruct (N y eq_refl)|]. apply Forall_app. split; [|apply fail_gundisturbed].
        cbn [pdelivered] in Xp. destruct (gen_effect _ _ _ _ _ Xp) as (_ & _ & _ & E4). cbn [fallowed] in Al. rewrite Hx in Al.
        destruct (assoc i (f_gens F1)); [|discriminate]. destruct (assoc i (f_objs F1)); [|discriminate].
        apply andb_true_iff in Al as [Ru _]. apply mem_str_In in Ru.
        apply Forall_forall. intros z Hz. apply in_map_iff in Hz as ([f t] & <- & Hz). cbn [fst snd gundisturbed].
        exact (Hm i f Ru (E4 f t Hz) Nij).
Qed.

(** The targets' state after a run, as in Proof_Project4.v. *)
Lemma run_AInv rg mt0 l gens pre w r run h p x n prog :
  fresh_project mt0 l -> phistory rg l gens (pre ++ PRun w r :: run) h p ->
  Forall undisturbed_run run -> Forall full_writes run ->
  registers n prog r -> no_loop (rg_edges r) -> 0 < w ->
  p_run p = Some (w, r, x) -> x_over w (rg_built r) (rg_edges r) x -> p_ok p = true ->
  incl (map fst (p_built p)) (rg_built r) -> AInv (p_built p) p p.
Proof.
  intros F H U Fw R L W E O Ok Inc. pose proof (phistory_PInv _ _ _ _ _ _ _ F H) as P.
  split; [reflexivity|]. split; [intros y Hy; exact Hy|]. intros i ei si ci Ji Jb.
  pose proof (pi_tgt _ _ _ _ P i ei si Ji) as T. pose proof (assoc_NoDup_In _ _ _ (pi_nd _ _ _ _ P) Jb) as Ja.
  assert (Jf : In i (finishes (x_log x))).
  { destruct (everything_executed _ _ _ _ _ R L W (over_executes _ _ _ _ _ _ _ _ _ H E O)) as [K _].
    apply (Permutation_in _ (Permutation_sym K)). apply Inc. apply (in_map fst _ _ Jb). }
  pose proof (ti_late _ _ _ _ _ _ _ _ _ T ci w r x Ja E Jf) as Pc.
  pose proof (run_settles _ _ _ _ _ _ _ _ F U Fw _ _ H i ei si ci Ji Jb Pc (ti_ok _ _ _ _ _ _ _ _ _ T ci w r x Ja E Ok)) as Se.
  destruct (settled_still _ _ Pc Se) as (s & Nd & Sl). exists si, s. auto.
Qed.

Section Again.
Variables (u8 : string -> N) (built : list (string * cfg)) (objs : list (string * gobj)) (F0 : full).
Hypothesis Nb : NoDup (map fst built).
Hypothesis No : NoDup (map fst objs).
Hypothesis Ni : NoDup (map fst (p_targets (f_proj F0))).
Hypothesis Ng : NoDup (map fst (f_gens F0)).

Definition kept (g0 g : gstate) : Prop :=
  g_log g = g_log g0 /\ gd_store (g_disk g) = gd_store (g_disk g0) /\ gd_made (g_disk g) = gd_made (g_disk g0).
Definition BInv (F : full) : Prop :=
  AInv built (f_proj F0) (f_proj F) /\ incl (f_objs F) objs /\ map fst (f_gens F) = map fst (f_gens F0) /\
  (forall j g o, In (j, g) (f_gens F) -> In (j, o) objs -> resting u8 o g /\ exists g0, In (j, g0) (f_gens F0) /\ kept g0 g).

Lemma resting_no_call F i g o x : In (i, g) (f_gens F) -> resting u8 o g -> (exists g', gstep u8 g x = Some g') -> writes_of x = [].
Proof using.
  intros Hg R (g' & S). destruct x; try reflexivity. exfalso. cbn [gstep] in S. destruct (g_pc g); try discriminate.
  destruct (assoc id (g_tasks g)) as [[| |]|] eqn:W; try discriminate.
  destruct (calm_assoc _ _ _ (rs_calm _ _ _ R) W) as [K|(b & K)]; discriminate.
Qed.
Lemma AInv_no_link p i x t p' : AInv built (f_proj F0) p -> pstep p (PStep i x (Some t)) = Some p' -> False.
Proof using.
  intros (_ & I2 & I3) S. unfold pstep in S. destruct (process p (PStep i x (Some t))) as [[[b rn] ok]|] eqn:E; [|discriminate]. cbn [process] in E.
  destruct (p_run p) as [[[w r] y]|]; [|discriminate]. destruct (assoc i (p_targets p)) as [[ei sti]|] eqn:Ei; [|discriminate].
  destruct (assoc i (p_built p)) as [ci|] eqn:Eb; [|discriminate].
  destruct (mem_str i (x_running y) && in_taskflow x && _) eqn:Co; [|discriminate].
  apply andb_true_iff in Co as [Co Ct]. destruct (step ei sti x) as [sti'|] eqn:Si; [|discriminate].
  apply link_runs_link in Ct as (r0 & ->).
  destruct (I3 _ _ _ _ (assoc_In _ _ _ Ei) (I2 _ (assoc_In _ _ _ Eb))) as (si0 & s' & _ & _ & Sl').
  cbn [step] in Si. destruct (s_pc sti) eqn:Pc; try discriminate. destruct (Proof_TargetMain.k_pc _ _ _ _ Sl') as (_ & _ & _ & [[? ?]|[?|[?|?]]]); congruence.
Qed.
Lemma BInv_step F ev F' : fagain built objs ev -> fstep u8 F ev = Some F' -> BInv F -> BInv F'.
Proof using Nb No Ni Ng.
  intros Ag S (I1 & I2 & I3 & I4). destruct (fstep_inv _ _ _ _ S) as (Al & Xp & D & B).
  assert (Ids : NoDup (map fst (f_gens F))) by (rewrite I3; exact Ng).
  assert (NW : forall i x, ev = FStep i x -> writes_of x = []).
  { intros i x ->. cbn [fallowed] in Al. destruct (p_run (f_proj F)) as [[[w r] ex]|]; [|discriminate].
    destruct (assoc i (f_gens F)) as [gi|] eqn:Eg; [|discriminate]. destruct (assoc i (f_objs F)) as [oi|] eqn:Eo; [|discriminate].
    apply assoc_In in Eg. destruct (gdeliver_In' _ _ _ _ _ _ _ D Eg) as (g' & _ & X). cbn [gdelivered] in X. rewrite String.eqb_refl in X. cbn [gexec] in X.
    destruct (I4 i gi oi Eg (I2 _ (assoc_In _ _ _ Eo))) as [R _]. apply (resting_no_call F i gi oi x Eg R).
    destruct (gstep u8 gi x); [eauto|discriminate]. }
  split; [|split; [|split]].
  - apply (AInv_exec built (f_proj F0) Nb Ni (pdelivered u8 F ev) (f_proj F) (f_proj F')); [|exact Xp|exact I1].
    destruct ev as [pe|i|i o|i x]; cbn [pdelivered fagain] in *.
    + constructor; [exact (proj1 Ag)|constructor].
    + constructor.
    + constructor.
    + rewrite (NW i x eq_refl). destruct (gfails _ _ _ _); repeat constructor.
  - rewrite B. destruct ev as [pe|i|i o|i x]; cbn [objs_after fagain] in *; try exact I2.
    + destruct pe; try exact I2. intros y [].
    + intros y Hy. apply in_app_iff in Hy as [Hy|[<-|[]]]; [exact (I2 y Hy)|exact Ag].
  - rewrite (gdeliver_ids _ _ _ _ _ D). exact I3.
  - intros j g' o Hg Ho. destruct (gdeliver_In _ _ _ _ _ _ _ D Hg) as (g & Hg1 & X). destruct (I4 j g o Hg1 Ho) as (R & g0 & K1 & K2 & K3 & K4).
    destruct (resting_exec u8 o (gdelivered u8 F ev j g) g g' R) as (R' & Q1 & Q2 & Q3); [|exact X|].
    2: { split; [exact R'|]. exists g0. split; [exact K1|]. unfold kept. repeat split; congruence. }
    destruct ev as [pe|i|i o'|i x]; cbn [gdelivered fagain] in *.
    + destruct pe as [f t|i|i c0 ord|w0 r0|i|i y t|i f t|i|i okk|l0]; try (constructor; fail).
      * constructor; [|constructor]. exact (fun k gi Hk => proj2 Ag j o k gi Ho Hk).
      * destruct (assoc i (p_targets (f_proj F))) as [[e st]|]; [|constructor]. destruct t as [t|].
        -- exfalso. cbn [pdelivered pexec] in Xp. destruct (pstep (f_proj F) (PStep i y (Some t))) eqn:Sp; [|discriminate].
           exact (AInv_no_link _ _ _ _ _ I1 Sp).
        -- apply fail_gundisturbed.
      * constructor; [|constructor]. exact (fun k gi Hk => proj2 Ag j o k gi Ho Hk).
      * apply fail_gundisturbed.
      * destruct (assoc i (p_targets (f_proj F))); [constructor|apply fail_gundisturbed].
      * destruct (grunning g); [|constructor]. destruct (assoc j l0); repeat constructor.
    + destruct (String.eqb_spec i j) as [->|]; [|constructor]. exfalso. apply Ag. apply (in_map fst _ _ Ho).
    + destruct (String.eqb_spec i j) as [->|]; [|constructor]. constructor; [|constructor]. cbn [gundisturbed].
      apply (assoc_NoDup_In _ _ _ No) in Ag. apply (assoc_NoDup_In _ _ _ No) in Ho. congruence.
    + rewrite (NW i x eq_refl). cbn [map app]. destruct (String.eqb_spec i j) as [->|]; [|apply fail_gundisturbed].
      constructor; [|constructor]. cbn [fallowed] in Al. destruct (p_run (f_proj F)) as [[[w r] ex]|]; [|discriminate].
      destruct (assoc j (f_gens F)); [|discriminate]. destruct (assoc j (f_objs F)); [|discriminate]. apply andb_true_iff in Al as [_ Ig].
      destruct x; try discriminate; exact Logic.I.
Qed.
Lemma BInv_exec evs : forall F F', Forall (fagain built objs) evs -> fexec u8 F evs = Some F' -> BInv F -> BInv F'.
Proof using Nb No Ni Ng.
  induction evs as [|ev evs IH]; intros F F' A X I; cbn [fexec] in X; [injection X as <-; exact I|].
  apply Forall_cons_iff in A as [A1 A2]. destruct (fstep u8 F ev) as [F1|] eqn:S; [|discriminate].
  exact (IH F1 F' A2 X (BInv_step F ev F1 A1 S I)).
Qed.
End Again.

Lemma full_writes_delivered u8 F ev : ffull_writes ev -> Forall full_writes (pdelivered u8 F ev).
Proof.
  destruct ev as [pe| | |i x]; intros U; cbn [pdelivered]; try (constructor; fail).
  - constructor; [exact U|constructor].
  - apply Forall_app. split; [|destruct (gfails _ _ _ _); repeat constructor; discriminate].
    apply Forall_forall. intros y Hy. apply in_map_iff in Hy as (z & <- & _). discriminate.
Qed.
Lemma run_projection_full rg bd u8 mt0 l files gids pre w r run : Forall fundisturbed run -> Forall ffull_writes run -> forall h F,
  fhistory rg bd u8 mt0 l files gids (pre ++ FP (PRun w r) :: run) h F ->
  exists pre' run', phistory rg l files (pre' ++ PRun w r :: run') (fh_p h) (f_proj F) /\ Forall undisturbed_run run' /\ Forall full_writes run'.
Proof.
  induction run as [|ev run IH] using rev_ind; intros U W h F H.
  - destruct (run_projection _ _ _ _ _ _ _ _ _ _ _ U _ _ H) as (pre' & run' & P & Q).
    apply fhistory_snoc_inv in H as (h1 & F1 & H1 & A & S & ->). destruct (projection _ _ _ _ _ _ _ _ _ _ H1) as (pevs & P').
    exists pevs, []. split; [|split; constructor]. exact (delivered_history _ _ _ _ _ _ _ _ _ _ A S P').
  - rewrite app_comm_cons, app_assoc in H. apply fhistory_snoc_inv in H as (h1 & F1 & H1 & A & S & ->).
    apply Forall_app in U as [U1 U2]. apply Forall_inv in U2. apply Forall_app in W as [W1 W2]. apply Forall_inv in W2.
    destruct (IH U1 W1 _ _ H1) as (pre' & run' & P & Q & Q').
    exists pre', (run' ++ pdelivered u8 F1 ev). split; [|split].
    + rewrite app_comm_cons, app_assoc. exact (delivered_history _ _ _ _ _ _ _ _ _ _ A S P).
    + apply Forall_app. split; [exact Q|]. apply undisturbed_delivered. exact U2.
    + apply Forall_app. split; [exact Q'|]. apply full_writes_delivered. exact W2.
Qed.

Theorem full_nothing_to_do rg bd u8 mt0 l files gids pre w r run h F x n prog evs F2 :
  (forall j, lawful (bd j)) -> fresh_full mt0 l gids ->
  fhistory rg bd u8 mt0 l files gids (pre ++ FP (PRun w r) :: run) h F -> Forall fundisturbed run -> Forall ffull_writes run ->
  registers n prog r -> no_loop (rg_edges r) -> 0 < w ->
  p_run (f_proj F) = Some (w, r, x) -> x_over w (rg_built r) (rg_edges r) x -> p_ok (f_proj F) = true ->
  incl (map fst (p_built (f_proj F))) (rg_built r) -> incl (map fst (f_objs F)) (rg_built r) ->
  (forall j o, In (j, o) (f_objs F) -> sane_handlers o) ->
  Forall (fagain (p_built (f_proj F)) (f_objs F)) evs -> fexec u8 F evs = Some F2 ->
  (forall id e st2 c, In (id, (e, st2)) (p_targets (f_proj F2)) -> In (id, c) (p_built (f_proj F)) ->
     exists st, In (id, (e, st)) (p_targets (f_proj F)) /\ s_log st2 = s_log st /\ same_outputs (s_disk st) (s_disk st2)) /\
  (forall j g2 o, In (j, g2) (f_gens F2) -> In (j, o) (f_objs F) ->
     exists g, In (j, g) (f_gens F) /\ g_log g2 = g_log g /\ gd_store (g_disk g2) = gd_store (g_disk g) /\ gd_made (g_disk g2) = gd_made (g_disk g)).
Proof.
  intros Law Fr H U Fw R L W E O Ok Inc Ing Sa Ag X.
  destruct (run_projection_full _ _ _ _ _ _ _ _ _ _ _ U Fw _ _ H) as (pre' & run' & P & U' & Fw').
  pose proof (fhistory_FInv _ _ _ _ _ _ _ _ _ _ Law Fr H) as I.
  pose proof (phistory_PInv _ _ _ _ _ _ _ (proj1 Fr) P) as Pi.
  assert (B : BInv u8 (p_built (f_proj F)) (f_objs F) F F).
  { split; [|split; [|split]].
    - exact (run_AInv _ _ _ _ _ _ _ _ _ _ _ _ _ (proj1 Fr) P U' Fw' R L W E O Ok Inc).
    - intros y Hy. exact Hy.
    - reflexivity.
    - intros j g o Hg Ho. pose proof (fi_g _ _ _ _ _ _ _ _ I j g Hg) as J. pose proof (assoc_NoDup_In _ _ _ (fi_objs _ _ _ _ _ _ _ _ I) Ho) as Ha.
      assert (Jf : In j (finishes (x_log x))).
      { destruct (everything_executed _ _ _ _ _ R L W (over_executes _ _ _ _ _ _ _ _ _ P E O)) as [K _].
        apply (Permutation_in _ (Permutation_sym K)). apply Ing. apply (in_map fst _ _ Ho). }
      split; [|exists g; split; [exact Hg|repeat split]].
      apply (gen_settles _ _ _ _ _ _ _ _ _ _ _ Law Fr U Fw _ _ H Sa j g o Hg Ho).
      + exact (ji_late _ _ _ _ _ _ _ _ _ _ J o w r x Ha E Jf).
      + exact (ji_ok _ _ _ _ _ _ _ _ _ _ J o w r x Ha E Ok). }
  destruct (BInv_exec u8 (p_built (f_proj F)) (f_objs F) F (pi_nd _ _ _ _ Pi) (fi_objs _ _ _ _ _ _ _ _ I) (pi_ids _ _ _ _ Pi) (fi_nd _ _ _ _ _ _ _ _ I) evs F F2 Ag X B)
    as ((_ & _ & K) & _ & _ & K').
  split.
  - intros id e st2 c Hi Hb. destruct (K _ _ _ _ Hi Hb) as (st & s & K1 & _ & K2). exists st.
    split; [exact K1|]. split; [exact (Proof_TargetMain.k_log _ _ _ _ K2)|exact (Proof_TargetMain.k_out _ _ _ _ K2)].
  - intros j g2 o Hg Ho. destruct (K' _ _ _ Hg Ho) as (_ & g & K1 & K2). exists g. split; [exact K1|exact K2].
Qed.
