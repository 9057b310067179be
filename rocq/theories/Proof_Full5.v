(** Programs with targets and generators: what happens after a failure. *)
From Verif Require Import Prelude Proof_Prelude Model_Path Model_Schema Model_Command Model_ToolchainConfig Model_Target
  Spec_Target Proof_TargetInv Model_Gen Spec_Gen Proof_GenRuns Model_Reg Spec_Reg Proof_Reg Proof_RegRun
  Model_Project Spec_Project Proof_Project Proof_Project2 Proof_Project3 Proof_Project4 Proof_Project5
  Model_Full Spec_Full Proof_Full Proof_Full2 Proof_Full3 Proof_Full4.

(** Without Build() nothing begins, and the task state of the process stays FAILURE. *)
Definition starting (x : gevent) : bool := match x with GStart _ => true | _ => false end.
Lemma gstep_failed u8 g x g' : starting x = false -> gstep u8 g x = Some g' ->
  (g_ok g = false -> g_ok g' = false) /\ (grunning g = false -> grunning g' = false).
Proof.
  intros N S. unfold grunning. destruct x; try discriminate; cbn [gstep] in S.
  - injection S as <-. auto.
  - injection S as <-. auto.
  - destruct (g_pc g); try discriminate; injection S as <-; auto.
  - injection S as <-. auto.
  - destruct (g_pc g); try discriminate. injection S as <-. unfold gsetup. split; [|discriminate]. intros O. rewrite O. exact O.
  - destruct (g_pc g) eqn:P; try discriminate. destruct (assoc id (g_tasks g)) as [[| |]|]; try discriminate.
    destruct (assoc id (go_ids _)); [|discriminate]. injection S as <-. split; [|discriminate]. intros O. unfold genter. rewrite O. exact O.
  - destruct (g_pc g) eqn:P; try discriminate. destruct (assoc id (g_tasks g)) as [[| |]|]; try discriminate. injection S as <-.
    split; [|discriminate]. unfold gcallback. destruct ok; auto.
  - destruct (g_pc g); try discriminate. destruct (forallb _ _); [|discriminate]. split; [|discriminate]. unfold gfinish in S.
    destruct (gdirty g); [destruct (final_text g) as [t|]|]; destruct w as [| |n rep]; try discriminate; try (injection S as <-; auto; fail).
    destruct (short n t); [|discriminate]. injection S as <-. destruct rep; auto.
  - destruct (g_pc g); try discriminate. destruct (_ && _); [|discriminate]. destruct (bind _ _); [|discriminate]. injection S as <-. auto.
Qed.
Lemma gexec_failed u8 evs : forall g g', forallb (fun x => negb (starting x)) evs = true -> gexec u8 g evs = Some g' ->
  (g_ok g = false -> g_ok g' = false) /\ (grunning g = false -> grunning g' = false).
Proof.
  induction evs as [|x evs IH]; intros g g' N X; cbn [gexec forallb] in *; [injection X as <-; auto|].
  apply andb_true_iff in N as [N1 N2]. apply negb_true_iff in N1. destruct (gstep u8 g x) as [g1|] eqn:S; [|discriminate].
  destruct (gstep_failed _ _ _ _ N1 S) as [A B]. destruct (IH _ _ N2 X) as [C D]. auto.
Qed.
Lemma fail_not_starting b g : forallb (fun x => negb (starting x)) (gfail_others b g) = true.
Proof. unfold gfail_others. destruct (_ && _); reflexivity. Qed.
Lemma not_starting u8 F ev j g : fallowed F ev = true -> (forall i o, ev <> FBuild i o) ->
  forallb (fun x => negb (starting x)) (gdelivered u8 F ev j g) = true.
Proof.
  intros Al N. destruct ev as [pe|i|i o|i x]; cbn [gdelivered].
  - destruct pe as [f t|i|i c ord|w r|i|i y t|i f t|i|i okk|ls]; try reflexivity.
    + destruct (assoc i (p_targets (f_proj F))) as [[e st]|]; [|reflexivity]. rewrite forallb_app, fail_not_starting. destruct t; reflexivity.
    + apply fail_not_starting.
    + destruct (assoc i (p_targets (f_proj F))); [reflexivity|apply fail_not_starting].
    + destruct (grunning g); [|reflexivity]. destruct (assoc j ls); reflexivity.
  - destruct (String.eqb i j); reflexivity.
  - destruct (N i o eq_refl).
  - cbn [fallowed] in Al. destruct (p_run _) as [[[w r] ex]|]; [|discriminate]. destruct (assoc i (f_gens F)); [|discriminate].
    destruct (assoc i (f_objs F)); [|discriminate]. apply andb_true_iff in Al as [_ Ig]. destruct (String.eqb i j).
    + destruct x; try discriminate; reflexivity.
    + rewrite forallb_app, fail_not_starting, andb_true_r. apply forallb_forall. intros y Hy. apply in_map_iff in Hy as (z & <- & _). reflexivity.
Qed.

(** The task state is global. *)
Definition KInv (F : full) : Prop := p_run (f_proj F) <> None -> p_ok (f_proj F) = false ->
  forall j g, In (j, g) (f_gens F) -> grunning g = true -> g_ok g = false.

Lemma failed_others u8 g g1 g' : grunning g1 = grunning g -> gexec u8 g1 (gfail_others true g) = Some g' -> grunning g' = true -> g_ok g' = false.
Proof.
  unfold gfail_others. cbn [andb]. intros E. destruct (grunning g) eqn:R; cbn [gexec gstep]; intros [= <-]; [reflexivity|congruence].
Qed.
Lemma KInv_step rg bd u8 l files mt0 F h ed ev F' : fresh_project mt0 l -> FInv rg bd u8 l files F h ed -> fstep u8 F ev = Some F' -> KInv F -> KInv F'.
Proof.
  intros Fr I S V Rn Ok j g' Hj Ru. destruct (fstep_inv _ _ _ _ S) as (Al & Xp & D & B).
  destruct (gdeliver_In _ _ _ _ _ _ _ D Hj) as (g & Hg & X).
  assert (Keep : (forall i o, ev <> FBuild i o) -> p_run (f_proj F) <> None -> p_ok (f_proj F) = false -> g_ok g' = false).
  { intros N R0 O0. destruct (gexec_failed _ _ _ _ (not_starting u8 F ev j g Al N) X) as [K1 K2].
    destruct (grunning g) eqn:Rg; [exact (K1 (V R0 O0 j g Hg Rg))|rewrite (K2 eq_refl) in Ru; discriminate]. }
  destruct (FInv_PInv _ _ _ _ _ _ Fr _ _ _ I) as (ed' & P).
  destruct ev as [pe|i|i o|i x]; cbn [pdelivered] in Xp.
  - cbn [pexec] in Xp. destruct (pstep (f_proj F) pe) as [p1|] eqn:Sp; [|discriminate]. injection Xp as Xp. rewrite <- Xp in Rn, Ok.
    unfold pstep in Sp. destruct (process (f_proj F) pe) as [[[b rn] ok]|] eqn:E; [|discriminate]. destruct (deliver _ _ _); [|discriminate].
    injection Sp as Sp. rewrite <- Sp in Rn, Ok. cbn [p_run p_ok] in Rn, Ok.
    destruct pe as [f t|i|i c ord|w r|i|i y t|i f t|i|i okk|ls]; cbn [process gdelivered] in *.
    + injection E as _ <- <-. apply Keep; [discriminate|assumption|assumption].
    + destruct (mem_str _ _); [|discriminate]. injection E as _ <- <-. apply Keep; [discriminate|assumption|assumption].
    + destruct (p_run (f_proj F)); [discriminate|]. destruct (assoc i (p_targets _)) as [[e st]|]; [|discriminate].
      destruct (assoc i (p_built _)); [discriminate|]. destruct (forallb _ _); [|discriminate]. injection E as _ <- <-. congruence.
    + destruct (p_run (f_proj F)) eqn:Er; [discriminate|]. injection E as _ <- <-. rewrite (pi_none _ _ _ _ P Er) in Ok. discriminate.
    + destruct (p_run (f_proj F)) as [[[w r] x]|] eqn:Er; [|discriminate]. destruct (xstep _ _ _ _ _); [|discriminate].
      injection E as _ <- <-. apply Keep; [discriminate|discriminate|assumption].
    + destruct (p_run (f_proj F)) as [[[w r] x]|] eqn:Er; [|discriminate]. destruct (assoc i (p_targets _)) as [[e st]|] eqn:Ei; [|discriminate].
      destruct (assoc i (p_built _)); [|discriminate]. destruct (_ && _ && _); [|discriminate]. destruct (step e st y) as [st1|]; [|discriminate].
      injection E as _ <- <-. destruct (p_ok (f_proj F)) eqn:Pk; [|apply Keep; [discriminate|discriminate|reflexivity]].
      cbn [andb] in Ok. rewrite Ok in X. cbn [negb] in X. destruct t as [t|]; cbn [app gexec gstep] in X.
      * refine (failed_others _ _ _ _ _ X Ru). reflexivity.
      * exact (failed_others _ _ _ _ eq_refl X Ru).
    + destruct (p_run (f_proj F)) as [[[w r] x]|] eqn:Er; [|discriminate]. destruct (assoc i (p_gens _)); [|discriminate]. destruct (_ && _); [|discriminate].
      injection E as _ <- <-. apply Keep; [discriminate|discriminate|assumption].
    + exact (failed_others _ _ _ _ eq_refl X Ru).
    + destruct (p_run (f_proj F)) as [[[w r] x]|] eqn:Er; [|discriminate]. destruct (xstep _ _ _ _ _); [|discriminate].
      destruct (assoc i (p_targets _)) as [[e st]|] eqn:Ei; [destruct (assoc i (p_built _)) as [ci|] eqn:Eb|].
      * destruct (_ && _); [|discriminate]. injection E as _ <- <-. apply Keep; [discriminate|discriminate|assumption].
      * destruct okk; [|discriminate]. injection E as _ <- <-. apply Keep; [discriminate|discriminate|assumption].
      * destruct (implb _ _); [|discriminate]. injection E as _ <- <-.
        destruct (p_ok (f_proj F)) eqn:Pk; [|apply Keep; [discriminate|discriminate|reflexivity]].
        cbn [andb] in Ok. subst okk. cbn [negb] in X. exact (failed_others _ _ _ _ eq_refl X Ru).
    + injection E as _ <- <-. congruence.
  - cbn [pexec] in Xp. injection Xp as Xp. rewrite <- Xp in Rn, Ok. apply Keep; [discriminate|assumption|assumption].
  - cbn [pexec] in Xp. injection Xp as Xp. rewrite <- Xp in Rn. cbn [fallowed] in Al. destruct (p_run (f_proj F)); [discriminate|congruence].
  - destruct (gen_effect _ _ _ _ _ Xp) as (E1 & _ & E3 & _). rewrite E1 in Rn. rewrite E3 in Ok.
    destruct (p_ok (f_proj F)) eqn:Pk; [|apply Keep; [discriminate|assumption|reflexivity]]. cbn [andb] in Ok. apply negb_false_iff in Ok.
    cbn [gdelivered] in X. destruct (String.eqb_spec i j) as [->|N].
    + unfold gfails in Ok. rewrite (assoc_NoDup_In _ _ _ (fi_nd _ _ _ _ _ _ _ _ I) Hg) in Ok. cbn [gexec] in X.
      destruct (gstep u8 g x) as [g1|]; [|discriminate]. injection X as <-. apply negb_true_iff. exact Ok.
    + rewrite Ok, gexec_app' in X. destruct (gexec u8 g (map _ _)) as [g1|] eqn:Ee; [|discriminate].
      destruct (edits_keep _ _ _ _ Ee) as [K1 _]. refine (failed_others _ _ _ _ _ X Ru). unfold grunning. rewrite K1. reflexivity.
Qed.
Lemma fhistory_KInv rg bd u8 mt0 l files gids evs h F : (forall j, lawful (bd j)) -> fresh_full mt0 l gids ->
  fhistory rg bd u8 mt0 l files gids evs h F -> KInv F.
Proof.
  intros Law Fr H. induction H as [|evs h F ev F' H IH A S]; [intros K; destruct (K eq_refl)|].
  exact (KInv_step _ _ _ _ _ _ _ _ _ _ _ (proj1 Fr) (fhistory_FInv _ _ _ _ _ _ _ _ _ _ Law Fr H) S IH).
Qed.

(** A generator whose turn comes after the failure. *)
Record GSkipped (g0 g : gstate) : Prop := {
  gk_ok : g_ok g = false;
  gk_log : g_log g = g_log g0;
  gk_store : gd_store (g_disk g) = gd_store (g_disk g0);
  gk_made : gd_made (g_disk g) = gd_made (g_disk g0);
  gk_pc : g_pc g = GBuilt \/ g_pc g = GIdle }.
Definition skippable (x : gevent) : bool :=
  match x with GEdit _ _ | GFail | GSetup | GEnter _ | GCall _ _ _ | GFinish _ => true | _ => false end.
Lemma GSkipped_step u8 g0 g x g' : skippable x = true -> gstep u8 g x = Some g' -> GSkipped g0 g -> GSkipped g0 g'.
Proof.
  intros K S [A1 A2 A3 A4 A5]. destruct x; try discriminate; cbn [gstep] in S.
  - injection S as <-. constructor; assumption.
  - injection S as <-. constructor; try assumption. reflexivity.
  - destruct (g_pc g); try discriminate. injection S as <-. unfold gsetup. rewrite A1. constructor; try assumption. right. reflexivity.
  - destruct (g_pc g); try discriminate. destruct A5; discriminate.
  - destruct (g_pc g); try discriminate. destruct A5; discriminate.
  - destruct (g_pc g); try discriminate. destruct A5; discriminate.
Qed.
Lemma GSkipped_exec u8 g0 evs : forall g g', forallb skippable evs = true -> gexec u8 g evs = Some g' -> GSkipped g0 g -> GSkipped g0 g'.
Proof.
  induction evs as [|x evs IH]; intros g g' N X K; cbn [gexec forallb] in *; [injection X as <-; exact K|].
  apply andb_true_iff in N as [N1 N2]. destruct (gstep u8 g x) as [g1|] eqn:S; [|discriminate].
  exact (IH _ _ N2 X (GSkipped_step _ _ _ _ _ N1 S K)).
Qed.
Lemma fail_skippable b g : forallb skippable (gfail_others b g) = true.
Proof. unfold gfail_others. destruct (_ && _); reflexivity. Qed.
Lemma delivered_skippable u8 F ev j g : fallowed F ev = true -> fundisturbed ev -> forallb skippable (gdelivered u8 F ev j g) = true.
Proof.
  intros Al U. destruct ev as [pe| | |i x]; try destruct U; cbn [gdelivered fundisturbed] in *.
  - destruct pe as [f t|i|i c ord|w r|i|i y t|i f t|i|i okk|ls]; try destruct U; try reflexivity.
    + destruct (assoc i (p_targets (f_proj F))) as [[e st]|]; [|reflexivity]. rewrite forallb_app, fail_skippable. destruct t; reflexivity.
    + apply fail_skippable.
    + destruct (assoc i (p_targets (f_proj F))); [reflexivity|apply fail_skippable].
  - cbn [fallowed] in Al. destruct (p_run _) as [[[w r] ex]|]; [|discriminate]. destruct (assoc i (f_gens F)); [|discriminate].
    destruct (assoc i (f_objs F)); [|discriminate]. apply andb_true_iff in Al as [_ Ig]. destruct (String.eqb i j).
    + destruct x; try discriminate; reflexivity.
    + rewrite forallb_app, fail_skippable, andb_true_r. apply forallb_forall. intros y Hy. apply in_map_iff in Hy as (z & <- & _). reflexivity.
Qed.
Lemma fexec_skipped u8 rest : forall F F2 j g0 g g2, Forall fundisturbed rest -> fexec u8 F rest = Some F2 -> NoDup (map fst (f_gens F)) ->
  In (j, g) (f_gens F) -> GSkipped g0 g -> In (j, g2) (f_gens F2) -> GSkipped g0 g2.
Proof.
  induction rest as [|ev rest IH]; intros F F2 j g0 g g2 U X N Hg K H2; cbn [fexec] in X.
  - injection X as <-. apply (assoc_NoDup_In _ _ _ N) in Hg. apply (assoc_NoDup_In _ _ _ N) in H2. congruence.
  - apply Forall_cons_iff in U as [U1 U2]. destruct (fstep u8 F ev) as [F1|] eqn:S; [|discriminate].
    destruct (fstep_inv _ _ _ _ S) as (Al & _ & D & _). destruct (gdeliver_In' _ _ _ _ _ _ _ D Hg) as (g1 & Hg1 & Xg).
    apply (IH F1 F2 j g0 g1 g2 U2 X); [rewrite (gdeliver_ids _ _ _ _ _ D); exact N|exact Hg1| |exact H2].
    exact (GSkipped_exec _ _ _ _ _ (delivered_skippable u8 F ev j g Al U1) Xg K).
Qed.
Lemma fexec_projection u8 rest : forall F F2, Forall fundisturbed rest -> fexec u8 F rest = Some F2 ->
  exists rest', Forall undisturbed_run rest' /\ pexec (f_proj F) rest' = Some (f_proj F2).
Proof.
  assert (App : forall a b p, pexec p (a ++ b) = match pexec p a with Some p' => pexec p' b | None => None end).
  { induction a as [|ev a IHa]; intros b p; cbn [pexec app]; [reflexivity|]. destruct (pstep p ev); auto. }
  induction rest as [|ev rest IH]; intros F F2 U X; cbn [fexec] in X.
  - injection X as <-. exists []. split; [constructor|reflexivity].
  - apply Forall_cons_iff in U as [U1 U2]. destruct (fstep u8 F ev) as [F1|] eqn:S; [|discriminate].
    destruct (fstep_inv _ _ _ _ S) as (_ & Xp & _ & _). destruct (IH F1 F2 U2 X) as (rest' & A & B).
    exists (pdelivered u8 F ev ++ rest'). split; [apply Forall_app; split; [exact (undisturbed_delivered _ _ _ U1)|exact A]|].
    rewrite App, Xp. exact B.
Qed.

Theorem full_failure_stops rg bd u8 mt0 l files gids evs h F w r x rest F2 :
  (forall j, lawful (bd j)) -> fresh_full mt0 l gids -> fhistory rg bd u8 mt0 l files gids evs h F ->
  p_run (f_proj F) = Some (w, r, x) -> p_ok (f_proj F) = false -> Forall fundisturbed rest -> fexec u8 F rest = Some F2 ->
  (forall id e st c st2, In (id, (e, st)) (p_targets (f_proj F)) -> In (id, c) (p_built (f_proj F)) -> ~ In id (starts (x_log x)) ->
     In (id, (e, st2)) (p_targets (f_proj F2)) -> s_ok st2 = false /\ s_log st2 = s_log st /\ same_outputs (s_disk st) (s_disk st2)) /\
  (forall j g o g2, In (j, g) (f_gens F) -> In (j, o) (f_objs F) -> ~ In j (starts (x_log x)) -> In (j, g2) (f_gens F2) ->
     g_ok g2 = false /\ g_log g2 = g_log g /\ gd_store (g_disk g2) = gd_store (g_disk g) /\ gd_made (g_disk g2) = gd_made (g_disk g)).
Proof.
  intros Law Fr H Er Ok U X. split.
  - intros id e st c st2 Hi Hb Ns H2. destruct (projection _ _ _ _ _ _ _ _ _ _ H) as (pevs & P).
    destruct (fexec_projection _ _ _ _ U X) as (rest' & U' & X').
    exact (failure_stops _ _ _ _ _ _ _ _ _ _ _ _ _ _ _ _ (proj1 Fr) P Er Ok Hi Hb Ns U' X' st2 H2).
  - intros j g o g2 Hg Ho Ns H2. pose proof (fhistory_FInv _ _ _ _ _ _ _ _ _ _ Law Fr H) as I.
    pose proof (fi_g _ _ _ _ _ _ _ _ I j g Hg) as J. pose proof (assoc_NoDup_In _ _ _ (fi_objs _ _ _ _ _ _ _ _ I) Ho) as Ha.
    pose proof (ji_early _ _ _ _ _ _ _ _ _ _ J o w r x Ha Er Ns) as Pc.
    assert (Og : g_ok g = false).
    { apply (fhistory_KInv _ _ _ _ _ _ _ _ _ _ Law Fr H ltac:(congruence) Ok j g Hg). unfold grunning. rewrite Pc. reflexivity. }
    assert (K : GSkipped g g) by (constructor; auto).
    destruct (fexec_skipped _ _ _ _ _ _ _ _ U X (fi_nd _ _ _ _ _ _ _ _ I) Hg K H2). auto.
Qed.

Theorem full_verdict rg bd u8 mt0 l files gids evs h F w r x :
  fresh_full mt0 l gids -> fhistory rg bd u8 mt0 l files gids evs h F ->
  p_run (f_proj F) = Some (w, r, x) -> x_over w (rg_built r) (rg_edges r) x -> p_ok (f_proj F) = build_succeeded (x_log x).
Proof.
  intros Fr H Er O. destruct (projection _ _ _ _ _ _ _ _ _ _ H) as (pevs & P). exact (verdict _ _ _ _ _ _ _ _ _ _ (proj1 Fr) P Er O).
Qed.
