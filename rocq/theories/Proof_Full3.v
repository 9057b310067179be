(** Programs with targets and generators: what a finished run leaves behind. *)
From Verif Require Import Prelude Proof_Prelude Model_Path Model_Schema Model_Command Model_ToolchainConfig Model_Target
  Spec_Target Proof_TargetInv Model_Gen Spec_Gen Model_Reg Spec_Reg Proof_Reg Proof_RegRun
  Model_Project Spec_Project Proof_Project Proof_Project2 Proof_Project3 Proof_Project4 Model_Full Spec_Full Proof_Full Proof_Full2.

Lemma run_from p ev p' w r x : pstep p ev = Some p' -> p_run p' = Some (w, r, x) ->
  (ev = PRun w r /\ p_run p = None) \/ (exists x0, p_run p = Some (w, r, x0)) /\ (forall ls, ev <> PStop ls).
Proof.
  intros S. unfold pstep in S. destruct (process p ev) as [[[b rn] ok]|] eqn:E; [|discriminate].
  destruct (deliver _ _ _); [|discriminate]. injection S as <-. cbn [p_run]. intros ->.
  destruct ev as [f t|i|i c ord|w1 r1|i|i y t|i f t|i|i okk|ls]; cbn [process] in E.
  - injection E as _ E _. right. split; [eauto|discriminate].
  - destruct (mem_str _ _); [|discriminate]. injection E as _ E _. right. split; [eauto|discriminate].
  - destruct (p_run p); [discriminate|]. destruct (assoc i (p_targets p)) as [[e st]|]; [|discriminate].
    destruct (assoc i (p_built p)); [discriminate|]. destruct (forallb _ _); discriminate.
  - destruct (p_run p); [discriminate|]. injection E as _ <- <- _ _. left. auto.
  - destruct (p_run p) as [[[w1 r1] x1]|]; [|discriminate]. destruct (xstep _ _ _ _ _); [|discriminate]. injection E as _ <- <- _ _.
    right. split; [eauto|discriminate].
  - destruct (p_run p) as [[[w1 r1] x1]|]; [|discriminate]. destruct (assoc i (p_targets p)) as [[e st]|]; [|discriminate].
    destruct (assoc i (p_built p)); [|discriminate]. destruct (_ && _ && _); [|discriminate]. destruct (step _ _ _); [|discriminate].
    injection E as _ <- <- _ _. right. split; [eauto|discriminate].
  - destruct (p_run p) as [[[w1 r1] x1]|]; [|discriminate]. destruct (assoc i (p_gens p)); [|discriminate]. destruct (_ && _); [|discriminate].
    injection E as _ <- <- _ _. right. split; [eauto|discriminate].
  - destruct (p_run p) as [[[w1 r1] x1]|]; [|discriminate]. destruct (assoc i (p_targets p)); [discriminate|].
    destruct (assoc i (p_gens p)); [|discriminate]. destruct (mem_str _ _); [|discriminate].
    injection E as _ <- <- _ _. right. split; [eauto|discriminate].
  - destruct (p_run p) as [[[w1 r1] x1]|]; [|discriminate]. destruct (xstep _ _ _ _ _); [|discriminate].
    destruct (assoc i (p_targets p)) as [[e st]|]; [destruct (assoc i (p_built p)); [destruct (_ && _)|destruct okk]|destruct (implb _ _)];
      try discriminate; injection E as _ <- <- _ _; (right; split; [eauto|discriminate]).
  - discriminate.
Qed.

Section Full.
Context (rg : regime) (bd : string -> discipline) (u8 : string -> N) (mt0 : times)
  (l : list (string * (tenv * disk))) (files : list (string * list string)).
Hypothesis Law : forall j, lawful (bd j).
Hypothesis Fresh : fresh_project mt0 l.
Local Notation FInv := (FInv rg bd u8 l files).

Lemma fstep_inv F ev F' : fstep u8 F ev = Some F' ->
  fallowed F ev = true /\ pexec (f_proj F) (pdelivered u8 F ev) = Some (f_proj F') /\
  gdeliver u8 F ev (f_gens F) = Some (f_gens F') /\ f_objs F' = objs_after F ev.
Proof using.
  unfold fstep. destruct (fallowed F ev); [|discriminate]. destruct (pexec _ _); [|discriminate]. destruct (gdeliver _ _ _ _); [|discriminate].
  intros [= <-]. auto.
Qed.

Lemma delivered_history F h ev F' pevs : fadmissible rg bd F h ev -> fstep u8 F ev = Some F' ->
  phistory rg l files pevs (fh_p h) (f_proj F) ->
  phistory rg l files (pevs ++ pdelivered u8 F ev) (fh_p (ftrack u8 F h ev)) (f_proj F').
Proof using.
  intros A S H. destruct (fstep_inv _ _ _ S) as (_ & X & _ & _). cbn [ftrack fh_p]. apply phistory_exec; [exact H| |exact X].
  destruct ev as [pe|i|i o|i x]; cbn [pdelivered padmissibles fadmissible] in *; try exact Logic.I.
  - split; [apply A|]. destruct (pstep _ _); exact Logic.I.
  - destruct A as (_ & A2 & A3). apply gen_admissible; [exact A2|]. intros f t Hw. destruct (A3 f t Hw) as [B C]. split; [exact B|].
    intros E. exact (proj1 (C E)).
Qed.

Lemma gwired_same F F' r : same_outs (f_proj F) (f_proj F') -> p_gens (f_proj F') = p_gens (f_proj F) -> f_objs F' = f_objs F ->
  gwired F r -> gwired F' r.
Proof using.
  intros O G B W b a f o k g Hb Hw Nb Ha Ho Hk Hf. rewrite B in Ho. exact (W b a f o k g Hb (writes_same _ _ _ _ O G Hw) Nb Ha Ho Hk Hf).
Qed.

Lemma FInv_step F h ed ev F' : FInv F h ed -> fadmissible rg bd F h ev -> fstep u8 F ev = Some F' ->
  FInv F' (ftrack u8 F h ev) (fedited_after ed ev).
Proof using Law Fresh.
  intros I A S. destruct (fstep_inv _ _ _ S) as (Al & X & D & B). destruct (pexec_outs _ _ _ X) as [O G]. constructor.
  - destruct (fi_p _ _ _ _ _ _ _ _ I) as (pevs & H). eexists. exact (delivered_history _ _ _ _ _ A S H).
  - rewrite (gdeliver_ids _ _ _ _ _ D). exact (fi_nd _ _ _ _ _ _ _ _ I).
  - intros j g' Hj. destruct (gdeliver_In _ _ _ _ _ _ _ D Hj) as (g & Hg & Xg). rewrite B. cbn [ftrack fh_g].
    rewrite (assoc_NoDup_In _ _ _ (fi_nd _ _ _ _ _ _ _ _ I) Hg).
    exact (generator_kept _ _ _ _ _ _ Law Fresh _ _ _ _ _ _ _ _ I A Al X Hg Xg).
  - rewrite B. pose proof (fi_objs _ _ _ _ _ _ _ _ I) as N. destruct ev as [pe|i|i o|i x]; cbn [objs_after]; try exact N.
    + destruct pe; try exact N. constructor.
    + cbn [fallowed] in Al. destruct (p_run _); [discriminate|]. destruct (assoc i (f_gens F)); [|discriminate].
      destruct (assoc i (f_objs F)) eqn:Eo; [discriminate|]. apply assoc_None in Eo. rewrite map_app. cbn [map fst].
      apply NoDup_snoc; assumption.
  - intros w r x Er. destruct ev as [pe|i|i o|i x0].
    + cbn [pdelivered pexec] in X. destruct (pstep (f_proj F) pe) as [p1|] eqn:Sp; [|discriminate]. injection X as X. rewrite <- X in Er.
      destruct (run_from _ _ _ _ _ _ Sp Er) as [[-> _]|[(x1 & E1) Np]].
      * apply (gwired_same F); [exact O|exact G|exact B|]. exact (proj2 A).
      * apply (gwired_same F); [exact O|exact G| |exact (fi_wired _ _ _ _ _ _ _ _ I _ _ _ E1)].
        rewrite B. destruct pe; try reflexivity. destruct (Np _ eq_refl).
    + cbn [pdelivered pexec] in X. injection X as X. rewrite <- X in Er.
      apply (gwired_same F); [exact O|exact G|exact B|exact (fi_wired _ _ _ _ _ _ _ _ I _ _ _ Er)].
    + cbn [pdelivered pexec] in X. injection X as X. rewrite <- X in Er. cbn [fallowed] in Al. rewrite Er in Al. discriminate.
    + cbn [pdelivered] in X. destruct (gen_effect _ _ _ _ _ X) as (E1 & _). rewrite E1 in Er.
      apply (gwired_same F); [exact O|exact G|exact B|exact (fi_wired _ _ _ _ _ _ _ _ I _ _ _ Er)].
  - intros j Hj. rewrite (gdeliver_ids _ _ _ _ _ D) in Hj. rewrite (same_outs_ids _ _ O). exact (fi_dis _ _ _ _ _ _ _ _ I j Hj).
Qed.
End Full.

Definition fedited_in (evs : list fevent) : bool := fold_left fedited_after evs false.

Lemma in_gens (mt0 : times) (gids : list string) j g : In (j, g) (map (fun j : string => (j, ginit mt0)) gids) -> In j gids /\ g = ginit mt0.
Proof. intros H. apply in_map_iff in H as (i & [= <- <-] & H). auto. Qed.
Lemma FInv_init rg bd u8 mt0 l files gids : fresh_full mt0 l gids ->
  FInv rg bd u8 l files (finit mt0 l files gids)
    (FH (fun id => match assoc id l with Some (_, d) => hist0 d | None => HS (fun _ => 0%N) None None false end) (fun _ => ghist0 mt0)) false.
Proof.
  intros (Fr & N & Dj). constructor; unfold finit; cbn [f_proj f_gens f_objs fh_p fh_g].
  - exists []. constructor.
  - rewrite map_map. cbn [fst]. rewrite map_id. exact N.
  - intros j g Hj. apply in_gens in Hj as [_ ->]. constructor; try discriminate; try reflexivity. exists mt0, []. constructor.
  - constructor.
  - discriminate.
  - intros j Hj. rewrite map_map in Hj. cbn [fst] in Hj. rewrite map_id in Hj. cbn [pinit p_targets]. rewrite map_map. cbn [fst]. exact (Dj j Hj).
Qed.
Lemma fhistory_FInv rg bd u8 mt0 l files gids evs h F : (forall j, lawful (bd j)) -> fresh_full mt0 l gids ->
  fhistory rg bd u8 mt0 l files gids evs h F -> FInv rg bd u8 l files F h (fedited_in evs).
Proof.
  intros Law Fr H. induction H as [|evs h F ev F' _ IH A S]; [exact (FInv_init _ _ _ _ _ _ _ Fr)|].
  unfold fedited_in. rewrite fold_left_app. cbn [fold_left]. destruct Fr as (Fr & _). exact (FInv_step _ _ _ _ _ _ Law Fr _ _ _ _ _ IH A S).
Qed.
Lemma fundisturbed_edited pre w r run : Forall fundisturbed run -> fedited_in (pre ++ FP (PRun w r) :: run) = false.
Proof.
  intros F. unfold fedited_in. rewrite fold_left_app. cbn [fold_left fedited_after edited_after].
  generalize (fold_left fedited_after pre false). intros _. induction F as [|ev run U _ IH]; [reflexivity|].
  cbn [fold_left]. destruct ev as [pe| | |]; try destruct U; [|exact IH]. cbn [fundisturbed] in U. destruct pe; try destruct U; exact IH.
Qed.
Lemma fhistory_snoc_inv rg bd u8 mt0 l files gids evs ev h F :
  fhistory rg bd u8 mt0 l files gids (evs ++ [ev]) h F ->
  exists h1 F1, fhistory rg bd u8 mt0 l files gids evs h1 F1 /\ fadmissible rg bd F1 h1 ev /\ fstep u8 F1 ev = Some F /\ h = ftrack u8 F1 h1 ev.
Proof.
  intros H. inversion H as [E|evs' h1 F1 ev' F' H1 A S E].
  - destruct evs; discriminate.
  - apply app_inj_tail in E as [-> ->]. exists h1, F1. auto.
Qed.

(** The history of the targets in a history of the whole program. *)
Lemma undisturbed_delivered u8 F ev : fundisturbed ev -> Forall undisturbed_run (pdelivered u8 F ev).
Proof.
  destruct ev as [pe| | |i x]; intros U; try destruct U; cbn [pdelivered].
  - constructor; [exact U|constructor].
  - apply Forall_app. split; [|destruct (gfails _ _ _ _); repeat constructor].
    apply Forall_forall. intros y Hy. apply in_map_iff in Hy as (z & <- & _). exact Logic.I.
Qed.
Lemma projection rg bd u8 mt0 l files gids evs h F : fhistory rg bd u8 mt0 l files gids evs h F ->
  exists pevs, phistory rg l files pevs (fh_p h) (f_proj F).
Proof.
  intros H. induction H as [|evs h F ev F' _ [pevs IH] A S]; [exists []; constructor|].
  eexists. exact (delivered_history _ _ _ _ _ _ _ _ _ _ A S IH).
Qed.
Lemma run_projection rg bd u8 mt0 l files gids pre w r run : Forall fundisturbed run -> forall h F,
  fhistory rg bd u8 mt0 l files gids (pre ++ FP (PRun w r) :: run) h F ->
  exists pre' run', phistory rg l files (pre' ++ PRun w r :: run') (fh_p h) (f_proj F) /\ Forall undisturbed_run run'.
Proof.
  induction run as [|ev run IH] using rev_ind; intros U h F H.
  - apply fhistory_snoc_inv in H as (h1 & F1 & H1 & A & S & ->). destruct (projection _ _ _ _ _ _ _ _ _ _ H1) as (pevs & P).
    exists pevs, []. split; [|constructor]. exact (delivered_history _ _ _ _ _ _ _ _ _ _ A S P).
  - rewrite app_comm_cons, app_assoc in H. apply fhistory_snoc_inv in H as (h1 & F1 & H1 & A & S & ->).
    apply Forall_app in U as [U1 U2]. apply Forall_inv in U2. destruct (IH U1 _ _ H1) as (pre' & run' & P & Q).
    exists pre', (run' ++ pdelivered u8 F1 ev). split.
    + rewrite app_comm_cons, app_assoc. exact (delivered_history _ _ _ _ _ _ _ _ _ _ A S P).
    + apply Forall_app. split; [exact Q|]. apply undisturbed_delivered. exact U2.
Qed.

(** ** All see the same times *)
Definition fchange (F : full) (ev : fevent) : list (string * option N) :=
  match ev with
  | FP pe => match change (f_proj F) pe with Some c => [c] | None => [] end
  | FStep _ x => writes_of x
  | _ => []
  end.


Lemma pstep_mt p ev p' id e st' : NoDup (map fst (p_targets p)) -> pstep p ev = Some p' -> In (id, (e, st')) (p_targets p') ->
  exists st, In (id, (e, st)) (p_targets p) /\ d_mt (s_disk st') = changed (change p ev) (d_mt (s_disk st)).
Proof.
  intros Nd S Hi. unfold pstep in S. destruct (process p ev) as [[[b rn] ok]|] eqn:E; [|discriminate].
  destruct (deliver p ev (p_targets p)) as [ts|] eqn:D; [|discriminate]. injection S as <-. cbn [p_targets] in Hi.
  destruct (deliver_In _ _ _ _ _ _ _ D Hi) as (st & H & X). exists st. split; [exact H|].
  exact (proj1 (delivered_effect _ _ _ _ _ _ _ _ _ (HS (fun _ => 0%N) None None false) Nd E H X)).
Qed.
Lemma write_all_changed c m : write_all m (match c with Some x => [x] | None => [] end) = changed c m.
Proof. destruct c as [[f t]|]; reflexivity. Qed.
Lemma gen_mt i (b : bool) w : forall p p' id e st', NoDup (map fst (p_targets p)) ->
  pexec p (pwrites i w ++ if b then [PFail i] else []) = Some p' -> In (id, (e, st')) (p_targets p') ->
  exists st, In (id, (e, st)) (p_targets p) /\ d_mt (s_disk st') = write_all (d_mt (s_disk st)) w.
Proof.
  induction w as [|[f t] w IH]; intros p p' id e st' Nd X Hi; cbn [pwrites map app pexec fst snd] in X.
  - destruct b; cbn [pexec] in X.
    + destruct (pstep p (PFail i)) as [p1|] eqn:S; [|discriminate]. injection X as <-. exact (pstep_mt _ _ _ _ _ _ Nd S Hi).
    + injection X as <-. exists st'. auto.
  - destruct (pstep p (PWrite i f t)) as [p1|] eqn:S; [|discriminate]. destruct (pstep_outs _ _ _ S) as [O _].
    destruct (IH p1 p' id e st') as (st1 & H1 & E1); [rewrite (same_outs_ids _ _ O); exact Nd|exact X|exact Hi|].
    destruct (pstep_mt _ _ _ _ _ _ Nd S H1) as (st & H & E). exists st. split; [exact H|]. rewrite E1, E. reflexivity.
Qed.
Lemma fail_mt u8 b g g1 g' : gexec u8 g1 (gfail_others b g) = Some g' -> gd_mt (g_disk g') = gd_mt (g_disk g1).
Proof. unfold gfail_others. destruct (_ && _); cbn [gexec gstep]; intros [= <-]; reflexivity. Qed.
Lemma edits_mt u8 w : forall g g1, gexec u8 g (map (fun w0 : string * option N => GEdit (fst w0) (snd w0)) w) = Some g1 ->
  gd_mt (g_disk g1) = write_all (gd_mt (g_disk g)) w.
Proof.
  induction w as [|[f t] w IH]; intros g g1 X; cbn [map gexec gstep fst snd] in X; [injection X as <-; reflexivity|].
  rewrite (IH _ _ X). reflexivity.
Qed.
Lemma generate_mt u8 g x g' : in_generate x = true -> gstep u8 g x = Some g' -> gd_mt (g_disk g') = write_all (gd_mt (g_disk g)) (writes_of x).
Proof.
  destruct x; try discriminate; intros _ S; cbn [gstep writes_of] in *.
  - destruct (g_pc g); try discriminate. injection S as <-. unfold gsetup. destruct (negb _); reflexivity.
  - destruct (g_pc g); try discriminate. destruct (assoc id (g_tasks g)) as [[]|]; try discriminate.
    destruct (assoc id (go_ids (g_cfg g))) as [gi|]; [|discriminate]. injection S as <-. unfold genter. destruct (negb _); [reflexivity|].
    destruct (convert _ _); [|reflexivity]. destruct (assoc id (loaded_ids _)); [|reflexivity]. destruct (is_changed _ _ _) as [[]|]; reflexivity.
  - destruct (g_pc g); try discriminate. destruct (assoc id (g_tasks g)) as [[]|]; try discriminate. injection S as <-.
    unfold gcallback. destruct ok; reflexivity.
  - destruct (g_pc g); try discriminate. destruct (forallb _ _); [|discriminate]. unfold gfinish in S.
    destruct (gdirty g); [destruct (final_text g)|]; destruct w; try discriminate; try (injection S as <-; reflexivity).
    destruct (short n s); [|discriminate]. injection S as <-. destruct reported_ok; reflexivity.
Qed.
Lemma gdelivered_mt u8 F ev j g g' p' : fallowed F ev = true -> pexec (f_proj F) (pdelivered u8 F ev) = Some p' ->
  gexec u8 g (gdelivered u8 F ev j g) = Some g' -> gd_mt (g_disk g') = write_all (gd_mt (g_disk g)) (fchange F ev).
Proof.
  intros Al Xp X. destruct ev as [pe|i|i o|i x]; cbn [gdelivered fchange] in *.
  - rewrite write_all_changed. destruct pe as [f t|i|i c ord|w r|i|i y t|i f t|i|i okk|ls]; cbn [gdelivered change changed] in *.
    + cbn [gexec gstep] in X. injection X as <-. reflexivity.
    + injection X as <-. reflexivity.
    + injection X as <-. reflexivity.
    + injection X as <-. reflexivity.
    + injection X as <-. reflexivity.
    + destruct (assoc i (p_targets (f_proj F))) as [[e st]|].
      * destruct t as [t|]; cbn [app gexec gstep changed] in *; rewrite (fail_mt _ _ _ _ _ X); reflexivity.
      * cbn [gexec] in X. injection X as <-. destruct t; reflexivity.
    + cbn [gexec gstep] in X. injection X as <-. reflexivity.
    + exact (fail_mt _ _ _ _ _ X).
    + destruct (assoc i (p_targets (f_proj F))); [injection X as <-; reflexivity|exact (fail_mt _ _ _ _ _ X)].
    + destruct (grunning g); [|injection X as <-; reflexivity]. destruct (assoc j ls); cbn [gexec gstep] in X.
      * destruct (g_pc g); try discriminate. destruct (_ && _); [|discriminate]. destruct (bind _ _); [|discriminate]. injection X as <-. reflexivity.
      * destruct (g_pc g); try discriminate; injection X as <-; reflexivity.
  - destruct (String.eqb i j); cbn [gexec gstep] in X; injection X as <-; reflexivity.
  - destruct (String.eqb i j); cbn [gexec gstep] in X; [|injection X as <-; reflexivity]. destruct (g_pc g); try discriminate.
    unfold gstart in X. destruct (gobj_ok o); [|discriminate]. injection X as <-. reflexivity.
  - cbn [fallowed] in Al. destruct (p_run _) as [[[w r] ex]|]; [|discriminate]. destruct (assoc i (f_gens F)); [|discriminate].
    destruct (assoc i (f_objs F)); [|discriminate]. apply andb_true_iff in Al as [_ Ig]. destruct (String.eqb i j).
    + cbn [gexec] in X. destruct (gstep u8 g x) as [g2|] eqn:St; [|discriminate]. injection X as <-. exact (generate_mt _ _ _ _ Ig St).
    + rewrite gexec_app' in X. destruct (gexec u8 g (map _ _)) as [g2|] eqn:E; [|discriminate].
      rewrite (fail_mt _ _ _ _ _ X). exact (edits_mt _ _ _ _ E).
Qed.
Lemma one_time_step rg bd u8 l files mt0 F h ed ev F' : fresh_project mt0 l -> FInv rg bd u8 l files F h ed -> fstep u8 F ev = Some F' -> one_time F -> one_time F'.
Proof.
  intros Fr I S (mt & T & G). destruct (fstep_inv _ _ _ _ S) as (Al & X & D & _). exists (write_all mt (fchange F ev)). split.
  - intros id e st' Hi. destruct (FInv_PInv _ _ _ _ _ _ Fr _ _ _ I) as (ed' & P). pose proof (pi_ids _ _ _ _ P) as Nd.
    destruct ev as [pe|i|i o|i x]; cbn [pdelivered fchange] in *.
    + rewrite write_all_changed. cbn [pexec] in X. destruct (pstep (f_proj F) pe) as [p1|] eqn:Sp; [|discriminate]. injection X as X. rewrite <- X in Hi.
      destruct (pstep_mt _ _ _ _ _ _ Nd Sp Hi) as (st & H & ->). rewrite (T _ _ _ H). reflexivity.
    + cbn [pexec] in X. injection X as X. rewrite <- X in Hi. exact (T _ _ _ Hi).
    + cbn [pexec] in X. injection X as X. rewrite <- X in Hi. exact (T _ _ _ Hi).
    + destruct (gen_mt _ _ _ _ _ _ _ _ Nd X Hi) as (st & H & ->). rewrite (T _ _ _ H). reflexivity.
  - intros j g' Hj. destruct (gdeliver_In _ _ _ _ _ _ _ D Hj) as (g & Hg & Xg).
    rewrite (gdelivered_mt _ _ _ _ _ _ _ Al X Xg), (G _ _ Hg). reflexivity.
Qed.
Lemma fhistory_one_time rg bd u8 mt0 l files gids evs h F : (forall j, lawful (bd j)) -> fresh_full mt0 l gids ->
  fhistory rg bd u8 mt0 l files gids evs h F -> one_time F.
Proof.
  intros Law Fr H. induction H as [|evs h F ev F' H IH A S].
  - exists mt0. destruct Fr as ((_ & _ & Fr) & _). split.
    + intros id e st Hi. cbn [finit f_proj pinit p_targets] in Hi. apply in_init in Hi as (d & Hi & ->). destruct (Fr _ _ _ Hi) as (_ & K & _). exact K.
    + intros j g Hj. cbn [finit f_gens] in Hj. apply in_gens in Hj as [_ ->]. reflexivity.
  - pose proof (fhistory_FInv _ _ _ _ _ _ _ _ _ _ Law Fr H) as I. destruct Fr as (Fr & _).
    exact (one_time_step _ _ _ _ _ _ _ _ _ _ _ Fr I S IH).
Qed.

(** ** Whole runs *)
Lemma finished_generator rg bd u8 mt0 l files gids pre w r run h F x j g o :
  (forall j, lawful (bd j)) -> fresh_full mt0 l gids ->
  fhistory rg bd u8 mt0 l files gids (pre ++ FP (PRun w r) :: run) h F -> Forall fundisturbed run ->
  p_run (f_proj F) = Some (w, r, x) -> p_ok (f_proj F) = true ->
  In (j, g) (f_gens F) -> In (j, o) (f_objs F) -> In j (finishes (x_log x)) ->
  forall k gi, In (k, gi) (go_ids o) -> id_current (bd j) (gd_mt (g_disk g)) (g_disk g) k gi.
Proof.
  intros Law Fr H U Er Ok Hg Ho Hf. pose proof (fhistory_FInv _ _ _ _ _ _ _ _ _ _ Law Fr H) as I. rewrite (fundisturbed_edited _ _ _ _ U) in I.
  pose proof (fi_g _ _ _ _ _ _ _ _ I j g Hg) as J. pose proof (assoc_NoDup_In _ _ _ (fi_objs _ _ _ _ _ _ _ _ I) Ho) as Ha.
  apply (ji_done _ _ _ _ _ _ _ _ _ _ J o w r x Ha Er eq_refl).
  - exact (ji_late _ _ _ _ _ _ _ _ _ _ J o w r x Ha Er Hf).
  - exact (ji_ok _ _ _ _ _ _ _ _ _ _ J o w r x Ha Er Ok).
Qed.

Theorem full_run_current rg bd u8 mt0 l files gids pre w r run h F x n prog :
  (forall j, lawful (bd j)) -> fresh_full mt0 l gids ->
  fhistory rg bd u8 mt0 l files gids (pre ++ FP (PRun w r) :: run) h F -> Forall fundisturbed run ->
  registers n prog r -> no_loop (rg_edges r) -> 0 < w ->
  p_run (f_proj F) = Some (w, r, x) -> x_over w (rg_built r) (rg_edges r) x -> p_ok (f_proj F) = true ->
  (forall id e st c, In (id, (e, st)) (p_targets (f_proj F)) -> In (id, c) (p_built (f_proj F)) -> In id (rg_built r) ->
     all_current e c (s_disk st) /\
     forall b eb sb, In (b, (eb, sb)) (p_targets (f_proj F)) -> In (out_file eb) (libs c ++ link_deps c) ->
       p_seen (f_proj F) id b = d_tgt (s_disk sb)) /\
  (forall j g o, In (j, g) (f_gens F) -> In (j, o) (f_objs F) -> In j (rg_built r) ->
     forall k gi, In (k, gi) (go_ids o) -> id_current (bd j) (gd_mt (g_disk g)) (g_disk g) k gi) /\
  one_time F.
Proof.
  intros Law Fr H U R L W E O Ok. destruct (run_projection _ _ _ _ _ _ _ _ _ _ _ U _ _ H) as (pre' & run' & P & U').
  split; [|split].
  - apply (whole_run_current _ _ _ _ _ _ _ _ _ _ x _ _ (proj1 Fr) P U' R L W E O Ok).
  - intros j g o Hg Ho Hr. assert (Hf : In j (finishes (x_log x))).
    { destruct (everything_executed _ _ _ _ _ R L W (over_executes _ _ _ _ _ _ _ _ _ P E O)) as [K _].
      exact (Permutation_in _ (Permutation_sym K) Hr). }
    exact (finished_generator _ _ _ _ _ _ _ _ _ _ _ _ _ _ _ _ _ Law Fr H U E Ok Hg Ho Hf).
  - exact (fhistory_one_time _ _ _ _ _ _ _ _ _ _ Law Fr H).
Qed.
