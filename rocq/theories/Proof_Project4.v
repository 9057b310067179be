(** Programs with several builders: whole runs, the verdict, and runs with
    nothing to do. *)
From Verif Require Import Prelude Proof_Prelude Model_Path Model_Schema Model_Command Model_ToolchainConfig Model_Target
  Spec_Target Proof_TargetBase Proof_TargetInv Proof_TargetRun Proof_TargetStep Proof_TargetStep2 Proof_TargetMain
  Model_Reg Spec_Reg Proof_Reg Proof_RegRun Model_Project Spec_Project Proof_Project Proof_Project2 Proof_Project3.

(** ** The executor's log *)

Lemma xexec_snoc w b g s log ev : xexec w b g s (log ++ [ev]) =
  match xexec w b g s log with Some s' => xstep w b g s' ev | None => None end.
Proof.
  revert s. induction log as [|x log IH]; intros s; cbn [app xexec].
  - destruct (xstep w b g s ev); reflexivity.
  - destruct (xstep w b g s x); [apply IH|reflexivity].
Qed.
Definition logged (run : option (nat * reg * xstate)) : Prop :=
  forall w r x, run = Some (w, r, x) -> xexec w (rg_built r) (rg_edges r) (x_init (rg_edges r)) (x_log x) = Some x.
Lemma xstep_logged w b g x ev x' : xexec w b g (x_init g) (x_log x) = Some x -> xstep w b g x ev = Some x' ->
  xexec w b g (x_init g) (x_log x') = Some x'.
Proof.
  intros X S. assert (E : x_log x' = x_log x ++ [ev]).
  { destruct ev; cbn [xstep] in S; [destruct (_ && _) in S|destruct (mem_str _ _) in S]; try discriminate; injection S as <-; reflexivity. }
  rewrite E, xexec_snoc, X. exact S.
Qed.
Lemma process_run p ev built run ok : process p ev = Some (built, run, ok) -> logged (p_run p) -> logged run.
Proof.
  intros S L w r x E. subst run. destruct ev as [f t|i|i c ord|w' r'|i|i ev t|i f t|i|i okk|l]; cbn [process] in S.
  - injection S as _ E _. exact (L _ _ _ E).
  - destruct (mem_str _ _); [|discriminate]. injection S as _ E _. exact (L _ _ _ E).
  - destruct (p_run p); [discriminate|]. destruct (assoc i (p_targets p)) as [[e st]|]; [|discriminate].
    destruct (assoc i (p_built p)); [discriminate|]. destruct (forallb _ _); discriminate.
  - destruct (p_run p); [discriminate|]. injection S as _ <- <- <- _. reflexivity.
  - destruct (p_run p) as [[[w1 r1] x1]|] eqn:Er; [|discriminate]. destruct (xstep _ _ _ _ _) eqn:Xs; [|discriminate].
    injection S as _ <- <- <- _. exact (xstep_logged _ _ _ _ _ _ (L _ _ _ eq_refl) Xs).
  - destruct (p_run p) as [[[w1 r1] x1]|] eqn:Er; [|discriminate]. destruct (assoc i (p_targets p)) as [[e st]|]; [|discriminate].
    destruct (assoc i (p_built p)); [|discriminate]. destruct (_ && _ && _); [|discriminate]. destruct (step _ _ _); [|discriminate].
    injection S as _ <- <- <- _. exact (L _ _ _ eq_refl).
  - destruct (p_run p) as [[[w1 r1] x1]|] eqn:Er; [|discriminate]. destruct (assoc i (p_gens p)); [|discriminate].
    destruct (_ && _); [|discriminate]. injection S as _ <- <- <- _. exact (L _ _ _ eq_refl).
  - destruct (p_run p) as [[[w1 r1] x1]|] eqn:Er; [|discriminate]. destruct (assoc i (p_targets p)); [discriminate|].
    destruct (assoc i (p_gens p)); [|discriminate]. destruct (mem_str _ _); [|discriminate].
    injection S as _ <- <- <- _. exact (L _ _ _ eq_refl).
  - destruct (p_run p) as [[[w1 r1] x1]|] eqn:Er; [|discriminate]. destruct (xstep _ _ _ _ _) eqn:Xs; [|discriminate].
    pose proof (xstep_logged _ _ _ _ _ _ (L _ _ _ eq_refl) Xs) as K.
    destruct (assoc i (p_targets p)) as [[e st]|]; [destruct (assoc i (p_built p)); [destruct (_ && _)|destruct okk]|destruct (implb _ _)];
      try discriminate; injection S as _ <- <- <- _; exact K.
  - discriminate.
Qed.
Lemma phistory_logged rg l gens evs h p : phistory rg l gens evs h p -> logged (p_run p).
Proof.
  induction 1 as [|evs h p ev p' _ IH A S]; [intros w r x E; discriminate|].
  unfold pstep in S. destruct (process p ev) as [[[b rn] ok]|] eqn:E; [|discriminate].
  destruct (deliver _ _ _); [|discriminate]. injection S as <-. cbn [p_run]. exact (process_run _ _ _ _ _ E IH).
Qed.
Lemma over_executes rg l gens evs h p w r x : phistory rg l gens evs h p -> p_run p = Some (w, r, x) ->
  x_over w (rg_built r) (rg_edges r) x -> executes w r (x_log x).
Proof. intros H E O. exists x. split; [exact (phistory_logged _ _ _ _ _ _ H _ _ _ E)|exact O]. Qed.
Lemma over_idle w b g x : x_over w b g x -> x_running x = [].
Proof.
  intros Ov. destruct (x_running x) as [|i l] eqn:E; [reflexivity|]. specialize (Ov (XFinish i true)). cbn [xstep] in Ov.
  rewrite E in Ov. cbn [mem_str existsb] in Ov. rewrite String.eqb_refl in Ov. discriminate.
Qed.

(** ** The verdict *)

Lemma keeps_failed e st ev st' : (forall c ord, ev <> EvStart c ord) -> step e st ev = Some st' -> s_ok st = false -> s_ok st' = false.
Proof.
  intros N S O. destruct ev; cbn [step] in S; try (injection S as <-; first [exact O|reflexivity]).
  all: try (destruct (s_pc st) eqn:Pc; try discriminate; try (injection S as <-; first [exact O|reflexivity])).
  - destruct (N c ord eq_refl).
  - injection S as <-. unfold pch_check. rewrite O. exact O.
  - unfold pch_exec in S; destruct (pch_command _ _); try discriminate; injection S as <-; destruct (run_res _ _); try reflexivity; exact O.
  - injection S as <-. unfold obj_check. rewrite O. exact O.
  - unfold compile_one in S; destruct (take_pending _ _) as [[i rest]|]; try discriminate; destruct (compile_command _ _ _); try discriminate; injection S as <-; destruct (run_res _ _); try reflexivity; exact O.
  - destruct pending; try discriminate; injection S as <-. unfold link_check. rewrite O. exact O.
  - unfold link_exec in S; destruct (link_command _ _ _); try discriminate; injection S as <-; destruct (run_res _ _); try reflexivity; exact O.
  - unfold end_task in S; destruct (s_dirty st); [destruct (store_text _)|]; destruct w; try discriminate; try (injection S as <-; first [reflexivity|exact O]);
       destruct (short n _); try discriminate; destruct reported_ok; injection S as <-; first [reflexivity|exact O].
  - destruct (s_dirty st); [|discriminate]. destruct (bind _ _); [|discriminate]. injection S as <-. reflexivity.
Qed.
Lemma exec_failed e evs : forall st st', (forall c ord, ~ In (EvStart c ord) evs) -> exec e st evs = Some st' -> s_ok st = false -> s_ok st' = false.
Proof.
  induction evs as [|ev evs IH]; intros st st' N X O; cbn [exec] in X; [injection X as <-; exact O|].
  destruct (step e st ev) as [s1|] eqn:S; [|discriminate]. apply (IH s1 st'); [intros c ord K; apply (N c ord); right; exact K|exact X|].
  apply (keeps_failed e st ev s1); [intros c ord ->; apply (N c ord); left; reflexivity|exact S|exact O].
Qed.
Lemma delivered_no_start p ev id st : (forall i c ord, ev <> PBuild i c ord) -> in_taskflow (match ev with PStep _ x _ => x | _ => EvPchCheck end) = true ->
  forall c ord, ~ In (EvStart c ord) (delivered p ev id st).
Proof.
  intros N F c ord K. destruct ev as [f t|i|i c0 ord0|w r|i|i x t|i f t|i|i okk|l]; cbn [delivered] in K.
  - destruct K as [K|[]]; discriminate.
  - destruct (String.eqb i id); [|destruct K]. destruct K as [K|[]]; discriminate.
  - exact (N _ _ _ eq_refl).
  - destruct K.
  - destruct K.
  - destruct (assoc i (p_targets p)) as [[e st0]|]; [|destruct K]. apply in_app_iff in K as [K|K].
    + destruct (String.eqb i id); [|destruct K]. destruct K as [->|[]]. discriminate.
    + apply in_app_iff in K as [K|K].
      * destruct t; [|destruct K]. destruct K as [K|[]]; discriminate.
      * destruct (String.eqb i id); [destruct K|]. unfold fail_others in K. destruct (_ && _); [|destruct K]. destruct K as [K|[]]; discriminate.
  - destruct K as [K|[]]; discriminate.
  - unfold fail_others in K. destruct (_ && _); [|destruct K]. destruct K as [K|[]]; discriminate.
  - destruct (assoc i (p_targets p)); [destruct K|]. unfold fail_others in K. destruct (_ && _); [|destruct K]. destruct K as [K|[]]; discriminate.
  - destruct (running st); [|destruct K]. destruct (assoc id l); destruct K as [K|[]]; discriminate.
Qed.

Definition VInv (p : project) : Prop := forall w r x, p_run p = Some (w, r, x) ->
  (build_succeeded (x_log x) = false -> p_ok p = false) /\
  (p_ok p = false -> build_succeeded (x_log x) = false \/
     (exists i e st, In i (x_running x) /\ In (i, (e, st)) (p_targets p) /\ In i (map fst (p_built p)) /\ s_ok st = false) \/
     exists i, In i (x_running x) /\ ~ In i (map fst (p_targets p))).

Lemma succeeded_snoc log ev : build_succeeded (log ++ [ev]) = build_succeeded log && match ev with XFinish _ ok => ok | _ => true end.
Proof. unfold build_succeeded. rewrite forallb_app. cbn [forallb]. rewrite andb_true_r. reflexivity. Qed.
Lemma remove_one_other i j l : j <> i -> In j l -> In j (remove_one i l).
Proof.
  intros N. induction l as [|y l IH]; [intros []|]. cbn [remove_one]. intros [->|H].
  - destruct (String.eqb_spec i j) as [->|]; [contradiction|left; reflexivity].
  - destruct (String.eqb i y); [exact H|right; exact (IH H)].
Qed.

Lemma VInv_step rg p h ed ev p' : PInv rg p h ed -> pstep p ev = Some p' -> VInv p -> VInv p'.
Proof.
  intros P S V. unfold pstep in S. destruct (process p ev) as [[[b rn] ok]|] eqn:E; [|discriminate].
  destruct (deliver p ev (p_targets p)) as [ts|] eqn:Ed; [|discriminate]. injection S as <-.
  assert (Keep : (forall i c ord, ev <> PBuild i c ord) -> in_taskflow (match ev with PStep _ x _ => x | _ => EvPchCheck end) = true ->
    forall i e st, In (i, (e, st)) (p_targets p) -> s_ok st = false -> exists st', In (i, (e, st')) ts /\ s_ok st' = false).
  { intros N F i e st Hi O. destruct (deliver_In' _ _ _ _ _ _ _ Ed Hi) as (st' & H1 & H2). exists st'. split; [exact H1|].
    exact (exec_failed _ _ _ _ (delivered_no_start p ev i st N F) H2 O). }
  assert (Kf : map fst ts = map fst (p_targets p)).
  { pose proof (f_equal (map fst) (deliver_outs _ _ _ _ Ed)) as K. rewrite !map_map in K. exact K. }
  intros w r x Hr. cbn [p_run p_ok p_targets p_built] in *. subst rn. rewrite Kf.
  destruct ev as [f t|i|i c ord|w' r'|i|i ev t|i f t|i|i okk|l]; cbn [process] in E.
  - injection E as <- E <-. destruct (V _ _ _ E) as [V1 V2]. split; [exact V1|]. intros K. destruct (V2 K) as [K1|[(j & e & st & J1 & J2 & J3 & J4)|J]]; [left; exact K1| |right; right; exact J].
    right. left. destruct (Keep ltac:(discriminate) eq_refl j e st J2 J4) as (st' & J5 & J6). exists j, e, st'. auto.
  - destruct (mem_str _ _); [|discriminate]. injection E as <- E <-. destruct (V _ _ _ E) as [V1 V2]. split; [exact V1|].
    intros K. destruct (V2 K) as [K1|[(j & e & st & J1 & J2 & J3 & J4)|J]]; [left; exact K1| |right; right; exact J].
    right. left. destruct (Keep ltac:(discriminate) eq_refl j e st J2 J4) as (st' & J5 & J6). exists j, e, st'. auto.
  - destruct (p_run p); [discriminate|]. destruct (assoc i (p_targets p)) as [[e st]|]; [|discriminate].
    destruct (assoc i (p_built p)); [discriminate|]. destruct (forallb _ _); discriminate.
  - destruct (p_run p) eqn:Er; [discriminate|]. injection E as <- <- <- <- <-. cbn. split; [discriminate|].
    intros K. rewrite (pi_none _ _ _ _ P Er) in K. discriminate.
  - destruct (p_run p) as [[[w1 r1] x1]|] eqn:Er; [|discriminate]. destruct (xstep _ _ _ _ _) eqn:Xs; [|discriminate].
    injection E as <- <- <- <- <-. destruct (V _ _ _ Er) as [V1 V2]. cbn [xstep] in Xs. destruct (_ && _) in Xs; [|discriminate].
    injection Xs as <-. cbn [x_log x_running]. rewrite succeeded_snoc, andb_true_r. split; [exact V1|].
    intros K. destruct (V2 K) as [K1|[(j & e & st & J1 & J2 & J3 & J4)|(j & J1 & J2)]]; [left; exact K1| |right; right; exists j; split; [right; exact J1|exact J2]].
    right. left. destruct (Keep ltac:(discriminate) eq_refl j e st J2 J4) as (st' & J5 & J6). exists j, e, st'. split; [right; exact J1|auto].
  - destruct (p_run p) as [[[w1 r1] x1]|] eqn:Er; [|discriminate]. destruct (assoc i (p_targets p)) as [[e st]|] eqn:Ei; [|discriminate].
    destruct (assoc i (p_built p)) as [ci|] eqn:Eb; [|discriminate]. destruct (mem_str i (x_running x1) && in_taskflow ev && _) eqn:Co; [|discriminate].
    destruct (step e st ev) as [st1|] eqn:Si; [|discriminate]. apply andb_true_iff in Co as [Co _]. apply andb_true_iff in Co as [Cr Cf]. apply mem_str_In in Cr.
    injection E as <- <- <- <- <-. destruct (V _ _ _ Er) as [V1 V2]. split; [intros K; rewrite (V1 K); reflexivity|].
    intros K. apply andb_false_iff in K as [K|K].
    + destruct (V2 K) as [K1|[(j & ej & sj & J1 & J2 & J3 & J4)|J]]; [left; exact K1| |right; right; exact J].
      right. left. destruct (Keep ltac:(discriminate) Cf j ej sj J2 J4) as (st' & J5 & J6). exists j, ej, st'. auto.
    + right. left. pose proof (assoc_In _ _ _ Ei) as Hi. destruct (deliver_In' _ _ _ _ _ _ _ Ed Hi) as (st' & H1 & H2). exists i, e, st'.
      split; [exact Cr|]. split; [exact H1|]. split; [apply assoc_In in Eb; apply (in_map fst _ _ Eb)|].
      cbn [delivered] in H2. rewrite Ei, String.eqb_refl, app_nil_r in H2. cbn [app exec] in H2. rewrite Si in H2.
      destruct t; cbn [exec step] in H2; injection H2 as <-; exact K.
  - destruct (p_run p) as [[[w1 r1] x1]|] eqn:Er; [|discriminate]. destruct (assoc i (p_gens p)); [|discriminate].
    destruct (_ && _); [|discriminate]. injection E as <- <- <- <- <-. destruct (V _ _ _ Er) as [V1 V2]. split; [exact V1|].
    intros K. destruct (V2 K) as [K1|[(j & e & st & J1 & J2 & J3 & J4)|J]]; [left; exact K1| |right; right; exact J].
    right. left. destruct (Keep ltac:(discriminate) eq_refl j e st J2 J4) as (st' & J5 & J6). exists j, e, st'. auto.
  - destruct (p_run p) as [[[w1 r1] x1]|] eqn:Er; [|discriminate]. destruct (assoc i (p_targets p)) eqn:Ei; [discriminate|].
    destruct (assoc i (p_gens p)); [|discriminate]. destruct (mem_str i (x_running x1)) eqn:Mr; [|discriminate].
    injection E as <- <- <- <- <-. split; [reflexivity|]. intros _. right. right. exists i.
    split; [apply mem_str_In; exact Mr|apply assoc_None; exact Ei].
  - destruct (p_run p) as [[[w1 r1] x1]|] eqn:Er; [|discriminate]. destruct (xstep _ _ _ _ _) eqn:Xs; [|discriminate].
    destruct (V _ _ _ Er) as [V1 V2]. cbn [xstep] in Xs. destruct (mem_str i (x_running x1)) eqn:Mr; [|discriminate]. injection Xs as <-.
    assert (G : forall okf, p_ok p = false -> In i (map fst (p_targets p)) -> (forall e st, assoc i (p_targets p) = Some (e, st) -> In i (map fst (p_built p)) -> s_ok st = okf) ->
      build_succeeded (x_log x1 ++ [XFinish i okf]) = false \/
      (exists j e st, In j (remove_one i (x_running x1)) /\ In (j, (e, st)) ts /\ In j (map fst (p_built p)) /\ s_ok st = false) \/
      exists j, In j (remove_one i (x_running x1)) /\ ~ In j (map fst (p_targets p))).
    { intros okf K Ht F. rewrite succeeded_snoc. destruct (V2 K) as [K1|[(j & e & st & J1 & J2 & J3 & J4)|(j & J1 & J2)]]; [left; rewrite K1; reflexivity| |].
      2:{ right. right. exists j. split; [|exact J2]. apply remove_one_other; [|exact J1]. intros ->. contradiction. }
      destruct (String.eqb_spec j i) as [->|N].
      - left. pose proof (assoc_NoDup_In _ _ _ (pi_ids _ _ _ _ P) J2) as Ha. rewrite (F _ _ Ha J3) in J4. rewrite J4. apply andb_false_r.
      - right. left. destruct (Keep ltac:(discriminate) eq_refl j e st J2 J4) as (st' & J5 & J6). exists j, e, st'. split; [apply remove_one_other; assumption|auto]. }
    destruct (assoc i (p_targets p)) as [[e st]|] eqn:Ei; [destruct (assoc i (p_built p)) as [ci|] eqn:Eb|].
    + pose proof (in_map fst _ _ (assoc_In _ _ _ Ei)) as Ht. cbn [fst] in Ht. destruct (negb (running st) && Bool.eqb okk (s_ok st)) eqn:Co; [|discriminate]. apply andb_true_iff in Co as [_ Co]. apply Bool.eqb_prop in Co.
      injection E as <- <- <- <- <-. cbn [x_log x_running]. split.
      * rewrite succeeded_snoc. intros K. apply andb_false_iff in K as [K|K]; [exact (V1 K)|].
        pose proof (pi_tgt _ _ _ _ P i e st (assoc_In _ _ _ Ei)) as T. destruct (p_ok p) eqn:Ok; [|reflexivity].
        pose proof (ti_ok _ _ _ _ _ _ _ _ _ T ci _ _ _ Eb Er eq_refl). congruence.
      * intros K. apply G; [exact K|exact Ht|]. intros e1 st1 [= <- <-] _. symmetry. exact Co.
    + pose proof (in_map fst _ _ (assoc_In _ _ _ Ei)) as Ht. cbn [fst] in Ht. destruct okk; [|discriminate]. injection E as <- <- <- <- <-. cbn [x_log x_running]. split.
      * rewrite succeeded_snoc, andb_true_r. exact V1.
      * intros K. apply G; [exact K|exact Ht|]. intros e1 st1 _ J. apply assoc_None in Eb. contradiction.
    + destruct (implb okk (p_ok p)) eqn:Im; [|discriminate]. injection E as <- <- <- <- <-. cbn [x_log x_running]. split.
      * rewrite succeeded_snoc. intros K. apply andb_false_iff in K as [K|K]; [rewrite (V1 K); reflexivity|rewrite K; apply andb_false_r].
      * intros K. left. rewrite succeeded_snoc. destruct okk; [|apply andb_false_r]. rewrite andb_true_r in K. cbn [implb] in Im. congruence.
  - discriminate.
Qed.
Lemma phistory_VInv rg mt0 l gens evs h p : fresh_project mt0 l -> phistory rg l gens evs h p -> VInv p.
Proof.
  intros F H. induction H as [|evs h p ev p' H IH A S]; [intros w r x E; discriminate|].
  exact (VInv_step _ _ _ _ _ _ (phistory_PInv _ _ _ _ _ _ _ F H) S IH).
Qed.
Theorem verdict rg mt0 l gens evs h p w r x : fresh_project mt0 l -> phistory rg l gens evs h p ->
  p_run p = Some (w, r, x) -> x_over w (rg_built r) (rg_edges r) x -> p_ok p = build_succeeded (x_log x).
Proof.
  intros F H E O. destruct (phistory_VInv _ _ _ _ _ _ _ F H _ _ _ E) as [V1 V2]. pose proof (over_idle _ _ _ _ O) as R.
  destruct (p_ok p), (build_succeeded (x_log x)); try reflexivity.
  - exact (V1 eq_refl).
  - destruct (V2 eq_refl) as [K|[(j & e & st & J & _)|(j & J & _)]]; [discriminate| |]; rewrite R in J; destruct J.
Qed.

(** ** Whole runs *)

Theorem whole_run_current rg mt0 l gens pre w r run h p x n prog :
  fresh_project mt0 l -> phistory rg l gens (pre ++ PRun w r :: run) h p -> Forall undisturbed_run run ->
  registers n prog r -> no_loop (rg_edges r) -> 0 < w ->
  p_run p = Some (w, r, x) -> x_over w (rg_built r) (rg_edges r) x -> p_ok p = true ->
  forall id e st c, In (id, (e, st)) (p_targets p) -> In (id, c) (p_built p) -> In id (rg_built r) ->
    all_current e c (s_disk st) /\
    forall b eb sb, In (b, (eb, sb)) (p_targets p) -> In (out_file eb) (libs c ++ link_deps c) ->
      p_seen p id b = d_tgt (s_disk sb).
Proof.
  intros F H U R L W E O Ok id e st c Hi Hb Hr.
  assert (Hf : In id (finishes (x_log x))).
  { destruct (everything_executed _ _ _ _ _ R L W (over_executes _ _ _ _ _ _ _ _ _ H E O)) as [K _].
    exact (Permutation_in _ (Permutation_sym K) Hr). }
  split; [exact (finished_current _ _ _ _ _ _ _ _ _ _ _ _ _ _ _ F H U E Ok Hi Hb Hf)|].
  intros b eb sb Hj Hl. exact (finished_linked _ _ _ _ _ _ _ _ _ _ _ _ _ _ _ _ _ _ F H U E Ok Hi Hb Hf Hj Hl).
Qed.

(** ** Runs with nothing to do *)

(** A target that is done and whose state file describes the present files. *)
Definition settled (c : cfg) (st : tstate) : Prop :=
  exists s, stored (s_disk st) = Some s /\ allclean s c (d_mt (s_disk st)) /\ NoDup (sources c) /\ s_dirty st = false.
Lemma settled_still c st : s_pc st = Idle -> settled c st -> exists s, NoDup (sources c) /\ Still c s st st.
Proof.
  intros Pc (s & A & B & N & D). exists s. split; [exact N|]. constructor; auto using same_outputs_refl. congruence.
Qed.
Lemma still_settled c s st0 st : NoDup (sources c) -> Still c s st0 st -> settled c st.
Proof. intros N []. exists s. auto. Qed.

(** An event of another builder. *)
Lemma other_kept p ev id e st st' : undisturbed_run ev -> (forall x t, ev <> PStep id x t) ->
  exec e st (delivered p ev id st) = Some st' -> s_pc st' = s_pc st /\ (s_ok st' = true -> s_ok st = true).
Proof.
  intros U N X. assert (FO : forall b s s', exec e s (fail_others b s) = Some s' -> s_pc s' = s_pc s /\ (s_ok s' = true -> s_ok s = true)).
  { intros b s s'. unfold fail_others. destruct (b && running s); cbn [exec step]; intros [= <-]; split; try reflexivity; [discriminate|auto]. }
  destruct ev as [f t|i|i c ord|w r|i|i x t|i f t|i|i okk|l]; try destruct U; cbn [delivered] in X.
  - cbn [exec] in X. injection X as <-. auto.
  - destruct (assoc i (p_targets p)) as [[ei sti]|]; [|cbn [exec] in X; injection X as <-; auto].
    destruct (String.eqb_spec i id) as [->|Ni]; [destruct (N x t eq_refl)|]. destruct t as [t|]; cbn [app exec step] in X.
    + match type of X with exec e ?s1 _ = _ => set (s1' := s1) in * end.
      match type of X with context [fail_others ?b st] => replace (fail_others b st) with (fail_others b s1') in X by reflexivity end.
      exact (FO _ _ _ X).
    + exact (FO _ _ _ X).
  - cbn [exec step] in X. injection X as <-. auto.
  - exact (FO _ _ _ X).
  - destruct (assoc i (p_targets p)); [cbn [exec] in X; injection X as <-; auto|exact (FO _ _ _ X)].
Qed.

Lemma snoc_run pre w r run ev : pre ++ PRun w r :: run ++ [ev] = (pre ++ PRun w r :: run) ++ [ev].
Proof. rewrite <- app_assoc. reflexivity. Qed.

Lemma run_settles rg mt0 l gens pre w r run : fresh_project mt0 l -> Forall undisturbed_run run -> Forall full_writes run ->
  forall h p, phistory rg l gens (pre ++ PRun w r :: run) h p ->
  forall id e st c, In (id, (e, st)) (p_targets p) -> In (id, c) (p_built p) -> s_pc st = Idle -> s_ok st = true -> settled c st.
Proof.
  intros F. induction run as [|ev run IH] using rev_ind; intros U Fw h p H id e st c Hi Hb Pc Ok.
  - exfalso. pose proof (phistory_PInv _ _ _ _ _ _ _ F H) as P. pose proof (pi_tgt _ _ _ _ P id e st Hi) as T.
    pose proof (assoc_NoDup_In _ _ _ (pi_nd _ _ _ _ P) Hb) as Ha.
    apply phistory_snoc_inv in H as (h1 & p1 & _ & _ & S & _). unfold pstep in S. cbn [process] in S.
    destruct (p_run p1); [discriminate|]. destruct (deliver _ _ _); [|discriminate]. injection S as <-. cbn [p_run p_built] in *.
    apply (before_not_idle st); [|exact Pc]. apply (ti_early _ _ _ _ _ _ _ _ _ T c w r (x_init (rg_edges r)) Ha eq_refl). intros [].
  - pose proof (phistory_PInv _ _ _ _ _ _ _ F H) as P. rewrite snoc_run in H.
    apply phistory_snoc_inv in H as (h1 & p1 & H1 & A & S & Eh). apply Forall_app in U as [U1 U2]. apply Forall_inv in U2.
    apply Forall_app in Fw as [W1 W2]. apply Forall_inv in W2. pose proof (phistory_PInv _ _ _ _ _ _ _ F H1) as P1.
    rewrite (undisturbed_edited _ _ _ _ U1) in P1. destruct (run_in_progress _ _ _ _ _ _ _ _ _ U1 H1) as (x & Hx).
    destruct (pstep_run _ _ _ U2 S) as [Bu _]. rewrite Bu in Hb.
    pose proof (assoc_NoDup_In _ _ _ (pi_nd _ _ _ _ P1) Hb) as Ha.
    unfold pstep in S. destruct (process p1 ev) as [[[b rn] ok]|] eqn:E; [|discriminate].
    destruct (deliver p1 ev (p_targets p1)) as [ts|] eqn:Ed; [|discriminate]. injection S as <-. cbn [p_targets] in Hi.
    destruct (deliver_In _ _ _ _ _ _ _ Ed Hi) as (st1 & Hi1 & X). pose proof (pi_tgt _ _ _ _ P1 id e st1 Hi1) as T.
    pose proof (assoc_NoDup_In _ _ _ (pi_ids _ _ _ _ P1) Hi1) as Hai.
    assert (D : (exists y t, ev = PStep id y t) \/ (forall y t, ev <> PStep id y t)).
    { destruct ev as [f t|i|i c0 ord|w0 r0|i|i y t|i f t|i|i okk|l0]; try (right; intros; discriminate).
      destruct (String.eqb_spec i id) as [->|Ni]; [left; eauto|right; intros y0 t0 [= K]; contradiction]. }
    destruct D as [(y & t & ->)|N].
    + cbn [process] in E. rewrite Hx, Hai, Ha in E.
      destruct (mem_str id (x_running x) && in_taskflow y && _) eqn:Co; [|discriminate].
      apply andb_true_iff in Co as [Co Ct]. apply andb_true_iff in Co as [Cr Cf].
      destruct (step e st1 y) as [st2|] eqn:Si; [|discriminate]. cbn [padmissible] in A. destruct (A e st1 st2 Hi1 Si) as [A1 _].
      cbn [delivered] in X. rewrite Hai, String.eqb_refl, app_nil_r in X. cbn [app exec] in X. rewrite Si in X.
      assert (Pc2 : s_pc st2 = Idle) by (destruct t; cbn [exec step] in X; injection X as <-; exact Pc).
      destruct (taskflow_step _ _ _ _ Cf Si) as (Sc & Se & _ & _). destruct (Se Pc2) as (wr & ->).
      destruct t as [t|]; [discriminate|]. cbn [exec] in X. injection X as <-.
      assert (wr = WOk) as ->.
      { cbn [step] in Si. destruct (s_pc st1); try discriminate. unfold end_task in Si. destruct (s_dirty st1).
        - destruct (store_text _); destruct wr as [| |n rep]; try reflexivity; try discriminate.
          + injection Si as <-. discriminate.
          + destruct (short n s); [|discriminate]. destruct rep; [destruct (W2 id n None eq_refl)|]. injection Si as <-. discriminate.
        - destruct wr; try discriminate. reflexivity. }
      destruct (ti_hist _ _ _ _ _ _ _ _ _ T) as (d0 & evs & Hh).
      pose proof (history_snoc _ _ _ _ _ _ (EvEnd WOk) _ Hh A1 Si) as Hh'.
      pose proof (ti_temp _ _ _ _ _ _ _ _ _ T) as Tt.
      assert (Ee : h_edited (track e (h1 id) st1 (EvEnd WOk)) = false).
      { rewrite (taskflow_edited _ _ _ _ Cf). exact (ti_edited _ _ _ _ _ _ _ _ _ T c w r x Ha Hx eq_refl). }
      destruct (stored_after_end _ _ _ _ _ _ Tt Hh' Ok Ee) as (s & S1 & S2).
      assert (Cc : s_cfg st2 = c) by (rewrite Sc; exact (ti_cfg _ _ _ _ _ _ _ _ _ T c Ha)).
      exists s. rewrite <- Cc. split; [exact S1|]. split; [exact S2|]. split.
      * exact (nodup_sources e _ (permitted_of_end _ _ _ _ _ _ _ Tt Hh')).
      * apply (step_end _ _ _ _ Si).
    + destruct (other_kept _ _ _ _ _ _ U2 N X) as [Kp Ko]. rewrite Pc in Kp. symmetry in Kp.
      pose proof (IH U1 W1 _ _ H1 _ _ _ _ Hi1 Hb Kp (Ko Ok)) as Se.
      destruct (settled_still _ _ Kp Se) as (s & Nd & Sl). apply (still_settled c s st1); [exact Nd|].
      apply (Still_exec e c s Nd st1 (delivered p1 ev id st1) st1 st); [|exact X|exact Sl].
      assert (Hm : forall b0 f, In b0 (x_running x) -> writes p1 b0 f -> ~ In f (tracked c)).
      { intros b0 f Rn W. destruct (write_harmless rg p1 h1 false w r x b0 f id e st1 P1 Hx Rn W Hi1) as [K|[K|K]]; [congruence| |].
        - apply before_not_idle in K. contradiction.
        - rewrite (ti_cfg _ _ _ _ _ _ _ _ _ T c Ha) in K. exact K. }
      assert (Fo : forall b0, Forall (undisturbed c) (fail_others b0 st1)).
      { intros b0. unfold fail_others. destruct (_ && _); repeat constructor. }
      destruct ev as [f t|i|i c0 ord|w0 r0|i|i y t|i f t|i|i okk|l0]; try destruct U2; cbn [delivered].
      * constructor.
      * cbn [process] in E. rewrite Hx in E. destruct (assoc i (p_targets p1)) as [[ei sti]|] eqn:Ei; [|discriminate].
        destruct (assoc i (p_built p1)); [|discriminate]. destruct (mem_str i (x_running x) && in_taskflow y && _) eqn:Co; [|discriminate].
        apply andb_true_iff in Co as [Co Ct]. apply andb_true_iff in Co as [Cr Cf]. apply mem_str_In in Cr.
        destruct (String.eqb_spec i id) as [->|Ni]; [destruct (N y t eq_refl)|]. cbn [app]. apply Forall_app. split; [|apply Fo].
        destruct t as [t|]; [|constructor]. constructor; [|constructor]. cbn [undisturbed]. apply (Hm i); [exact Cr|].
        left. exists ei, sti. split; [exact (assoc_In _ _ _ Ei)|reflexivity].
      * cbn [process] in E. rewrite Hx in E. destruct (assoc i (p_gens p1)) as [fs|] eqn:Eg; [|discriminate].
        destruct (mem_str i (x_running x) && mem_str f fs) eqn:Co; [|discriminate]. apply andb_true_iff in Co as [Cr Cf].
        apply mem_str_In in Cr, Cf. constructor; [|constructor]. cbn [undisturbed]. apply (Hm i); [exact Cr|].
        right. exists fs. split; [exact (assoc_In _ _ _ Eg)|exact Cf].
      * apply Fo.
      * destruct (assoc i (p_targets p1)); [constructor|apply Fo].
Qed.

Section Again.
Variables (built : list (string * cfg)) (p0 : project).
Hypothesis Nb : NoDup (map fst built).
Hypothesis Ni : NoDup (map fst (p_targets p0)).
Hypothesis St0 : forall id e st c, In (id, (e, st)) (p_targets p0) -> In (id, c) built -> s_pc st = Idle /\ settled c st.

Definition AInv (p : project) : Prop :=
  map (fun x => (fst x, fst (snd x))) (p_targets p) = map (fun x => (fst x, fst (snd x))) (p_targets p0) /\
  incl (p_built p) built /\
  forall id e st c, In (id, (e, st)) (p_targets p) -> In (id, c) built ->
    exists st0 s, In (id, (e, st0)) (p_targets p0) /\ NoDup (sources c) /\ Still c s st0 st.

Lemma AInv_ids p : AInv p -> NoDup (map fst (p_targets p)).
Proof using Ni.
  intros [E _]. apply (f_equal (map fst)) in E. rewrite !map_map in E. cbn [fst] in E. change (map fst (p_targets p) = map fst (p_targets p0)) in E. rewrite E. exact Ni.
Qed.
Lemma AInv_step p ev p' : again built ev -> pstep p ev = Some p' -> AInv p -> AInv p'.
Proof using Ni Nb.
  intros Ag S I. pose proof (AInv_ids p I) as Nd. destruct I as (I1 & I2 & I3).
  unfold pstep in S. destruct (process p ev) as [[[b rn] ok]|] eqn:E; [|discriminate].
  destruct (deliver p ev (p_targets p)) as [ts|] eqn:Ed; [|discriminate]. injection S as <-. unfold AInv. cbn [p_targets p_built].
  split; [rewrite (deliver_outs _ _ _ _ Ed); exact I1|]. split.
  - destruct ev as [f t|i|i c ord|w r|i|i x t|i f t|i|i okk|l]; cbn [process again] in *.
    + injection E as <- _ _. exact I2.
    + destruct (mem_str _ _); [|discriminate]. injection E as <- _ _. exact I2.
    + destruct (p_run p); [discriminate|]. destruct (assoc i (p_targets p)) as [[e st]|]; [|discriminate].
      destruct (assoc i (p_built p)) eqn:Eb; [discriminate|]. destruct (forallb _ _); [|discriminate]. injection E as <- _ _.
      intros y Hy. apply in_app_iff in Hy as [Hy|[<-|[]]]; [exact (I2 y Hy)|exact Ag].
    + destruct (p_run p); [discriminate|]. injection E as <- _ _. exact I2.
    + destruct (p_run p) as [[[w r] x]|]; [|discriminate]. destruct (xstep _ _ _ _ _); [|discriminate]. injection E as <- _ _. exact I2.
    + destruct (p_run p) as [[[w r] y]|]; [|discriminate]. destruct (assoc i (p_targets p)) as [[e st]|]; [|discriminate].
      destruct (assoc i (p_built p)); [|discriminate]. destruct (_ && _ && _); [|discriminate]. destruct (step _ _ _); [|discriminate].
      injection E as <- _ _. exact I2.
    + destruct (p_run p) as [[[w r] x]|]; [|discriminate]. destruct (assoc i (p_gens p)); [|discriminate].
      destruct (_ && _); [|discriminate]. injection E as <- _ _. exact I2.
    + destruct (p_run p) as [[[w r] x]|]; [|discriminate]. destruct (assoc i (p_targets p)); [discriminate|].
      destruct (assoc i (p_gens p)); [|discriminate]. destruct (mem_str _ _); [|discriminate]. injection E as <- _ _. exact I2.
    + destruct (p_run p) as [[[w r] x]|]; [|discriminate]. destruct (xstep _ _ _ _ _); [|discriminate].
      destruct (assoc i (p_targets p)) as [[e st]|]; [destruct (assoc i (p_built p)); [destruct (_ && _)|destruct okk]|destruct (implb _ _)];
        try discriminate; injection E as <- _ _; exact I2.
    + injection E as <- _ _. intros y [].
  - intros id e st c Hi Hb. destruct (deliver_In _ _ _ _ _ _ _ Ed Hi) as (st1 & Hi1 & X).
    destruct (I3 _ _ _ _ Hi1 Hb) as (st0 & s & H0 & Nds & Sl). exists st0, s. split; [exact H0|]. split; [exact Nds|].
    apply (Still_exec e c s Nds st0 (delivered p ev id st1) st1 st); [|exact X|exact Sl].
    assert (Fo : forall b0, Forall (undisturbed c) (fail_others b0 st1)).
    { intros b0. unfold fail_others. destruct (_ && _); repeat constructor. }
    destruct ev as [f t|i|i c0 ord|w r|i|i x t|i f t|i|i okk|l]; cbn [process again delivered] in *.
    + constructor; [|constructor]. exact (Ag id c Hb).
    + destruct (String.eqb_spec i id) as [->|]; [|constructor]. exfalso. apply Ag. apply (in_map fst _ _ Hb).
    + destruct (String.eqb_spec i id) as [->|]; [|constructor]. constructor; [|constructor]. cbn [undisturbed].
      apply (assoc_NoDup_In _ _ _ Nb) in Ag. apply (assoc_NoDup_In _ _ _ Nb) in Hb. congruence.
    + constructor.
    + constructor.
    + destruct (p_run p) as [[[w r] y]|]; [|discriminate]. destruct (assoc i (p_targets p)) as [[ei sti]|] eqn:Ei; [|discriminate].
      destruct (assoc i (p_built p)) as [ci|] eqn:Eb; [|discriminate].
      destruct (mem_str i (x_running y) && in_taskflow x && _) eqn:Co; [|discriminate].
      apply andb_true_iff in Co as [Co Ct]. apply andb_true_iff in Co as [_ Cf].
      destruct (step ei sti x) as [sti'|] eqn:Si; [|discriminate].
      apply Forall_app. split; [|apply Forall_app; split].
      * destruct (String.eqb i id); [|constructor]. constructor; [|constructor]. destruct x; try discriminate; exact Logic.I.
      * destruct t as [t|]; [|constructor]. exfalso. apply link_runs_link in Ct as (r0 & ->).
        destruct (I3 _ _ _ _ (assoc_In _ _ _ Ei) (I2 _ (assoc_In _ _ _ Eb))) as (si0 & s' & _ & _ & Sl').
        cbn [step] in Si. destruct (s_pc sti) eqn:Pc; try discriminate. destruct (k_pc _ _ _ _ Sl') as (_ & _ & _ & [[? ?]|[?|[?|?]]]); congruence.
      * destruct (String.eqb i id); [constructor|apply Fo].
    + constructor; [|constructor]. exact (Ag id c Hb).
    + apply Fo.
    + destruct (assoc i (p_targets p)); [constructor|apply Fo].
    + destruct (running st1); [|constructor]. destruct (assoc id l); repeat constructor.
Qed.
Lemma AInv_exec evs : forall p p', Forall (again built) evs -> pexec p evs = Some p' -> AInv p -> AInv p'.
Proof using Ni Nb.
  induction evs as [|ev evs IH]; intros p p' F X I; cbn [pexec] in X; [injection X as <-; exact I|].
  apply Forall_cons_iff in F as [F1 F2]. destruct (pstep p ev) as [p1|] eqn:S; [|discriminate].
  exact (IH p1 p' F2 X (AInv_step p ev p1 F1 S I)).
Qed.
End Again.

Theorem nothing_to_do rg mt0 l gens pre w r run h p x n prog evs p2 :
  fresh_project mt0 l -> phistory rg l gens (pre ++ PRun w r :: run) h p ->
  Forall undisturbed_run run -> Forall full_writes run ->
  registers n prog r -> no_loop (rg_edges r) -> 0 < w ->
  p_run p = Some (w, r, x) -> x_over w (rg_built r) (rg_edges r) x -> p_ok p = true ->
  incl (map fst (p_built p)) (rg_built r) ->
  Forall (again (p_built p)) evs -> pexec p evs = Some p2 ->
  forall id e st2 c, In (id, (e, st2)) (p_targets p2) -> In (id, c) (p_built p) ->
    exists st, In (id, (e, st)) (p_targets p) /\ s_log st2 = s_log st /\ same_outputs (s_disk st) (s_disk st2).
Proof.
  intros F H U Fw R L W E O Ok Inc Ag X id e st2 c Hi Hb.
  pose proof (phistory_PInv _ _ _ _ _ _ _ F H) as P.
  assert (St : forall i ei si ci, In (i, (ei, si)) (p_targets p) -> In (i, ci) (p_built p) -> s_pc si = Idle /\ settled ci si).
  { intros i ei si ci Ji Jb. pose proof (pi_tgt _ _ _ _ P i ei si Ji) as T. pose proof (assoc_NoDup_In _ _ _ (pi_nd _ _ _ _ P) Jb) as Ja.
    assert (Jf : In i (finishes (x_log x))).
    { destruct (everything_executed _ _ _ _ _ R L W (over_executes _ _ _ _ _ _ _ _ _ H E O)) as [K _].
      apply (Permutation_in _ (Permutation_sym K)). apply Inc. apply (in_map fst _ _ Jb). }
    pose proof (ti_late _ _ _ _ _ _ _ _ _ T ci w r x Ja E Jf) as Pc. split; [exact Pc|].
    apply (run_settles _ _ _ _ _ _ _ _ F U Fw _ _ H i ei si ci Ji Jb Pc). exact (ti_ok _ _ _ _ _ _ _ _ _ T ci w r x Ja E Ok). }
  assert (A : AInv (p_built p) p p).
  { split; [reflexivity|]. split; [intros y Hy; exact Hy|]. intros i ei si ci Ji Jb. destruct (St _ _ _ _ Ji Jb) as [Pc Se].
    destruct (settled_still _ _ Pc Se) as (s & Nd & Sl). exists si, s. auto. }
  destruct (AInv_exec (p_built p) p (pi_nd _ _ _ _ P) (pi_ids _ _ _ _ P) evs p p2 Ag X A) as (_ & _ & K).
  destruct (K _ _ _ _ Hi Hb) as (st & s & K1 & _ & K2). exists st. split; [exact K1|]. split; [exact (k_log _ _ _ _ K2)|exact (k_out _ _ _ _ K2)].
Qed.
