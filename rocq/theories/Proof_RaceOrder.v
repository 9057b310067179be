(** Which write a read sees does not depend on the schedule. *)
From Verif Require Import Prelude Model_Race Spec_Race Proof_Race.
From Coq Require Import Lia.

Inductive msteps (p : program) : mstate -> list (task * act) -> mstate -> Prop :=
| s_nil s : msteps p s [] s
| s_snoc s log s1 l s2 : msteps p s log s1 -> mstep p s1 l s2 -> msteps p s (log ++ l) s2.

Lemma step_label p s l s' : mstep p s l s' -> l = [] \/ exists x, l = [x].
Proof. destruct 1; eauto. Qed.

Lemma mexec_split p log s : mexec p log s -> forall l1 x l2, log = l1 ++ x :: l2 ->
  exists s0 s1, mexec p l1 s0 /\ mstep p s0 [x] s1 /\ msteps p s1 l2 s.
Proof.
  induction 1 as [|log s l s' E IH St]; intros l1 x l2 El.
  - destruct l1; discriminate.
  - destruct (step_label _ _ _ _ St) as [-> | (y & ->)].
    + rewrite app_nil_r in El. destruct (IH _ _ _ El) as (s0 & s1 & E0 & S0 & M).
      exists s0, s1. split; [exact E0|]. split; [exact S0|].
      replace l2 with (l2 ++ []) by apply app_nil_r. econstructor; eauto.
    + destruct l2 as [|z l2] using rev_ind.
      * apply app_inj_tail in El. destruct El as [-> ->]. exists s, s'. split; [exact E|].
        split; [exact St|constructor].
      * clear IHl2. change (x :: l2 ++ [z]) with ((x :: l2) ++ [z]) in El. rewrite app_assoc in El.
        apply app_inj_tail in El. destruct El as [El ->].
        destruct (IH _ _ _ El) as (s0 & s1 & E0 & S0 & M).
        exists s0, s1. split; [exact E0|]. split; [exact S0|]. econstructor; eauto.
Qed.

Lemma step_status p s l s' k : mstep p s l s' ->
  (ms_task s k = Ended -> ms_task s' k = Ended /\ forall a, ~ In (k, a) l) /\
  (ms_task s' k = Waiting -> ms_task s k = Waiting /\ forall a, ~ In (k, a) l) /\
  (ms_task s k <> Waiting -> ms_task s' k <> Waiting).
Proof.
  intros St. inversion St; subst.
  - destruct (task_eq_dec k0 k) as [<-|N].
    + rewrite task_eq. repeat split; intros; try discriminate; try congruence; intros [].
    + rewrite task_ne by exact N. repeat split; intros; auto.
  - destruct (task_eq_dec k0 k) as [<-|N].
    + rewrite task_eq. repeat split; intros; try discriminate; congruence.
    + rewrite task_ne by exact N. rewrite (act_task _ _ _ _ H0).
      repeat split; intros; auto; intros [X|[]]; injection X as X _; congruence.
  - destruct (task_eq_dec k0 k) as [<-|N].
    + rewrite task_eq. repeat split; intros; try discriminate; try congruence; intros [].
    + rewrite task_ne by exact N. repeat split; intros; auto.
Qed.
Lemma steps_ended p s log s' k : msteps p s log s' -> ms_task s k = Ended ->
  ms_task s' k = Ended /\ forall a, ~ In (k, a) log.
Proof.
  induction 1 as [s|s log s1 l s2 M IH St]; intros E; [split; [exact E|intros a []]|].
  destruct (IH E) as [E1 N1]. destruct (step_status _ _ _ _ k St) as (X & _).
  destruct (X E1) as [E2 N2]. split; [exact E2|]. intros a Ia. apply in_app_iff in Ia.
  destruct Ia as [Ia|Ia]; [exact (N1 a Ia)|exact (N2 a Ia)].
Qed.
Lemma waiting_none p log s k : mexec p log s -> ms_task s k = Waiting -> forall a, ~ In (k, a) log.
Proof.
  induction 1 as [|log s l s' E IH St]; intros W a Ia; [exact Ia|].
  destruct (step_status _ _ _ _ k St) as (_ & X & _). destruct (X W) as [W1 N1].
  apply in_app_iff in Ia. destruct Ia as [Ia|Ia]; [exact (IH W1 a Ia)|exact (N1 a Ia)].
Qed.

(** What is ahead of a started task of the same builder has ended. *)
Lemma ahead_ended p s W j k : RInv p s W -> ms_task s k <> Waiting -> exists_task p j ->
  of_builder j = of_builder k -> place j < place k -> ms_task s j = Ended.
Proof.
  intros I S2 X1 E P.
  pose proof (proj1 (i_pred _ _ _ I k S2)) as X2.
  assert (PO : forall b, ms_task s (K_obj b) <> Waiting -> exists_task p (K_pch b) -> ms_task s (K_pch b) = Ended)
    by (intros; eapply ended_before; eauto; constructor).
  assert (OS : forall b i, ms_task s (K_src b i) <> Waiting -> exists_task p (K_obj b) -> ms_task s (K_obj b) = Ended)
    by (intros; eapply ended_before; eauto; constructor).
  assert (OL : forall b, ms_task s (K_link b) <> Waiting -> exists_task p (K_obj b) -> ms_task s (K_obj b) = Ended)
    by (intros; eapply ended_before; eauto; constructor).
  assert (SL : forall b i, ms_task s (K_link b) <> Waiting -> exists_task p (K_src b i) -> ms_task s (K_src b i) = Ended)
    by (intros; eapply ended_before; eauto; constructor).
  assert (LE : forall b, ms_task s (K_end b) <> Waiting -> exists_task p (K_link b) -> ms_task s (K_link b) = Ended)
    by (intros; eapply ended_before; eauto; constructor).
  assert (GI : forall b i, ms_task s (K_id b i) <> Waiting -> exists_task p (K_gen b) -> ms_task s (K_gen b) = Ended)
    by (intros; eapply ended_before; eauto; constructor).
  assert (GS : forall b, ms_task s (K_store b) <> Waiting -> exists_task p (K_gen b) -> ms_task s (K_gen b) = Ended)
    by (intros; eapply ended_before; eauto; constructor).
  assert (IS : forall b i, ms_task s (K_store b) <> Waiting -> exists_task p (K_id b i) -> ms_task s (K_id b i) = Ended)
    by (intros; eapply ended_before; eauto; constructor).
  assert (SE : forall k, ms_task s k = Ended -> ms_task s k <> Waiting) by (intros z Ez; rewrite Ez; discriminate).
  pose proof X1 as X1'. 
  destruct j, k; cbn [place of_builder] in *; try lia; subst; unfold exists_task in X1', X2;
    cbn [of_builder] in X1', X2;
    destruct (nth_error (pr_builders p) b0) as [[pch n|n]|] eqn:En; try contradiction;
    try (assert (XO : exists_task p (K_obj b0)) by (unfold exists_task; cbn; rewrite En; exact Logic.I));
    try (assert (XL : exists_task p (K_link b0)) by (unfold exists_task; cbn; rewrite En; exact Logic.I));
    eauto 9.
Qed.

(** ** Accesses in an execution *)
Lemma entry p log s k a : mexec p log s -> In (k, a) log ->
  exists_task p k /\ forall l, touches a l -> exists h x, allowed k h x l /\ (a = Write l -> x = true).
Proof.
  intros E. induction E as [|log s l s' E IH St]; intros Ia; [destruct Ia|].
  apply in_app_iff in Ia. destruct Ia as [Ia|Ia]; [exact (IH Ia)|].
  destruct (reached p log s E) as (W & I).
  destruct (RInv_step p s W l s' I St) as (W' & _ & X).
  destruct l as [|[k0 a0] l]; [destruct Ia|]. destruct X as (El & _ & O & r & R).
  injection El as ->. destruct Ia as [Ia|[]]. injection Ia as -> ->.
  split.
  - apply (i_pred _ _ _ I). rewrite R. discriminate.
  - intros l [-> | ->]; inversion O; subst.
    + exists h, false. split; [assumption|discriminate].
    + exists h, true. split; [assumption|reflexivity].
Qed.

Definition plain_loc (l : loc) : Prop := l <> TaskStateVar /\ forall b, l <> Part b S_sources.

Lemma conflict p log s j k a b l : mexec p log s -> In (j, a) log -> In (k, b) log -> j <> k ->
  plain_loc l -> touches a l -> touches b l -> a = Write l \/ b = Write l ->
  of_builder j = of_builder k /\ place j <> place k.
Proof.
  intros E Ij Ik N [Nl1 Nl2] Ta Tb Wr.
  destruct (entry _ _ _ _ _ E Ij) as [Xj Aj]. destruct (entry _ _ _ _ _ E Ik) as [Xk Ak].
  destruct (Aj l Ta) as (h1 & x1 & A1 & X1). destruct (Ak l Tb) as (h2 & x2 & A2 & X2).
  assert (Wx : x1 = true \/ x2 = true) by tauto.
  destruct l as [| |c f|c i f]; [congruence| | |]; cbn [allowed] in A1, A2.
  - destruct Wx; congruence.
  - destruct A1 as [B1 A1], A2 as [B2 A2]. split; [congruence|].
    intros P. specialize (Nl2 c).
    unfold exists_task in Xj, Xk. rewrite B1 in Xj. rewrite B2 in Xk.
    destruct (nth_error (pr_builders p) c) as [[pch n|n]|];
      destruct j, k; cbn [place of_builder] in *; try discriminate P; try contradiction; subst; try congruence.
    + destruct A1 as [[-> ->]|[-> _]]; [|congruence].
      destruct A2 as [[_ ->]|[A2 _]]; [destruct Wx; discriminate|discriminate].
    + destruct A1 as [-> _], A2 as [-> _]. destruct Wx; discriminate.
  - destruct A1 as [B1 A1], A2 as [B2 A2]. split; [congruence|].
    intros P.
    unfold exists_task in Xj, Xk. rewrite B1 in Xj. rewrite B2 in Xk.
    destruct (nth_error (pr_builders p) c) as [[pch n|n]|];
      destruct j, k; cbn [place of_builder] in *; try discriminate P; try contradiction; subst; try congruence.
Qed.

(** When a task acts, what is ahead of it does nothing more, and what is behind
    it has done nothing. *)
Lemma ordered p log s l1 k a l2 j : mexec p log s -> log = l1 ++ (k, a) :: l2 -> exists_task p j ->
  of_builder j = of_builder k ->
  (place j < place k -> forall b, ~ In (j, b) l2) /\
  (place k < place j -> forall b, ~ In (j, b) l1).
Proof.
  intros E El Xj B. pose proof E as E0'. destruct (mexec_split p log s E l1 (k, a) l2 El) as (s0 & s1 & E0 & St & M).
  destruct (reached p l1 s0 E0) as (W & I).
  assert (R : exists r, ms_task s0 k = Running r) by (inversion St; subst; eauto).
  destruct R as (r & R).
  assert (Nw : ms_task s0 k <> Waiting) by (rewrite R; discriminate).
  split; intros P.
  - pose proof (ahead_ended p s0 W j k I Nw Xj B P) as Ej.
    destruct (step_status _ _ _ _ j St) as (X & _). destruct (X Ej) as [E1 _].
    exact (proj2 (steps_ended _ _ _ _ _ M E1)).
  - assert (Wj : ms_task s0 j = Waiting).
    { destruct (ms_task s0 j) eqn:Ej; [reflexivity| |]; exfalso;
        (assert (Nj : ms_task s0 j <> Waiting) by (rewrite Ej; discriminate));
        pose proof (ahead_ended p s0 W k j I Nj (proj1 (i_pred _ _ _ I k Nw)) (eq_sym B) P); congruence. }
    exact (waiting_none p l1 s0 j E0 Wj).
Qed.

(** ** Lists *)
Lemma did_app k u v : did k (u ++ v) = did k u ++ did k v.
Proof. unfold did. rewrite filter_app, map_app. reflexivity. Qed.
Lemma did_cons_eq k a v : did k ((k, a) :: v) = a :: did k v.
Proof. unfold did. cbn [filter fst]. destruct (task_eq_dec k k); [reflexivity|contradiction]. Qed.
Lemma did_none k v : (forall a, ~ In (k, a) v) -> did k v = [].
Proof.
  induction v as [|[j a] v IH]; intros N; [reflexivity|]. unfold did. cbn [filter fst].
  destruct (task_eq_dec k j) as [->|]; [exfalso; apply (N a); left; reflexivity|].
  apply IH. intros b Ib. apply (N b). right. exact Ib.
Qed.
Lemma did_nth_split k : forall log n a, nth_error (did k log) n = Some a ->
  exists u v, log = u ++ (k, a) :: v /\ List.length (did k u) = n.
Proof.
  induction log as [|[j b] log IH]; intros n a Hn; [destruct n; discriminate|].
  destruct (task_eq_dec k j) as [<-|N].
  - rewrite did_cons_eq in Hn. destruct n as [|n].
    + injection Hn as ->. exists [], log. split; reflexivity.
    + destruct (IH n a Hn) as (u & v & -> & <-). exists ((k, b) :: u), v.
      split; [reflexivity|]. rewrite did_cons_eq. reflexivity.
  - assert (Ed : did k ((j, b) :: log) = did k log).
    { unfold did. cbn [filter fst]. destruct (task_eq_dec k j); [contradiction|reflexivity]. }
    rewrite Ed in Hn. destruct (IH n a Hn) as (u & v & -> & <-). exists ((j, b) :: u), v.
    split; [reflexivity|]. unfold did. cbn [app filter fst].
    destruct (task_eq_dec k j); [contradiction|reflexivity].
Qed.
Lemma app_prefix_len {A} (a b c d : list A) : a ++ b = c ++ d -> List.length a = List.length c -> a = c.
Proof.
  revert c. induction a as [|x a IH]; intros [|y c] E L; try discriminate; [reflexivity|].
  injection E as -> E. f_equal. apply IH; [exact E|]. cbn in L. lia.
Qed.
Lemma nth_mid {A} (u : list A) x v : nth_error (u ++ x :: v) (List.length u) = Some x.
Proof. rewrite nth_error_app2 by lia. rewrite Nat.sub_diag. reflexivity. Qed.

(** ** The theorem *)
Lemma same_write p log1 s1 log2 s2 : mexec p log1 s1 -> mexec p log2 s2 ->
  (forall k, did k log1 = did k log2) ->
  forall l k n j i, plain_loc l -> sees_write log1 l k n j i -> sees_write log2 l k n j i.
Proof.
  intros E1 E2 Same l k n j i Pl (bef & bet & aft & El1 & Nb & Hn & Hi).
  set (pre1 := bef ++ (j, Write l) :: bet) in *.
  (* the same read in the other execution *)
  assert (Hk : nth_error (did k log2) n = Some (Read l)).
  { rewrite <- Same, El1, did_app, did_cons_eq, <- Hn. apply nth_mid. }
  destruct (did_nth_split k log2 n (Read l) Hk) as (pre2 & post2 & El2 & Hn2).
  (* what any writer of [l] did before it is the same in both *)
  assert (Same1 : forall m, In (m, Write l) log1 -> did m pre1 = did m pre2).
  { intros m Im.
    destruct (task_eq_dec m k) as [->|Nm].
    - apply (app_prefix_len _ (did k ((k, Read l) :: aft)) _ (did k ((k, Read l) :: post2))); [|congruence].
      rewrite <- !did_app, <- El1, <- El2. apply Same.
    - assert (Ik : In (k, Read l) log1) by (rewrite El1; apply in_app_iff; right; left; reflexivity).
      destruct (conflict p log1 s1 m k (Write l) (Read l) l E1 Im Ik Nm Pl) as [B P];
        [right; reflexivity|left; reflexivity|left; reflexivity|].
      destruct (entry _ _ _ _ _ E1 Im) as [Xm _].
      destruct (ordered p log1 s1 _ k _ _ m E1 El1 Xm B) as [O1 O1'].
      destruct (ordered p log2 s2 _ k _ _ m E2 El2 Xm B) as [O2 O2'].
      assert (D1 : did m log1 = did m pre1 ++ did m aft).
      { rewrite El1, did_app. f_equal. unfold did. cbn [filter fst].
        destruct (task_eq_dec m k); [contradiction|reflexivity]. }
      assert (D2 : did m log2 = did m pre2 ++ did m post2).
      { rewrite El2, did_app. f_equal. unfold did. cbn [filter fst].
        destruct (task_eq_dec m k); [contradiction|reflexivity]. }
      destruct (Nat.lt_total (place m) (place k)) as [L|[L|L]]; [|contradiction|].
      + rewrite (did_none m aft (O1 L)), app_nil_r in D1. rewrite (did_none m post2 (O2 L)), app_nil_r in D2.
        rewrite <- D1, <- D2. apply Same.
      + rewrite (did_none m pre1 (O1' L)), (did_none m pre2 (O2' L)). reflexivity. }
  assert (Ij : In (j, Write l) log1).
  { rewrite El1. apply in_app_iff. left. apply in_app_iff. right. left. reflexivity. }
  assert (Hj : nth_error (did j pre2) i = Some (Write l)).
  { rewrite <- (Same1 j Ij). unfold pre1. rewrite did_app, did_cons_eq, <- Hi. apply nth_mid. }
  destruct (did_nth_split j pre2 i (Write l) Hj) as (bef2 & bet2 & Ep2 & Hi2).
  exists bef2, bet2, post2. split; [rewrite <- Ep2; exact El2|]. split; [|split; [rewrite <- Ep2; exact Hn2|exact Hi2]].
  (* nobody writes in between *)
  intros m Im.
  assert (Im2 : In (m, Write l) log2).
  { rewrite El2, Ep2. apply in_app_iff. left. apply in_app_iff. right. right. exact Im. }
  (* its place in what [m] did *)
  apply in_split in Im. destruct Im as (v1 & v2 & Ev).
  assert (Im1 : In (m, Write l) log1).
  { assert (In (Write l) (did m log1)).
    { rewrite Same. unfold did. apply in_map_iff. exists (m, Write l). split; [reflexivity|].
      apply filter_In. split; [exact Im2|]. cbn [fst]. destruct (task_eq_dec m m); congruence. }
    unfold did in H. apply in_map_iff in H. destruct H as ([m' a'] & Ea & H).
    apply filter_In in H. destruct H as [H Hm]. cbn [fst snd] in *.
    destruct (task_eq_dec m m') as [<-|]; [|discriminate]. congruence. }
  destruct (task_eq_dec m j) as [->|Nm].
  - (* a later write of j itself *)
    assert (D : did j bet <> []).
    { pose proof (Same1 j Ij) as S. unfold pre1 in S. rewrite Ep2, Ev in S.
      rewrite !did_app, !did_cons_eq, did_app, did_cons_eq in S.
      intros D0. rewrite D0 in S. apply (f_equal (@List.length act)) in S.
      rewrite !app_length in S. cbn [List.length] in S. rewrite app_length in S. cbn [List.length] in S. lia. }
    assert (Wl : In (Write l) (did j bet)).
    { pose proof (Same1 j Ij) as S. unfold pre1 in S. rewrite Ep2 in S.
      rewrite !did_app, !did_cons_eq in S.
      assert (Sp : did j bef = did j bef2) by (apply (app_prefix_len _ _ _ _ S); congruence).
      rewrite Sp in S. apply app_inv_head in S. injection S as S. rewrite S, Ev, did_app, did_cons_eq.
      apply in_app_iff. right. left. reflexivity. }
    unfold did in Wl. apply in_map_iff in Wl. destruct Wl as ([m' a'] & Ea & H).
    apply filter_In in H. destruct H as [H Hm]. cbn [fst snd] in *.
    destruct (task_eq_dec j m') as [<-|]; [|discriminate]. subst a'. exact (Nb j H).
  - destruct (conflict p log1 s1 m j (Write l) (Write l) l E1 Im1 Ij Nm Pl) as [B P];
      [right; reflexivity|right; reflexivity|left; reflexivity|].
    destruct (entry _ _ _ _ _ E1 Im1) as [Xm _].
    (* in the second execution m comes after j *)
    assert (L1 : place j < place m).
    { destruct (Nat.lt_total (place m) (place j)) as [L|[L|L]]; [|contradiction|exact L]. exfalso.
      assert (El2' : log2 = bef2 ++ (j, Write l) :: (bet2 ++ (k, Read l) :: post2)).
      { rewrite El2, Ep2, <- app_assoc. reflexivity. }
      destruct (ordered p log2 s2 _ j _ _ m E2 El2' Xm B) as [O _].
      apply (O L (Write l)). apply in_app_iff. left. rewrite Ev. apply in_app_iff. right. left. reflexivity. }
    (* in the first it would have to come before *)
    assert (El1' : log1 = bef ++ (j, Write l) :: (bet ++ (k, Read l) :: aft)).
    { rewrite El1. unfold pre1. rewrite <- app_assoc. reflexivity. }
    destruct (ordered p log1 s1 _ j _ _ m E1 El1' Xm B) as [_ O].
    assert (Wl : In (Write l) (did m pre1)).
    { rewrite (Same1 m Im1), Ep2, Ev, !did_app. apply in_app_iff. right.
      unfold did at 1. cbn [filter fst]. destruct (task_eq_dec m j); [contradiction|].
      fold (did m (v1 ++ (m, Write l) :: v2)). rewrite did_app, did_cons_eq.
      apply in_app_iff. right. left. reflexivity. }
    unfold did in Wl. apply in_map_iff in Wl. destruct Wl as ([m' a'] & Ea & H).
    apply filter_In in H. destruct H as [H Hm]. cbn [fst snd] in *.
    destruct (task_eq_dec m m') as [<-|]; [|discriminate]. subst a'.
    unfold pre1 in H. apply in_app_iff in H. destruct H as [H|[H|H]].
    + exact (O L1 (Write l) H).
    + injection H as H. congruence.
    + exact (Nb m H).
Qed.
