(** Proofs about the global task state. *)
From Verif Require Import Prelude Proof_Prelude Model_TaskState.

Definition only_failure (calls : list (list task_state)) : Prop := forall l, In l calls -> forall s, In s l -> s = FAILURE.

Definition th_fail (t : thread) : Prop :=
  (forall s, In s (th_todo t) -> s = FAILURE) /\
  match th_pc t with TLock s | TWrite s => s = FAILURE | _ => True end.

Record GInv (g : gstate) : Prop := {
  gi_fail : Forall th_fail (g_threads g);
  gi_ret : g_cur g = SUCCESS -> Forall (fun t => th_returned t = 0 /\ th_pc t <> TUnlock) (g_threads g) }.

Lemma set_nth_Forall {A} (P : A -> Prop) i x (l : list A) : Forall P l -> P x -> Forall P (set_nth i x l).
Proof.
  intros F Px. unfold set_nth. apply Forall_app. split.
  - rewrite <- (firstn_skipn i l) in F. apply Forall_app in F. tauto.
  - constructor; [exact Px|]. rewrite <- (firstn_skipn (S i) l) in F. apply Forall_app in F. tauto.
Qed.

Lemma GInv_step g i g' : GInv g -> tstep g i = Some g' -> GInv g' /\ (g_cur g = FAILURE -> g_cur g' = FAILURE).
Proof.
  intros [F R] S. unfold tstep in S. destruct (nth_error (g_threads g) i) as [t|] eqn:E; [|discriminate].
  apply nth_error_In in E. pose proof (proj1 (Forall_forall _ _) F t E) as [Ft Fp].
  destruct (th_pc t) as [|s|s|] eqn:P.
  - destruct (th_todo t) as [|s r] eqn:T; [discriminate|].
    assert (s = FAILURE) by (apply Ft; left; reflexivity). subst s.
    assert (Fr : forall s, In s r -> s = FAILURE) by (intros s Hs; apply Ft; right; exact Hs).
    destruct (g_cur g) eqn:C; cbn [ts_eqb] in S; injection S as <-; (split; [|cbn; congruence]); constructor; cbn.
    + apply set_nth_Forall; [exact F|]. split; cbn; auto.
    + intros _. apply set_nth_Forall; [exact (R eq_refl)|]. cbn. split; [|discriminate].
      exact (proj1 (proj1 (Forall_forall _ _) (R eq_refl) t E)).
    + apply set_nth_Forall; [exact F|]. split; cbn; auto.
    + discriminate.
  - destruct (g_lock g); [discriminate|]. injection S as <-. split; [|cbn; congruence]. constructor; cbn.
    + apply set_nth_Forall; [exact F|]. split; cbn; auto.
    + intros C. apply set_nth_Forall; [exact (R C)|]. cbn. split; [|discriminate].
      exact (proj1 (proj1 (Forall_forall _ _) (R C) t E)).
  - subst s. injection S as <-. split; [|reflexivity]. constructor; cbn; [|discriminate].
    apply set_nth_Forall; [exact F|]. split; cbn; auto.
  - injection S as <-. split; [|cbn; congruence]. constructor; cbn.
    + apply set_nth_Forall; [exact F|]. split; cbn; auto.
    + intros C. pose proof (proj1 (Forall_forall _ _) (R C) t E) as [_ K]. congruence.
Qed.

Lemma GInv_init calls : only_failure calls -> GInv (g_init calls).
Proof.
  intros O. constructor; cbn.
  - apply Forall_forall. intros t H. apply in_map_iff in H as (l & <- & H). split; cbn; [exact (O l H)|exact Logic.I].
  - intros _. apply Forall_forall. intros t H. apply in_map_iff in H as (l & <- & H). cbn. split; [reflexivity|discriminate].
Qed.

Lemma GInv_run sched : forall g g', GInv g -> trun g sched = Some g' -> GInv g' /\ (g_cur g = FAILURE -> g_cur g' = FAILURE).
Proof.
  induction sched as [|i sched IH]; intros g g' I X; cbn [trun] in X.
  - injection X as <-. auto.
  - destruct (tstep g i) as [g1|] eqn:S; [|discriminate]. destruct (GInv_step _ _ _ I S) as [I1 M1].
    destruct (IH _ _ I1 X) as [I2 M2]. auto.
Qed.

Lemma trun_app s1 s2 : forall g, trun g (s1 ++ s2) = match trun g s1 with Some g' => trun g' s2 | None => None end.
Proof. induction s1 as [|i s1 IH]; intros g; cbn [trun app]; [reflexivity|]. destruct (tstep g i); [apply IH|reflexivity]. Qed.

Theorem failure_sticky calls s1 s2 g1 g2 : only_failure calls ->
  trun (g_init calls) s1 = Some g1 -> trun g1 s2 = Some g2 ->
  (g_cur g1 = FAILURE \/ exists t, In t (g_threads g1) /\ 0 < th_returned t) -> g_cur g2 = FAILURE.
Proof.
  intros O X1 X2 H. destruct (GInv_run _ _ _ (GInv_init _ O) X1) as [I1 _]. destruct (GInv_run _ _ _ I1 X2) as [_ M].
  apply M. destruct H as [H|(t & Ht & Hr)]; [exact H|]. destruct (g_cur g1) eqn:C; [|reflexivity].
  pose proof (proj1 (Forall_forall _ _) (gi_ret _ I1 C) t Ht) as [K _]. lia.
Qed.

(** Nobody calls: the state stays SUCCESS. *)
Theorem success_without_calls calls sched g : (forall l, In l calls -> l = []) ->
  trun (g_init calls) sched = Some g -> g_cur g = SUCCESS.
Proof.
  intros N X. destruct sched as [|i sched]; cbn [trun] in X; [injection X as <-; reflexivity|].
  unfold tstep in X. destruct (nth_error _ i) as [t|] eqn:E; [|discriminate]. apply nth_error_In in E. cbn in E.
  apply in_map_iff in E as (l & <- & H). rewrite (N l H) in X. cbn in X. discriminate.
Qed.

(** No deadlock: the lock holder can always move. *)
Record LInv (g : gstate) : Prop := {
  li_owner : forall i, g_lock g = Some i -> exists t, nth_error (g_threads g) i = Some t /\ (th_pc t = TUnlock \/ exists s, th_pc t = TWrite s);
  li_holds : forall i t, nth_error (g_threads g) i = Some t -> (th_pc t = TUnlock \/ exists s, th_pc t = TWrite s) -> g_lock g = Some i }.

Lemma set_nth_same {A} i (x : A) l y : nth_error l i = Some y -> nth_error (set_nth i x l) i = Some x.
Proof.
  intros H. unfold set_nth. assert (L : i < length l) by (apply nth_error_Some; congruence).
  rewrite nth_error_app2; rewrite firstn_length_le by lia; [|lia]. rewrite Nat.sub_diag. reflexivity.
Qed.
Lemma set_nth_other {A} i j (x : A) l y : nth_error l i = Some y -> i <> j -> nth_error (set_nth i x l) j = nth_error l j.
Proof.
  intros H N. unfold set_nth. assert (L : i < length l) by (apply nth_error_Some; congruence).
  destruct (lt_dec j i) as [J|J].
  - rewrite nth_error_app1 by (rewrite firstn_length_le by lia; lia). clear - J.
    revert j J l. induction i as [|i IH]; intros j J l; [lia|]. destruct l, j; cbn; auto. apply IH. lia.
  - rewrite nth_error_app2 by (rewrite firstn_length_le by lia; lia). rewrite firstn_length_le by lia.
    destruct (j - i) as [|k] eqn:K; [lia|]. cbn [nth_error].
    rewrite <- (firstn_skipn (S i) l) at 2. rewrite nth_error_app2; rewrite firstn_length_le by lia; [|lia].
    f_equal. lia.
Qed.

Ltac upd_case i j E := destruct (Nat.eq_dec i j) as [<-|Nij];
  [rewrite (set_nth_same _ _ _ _ E) in *|rewrite (set_nth_other _ _ _ _ _ E Nij) in *].

Lemma LInv_step g i g' : LInv g -> tstep g i = Some g' -> LInv g'.
Proof.
  intros [O H] S. unfold tstep in S. destruct (nth_error (g_threads g) i) as [t|] eqn:E; [|discriminate].
  destruct (th_pc t) as [|s|s|] eqn:P.
  - assert (K : exists t', g' = GS (g_cur g) (g_lock g) (set_nth i t' (g_threads g)) /\ (th_pc t' = TIdle \/ exists s, th_pc t' = TLock s)).
    { destruct (th_todo t) as [|s r]; [discriminate|]. destruct (ts_eqb s (g_cur g)); injection S as <-; eexists; (split; [reflexivity|]); cbn; eauto. }
    destruct K as (t' & -> & K). constructor; cbn.
    + intros j Hj. upd_case i j E; [|exact (O j Hj)]. destruct (O i Hj) as (t0 & E0 & K0). rewrite E in E0. injection E0 as <-.
      rewrite P in K0. destruct K0 as [K0|[? K0]]; discriminate.
    + intros j t0 Hj K0. upd_case i j E; [|exact (H j t0 Hj K0)]. injection Hj as <-.
      destruct K as [K|[? K]], K0 as [K0|[? K0]]; congruence.
  - destruct (g_lock g) as [o|] eqn:L; [discriminate|]. injection S as <-. constructor; cbn.
    + intros j Hj. injection Hj as <-. rewrite (set_nth_same _ _ _ _ E). eexists. split; [reflexivity|]. cbn. eauto.
    + intros j t0 Hj K0. upd_case i j E; [reflexivity|]. specialize (H j t0 Hj K0). discriminate.
  - injection S as <-. constructor; cbn.
    + intros j Hj. upd_case i j E; [eexists; split; [reflexivity|]; cbn; auto|exact (O j Hj)].
    + intros j t0 Hj K0. upd_case i j E; [|exact (H j t0 Hj K0)]. apply (H i t E). rewrite P. eauto.
  - injection S as <-. assert (L : g_lock g = Some i) by (apply (H i t E); auto). constructor; cbn; [discriminate|].
    intros j t0 Hj K0. upd_case i j E; [injection Hj as <-; destruct K0 as [K0|[? K0]]; discriminate|].
    specialize (H j t0 Hj K0). congruence.
Qed.

Lemma LInv_run sched : forall g g', LInv g -> trun g sched = Some g' -> LInv g'.
Proof.
  induction sched as [|i sched IH]; intros g g' I X; cbn [trun] in X; [injection X as <-; exact I|].
  destruct (tstep g i) as [g1|] eqn:S; [|discriminate]. exact (IH _ _ (LInv_step _ _ _ I S) X).
Qed.

Theorem no_deadlock calls sched g : trun (g_init calls) sched = Some g ->
  (exists t, In t (g_threads g) /\ (th_pc t <> TIdle \/ th_todo t <> [])) -> exists i g', tstep g i = Some g'.
Proof.
  intros X (t & Ht & U). assert (I : LInv g).
  { apply (LInv_run sched (g_init calls)); [|exact X]. constructor; cbn; [discriminate|].
    intros i t0 E K. apply nth_error_In, in_map_iff in E as (l & <- & _). cbn in K. destruct K as [K|[? K]]; discriminate. }
  destruct (g_lock g) as [o|] eqn:L.
  - destruct (li_owner _ I o L) as (t0 & E & K). exists o. unfold tstep. rewrite E.
    destruct K as [K|[s K]]; rewrite K; eauto.
  - apply In_nth_error in Ht as (i & E). exists i. unfold tstep. rewrite E, L. destruct (th_pc t) eqn:P; eauto.
    destruct (th_todo t) as [|s r]; [destruct U; congruence|]. destruct (ts_eqb s (g_cur g)); eauto.
Qed.
