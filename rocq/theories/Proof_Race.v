(** Races, lost updates and deadlocks. *)
From Verif Require Import Prelude Model_Race Spec_Race.
From Coq Require Import Lia.

(** ** What each task may touch, and under which lock *)
Definition is_sources (l : loc) : bool :=
  match l with Part _ S_sources => true | _ => false end.

Definition allowed (k : task) (h : option mutex) (w : bool) (l : loc) : Prop :=
  match l with
  | TaskStateVar => True
  | ProjectVar => w = false
  | Part b f =>
      of_builder k = b /\
      match k with
      | K_src _ _ => (f = F_objects /\ w = false) \/ (f = S_sources /\ h = Some (SourceMutex b))
      | K_obj _ => f = S_sources -> h = Some (SourceMutex b)
      | K_id _ _ => w = false /\ f <> S_sources
      | K_end _ => True
      | _ => f <> S_sources
      end
  | IdPart b i f =>
      of_builder k = b /\
      match k with
      | K_id _ j => i = j
      | K_gen _ | K_store _ => True
      | _ => False
      end
  end.

(** How far a task is: the lock it holds, and whether it has read the records of
    its target since it last wrote them (or took or gave back a lock). *)
Definition walked := (option mutex * bool)%type.
Inductive one (k : task) : walked -> act -> walked -> Prop :=
| o_read h f l : allowed k h false l -> one k (h, f) (Read l) (h, f || is_sources l)
| o_write h f l : allowed k h true l -> (is_sources l = true -> f = true) ->
    one k (h, f) (Write l) (h, if is_sources l then false else f)
| o_acq f m : one k (None, f) (Acquire m) (Some m, false)
| o_rel f m : one k (Some m, f) (Release m) (None, false).
Inductive many (k : task) : walked -> list act -> walked -> Prop :=
| w_nil w : many k w [] w
| w_cons w a w1 t w2 : one k w a w1 -> many k w1 t w2 -> many k w (a :: t) w2.

Lemma many_app k w t w1 u w2 : many k w t w1 -> many k w1 u w2 -> many k w (t ++ u) w2.
Proof. induction 1; intros; [exact H|]. cbn [app]. econstructor; eauto. Qed.

Definition le (f g : bool) : Prop := f = true -> g = true.
Lemma one_mono k h f a h1 f1 g : one k (h, f) a (h1, f1) -> le f g ->
  exists g1, one k (h, g) a (h1, g1) /\ le f1 g1.
Proof.
  intros O L. inversion O; subst.
  - exists (g || is_sources l). split; [constructor; assumption|].
    unfold le in *. destruct f, g, (is_sources l); cbn; auto.
  - exists (if is_sources l then false else g). split.
    + constructor; [assumption|]. intros E. apply L. auto.
    + unfold le in *. destruct (is_sources l); auto.
  - exists false. split; [constructor|unfold le; auto].
  - exists false. split; [constructor|unfold le; auto].
Qed.
Lemma many_mono k w t w2 : many k w t w2 -> forall g, le (snd w) g ->
  exists g1, many k (fst w, g) t (fst w2, g1) /\ le (snd w2) g1.
Proof.
  induction 1 as [w|w a w1 t w2 O M IH]; intros g L.
  - exists g. split; [constructor|exact L].
  - destruct w as [h f], w1 as [h1 f1].
    destruct (one_mono _ _ _ _ _ _ g O L) as (g1 & O1 & L1).
    destruct (IH g1 L1) as (g2 & M2 & L2). exists g2. split; [|exact L2].
    econstructor; [exact O1|exact M2].
Qed.

(** A check of the code: whatever it does from [(h, f)] it may do, and [Q] holds
    of the flag when it ends normally. *)
Fixpoint wp (k : task) (c : cmd) (h : option mutex) (f : bool) (Q : bool -> Prop) : Prop :=
  match c with
  | Skip | May_throw => Q f
  | Do_read l => allowed k h false l /\ Q (f || is_sources l)
  | Do_write l => allowed k h true l /\ (is_sources l = true -> f = true) /\
                  Q (if is_sources l then false else f)
  | Seq c d => wp k c h f (fun f' => wp k d h f' Q)
  | Either c d => wp k c h f Q /\ wp k d h f Q
  | Many c => wp k c h false (fun _ => True) /\ Q false
  | Pick g => forall i, wp k (g i) h f Q
  | Locked m c => h = None /\ wp k c (Some m) false (fun _ => True) /\ Q false
  | Try c d => wp k c h f Q /\ wp k d h false Q
  end.

Definition up (Q : bool -> Prop) : Prop := Q false -> Q true.
Lemma up_le Q f g : up Q -> le f g -> Q f -> Q g.
Proof. unfold up, le. destruct f, g; auto. intros _ L _. discriminate (L eq_refl). Qed.
Lemma wp_imp k c : forall h f (Q R : bool -> Prop), (forall x, Q x -> R x) -> wp k c h f Q -> wp k c h f R.
Proof.
  induction c; intros h g Q R I; cbn [wp]; intros W; try (apply I; exact W).
  - destruct W. auto.
  - destruct W as (? & ? & ?). auto.
  - eapply IHc1; [|exact W]. intros x. apply IHc2. exact I.
  - destruct W. split; eauto.
  - destruct W. split; eauto.
  - intros i. eapply H; eauto.
  - destruct W as (? & ? & ?). auto.
  - destruct W. split; eauto.
Qed.
Lemma wp_up k c : forall h Q, up Q -> up (fun f => wp k c h f Q).
Proof.
  induction c; intros h Q U; unfold up; cbn [wp]; intros W; try (apply U; exact W); try exact W.
  - destruct W as [A W]. split; [exact A|].
    destruct (is_sources l); cbn in *; auto.
  - destruct W as (A & B & W). split; [exact A|]. split; [reflexivity|].
    destruct (is_sources l); auto.
  - pose proof (IHc1 h (fun f' => wp k c2 h f' Q) (IHc2 h Q U)) as X. exact (X W).
  - destruct W. split; [apply (IHc1 h Q U)|apply (IHc2 h Q U)]; assumption.
  - intros i. exact (H i h Q U (W i)).
  - destruct W. split; [apply (IHc1 h Q U); assumption|assumption].
Qed.

Definition top (f : bool) : Prop := True.
Lemma top_up : up top. Proof. unfold up, top. auto. Qed.

Lemma wp_sound k c t e : trace c t e -> forall h f Q, up Q -> wp k c h f Q ->
  exists f', many k (h, f) t (h, f') /\ (e = true -> Q f').
Proof.
  induction 1; intros h0 f0 Q U W; cbn [wp] in W.
  - exists f0. split; [constructor|auto].
  - destruct W as [A W]. eexists. split; [econstructor; [constructor; exact A|constructor]|auto].
  - destruct W as (A & B & W). eexists. split; [econstructor; [constructor; assumption|constructor]|auto].
  - exists f0. split; [constructor|auto].
  - exists f0. split; [constructor|discriminate].
  - destruct (IHtrace1 h0 f0 (fun f' => wp k d h0 f' Q) (wp_up k d h0 Q U) W) as (f1 & M1 & Q1).
    destruct (IHtrace2 h0 f1 Q U (Q1 eq_refl)) as (f2 & M2 & Q2).
    exists f2. split; [eapply many_app; eauto|exact Q2].
  - destruct (IHtrace h0 f0 (fun f' => wp k d h0 f' Q) (wp_up k d h0 Q U) W) as (f1 & M1 & _).
    exists f1. split; [exact M1|discriminate].
  - destruct W as [W _]. exact (IHtrace h0 f0 Q U W).
  - destruct W as [_ W]. exact (IHtrace h0 f0 Q U W).
  - exact (IHtrace h0 f0 Q U (W i)).
  - destruct W as [_ W]. exists f0. split; [constructor|]. intros _. destruct f0; [exact (U W)|exact W].
  - destruct W as [W Wq]. 
    assert (W0 : wp k c h0 f0 (fun _ => True)).
    { destruct f0; [|exact W]. refine (wp_up k c h0 (fun _ => True) _ W). unfold up. auto. }
    destruct (IHtrace1 h0 f0 (fun _ => True) top_up W0) as (f1 & M1 & _).
    destruct (IHtrace2 h0 f1 Q U) as (f2 & M2 & Q2).
    { cbn [wp]. split; [exact W|exact Wq]. }
    exists f2. split; [eapply many_app; eauto|exact Q2].
  - destruct W as [W Wq].
    assert (W0 : wp k c h0 f0 (fun _ => True)).
    { destruct f0; [|exact W]. refine (wp_up k c h0 (fun _ => True) _ W). unfold up. auto. }
    destruct (IHtrace h0 f0 (fun _ => True) top_up W0) as (f1 & M1 & _).
    exists f1. split; [exact M1|discriminate].
  - destruct W as (-> & W & Wq).
    destruct (IHtrace (Some m) false (fun _ => True) top_up W) as (f1 & M1 & _).
    exists false. split; [|auto].
    econstructor; [constructor|]. eapply many_app; [exact M1|].
    econstructor; [constructor|constructor].
  - destruct W as [W _]. destruct (IHtrace h0 f0 Q U W) as (f1 & M1 & Q1).
    exists f1. split; [exact M1|intros _; auto].
  - destruct W as [W Wh]. destruct (IHtrace1 h0 f0 Q U W) as (f1 & M1 & _).
    assert (W1 : wp k h h0 f1 Q) by (destruct f1; [exact (wp_up k h h0 Q U Wh)|exact Wh]).
    destruct (IHtrace2 h0 f1 Q U W1) as (f2 & M2 & Q2).
    exists f2. split; [eapply many_app; eauto|exact Q2].
Qed.

Lemma code_fine k : wp k (code k) None false top.
Proof.
  destruct k; cbn; unfold top; repeat split; intros; repeat split; intros;
    try discriminate; try reflexivity; auto.
Qed.
Lemma code_traces k t e : trace (code k) t e -> exists f, many k (None, false) t (None, f).
Proof.
  intros T. destruct (wp_sound k _ t e T None false top top_up (code_fine k)) as (f & M & _). eauto.
Qed.

(** ** The invariant *)
Definition holds_sources (k : task) (w : walked) : Prop :=
  snd w = true -> fst w = Some (SourceMutex (of_builder k)) \/ exists b, k = K_end b.

Record RInv (p : program) (s : mstate) (W : task -> walked) : Prop := {
  i_run : forall k r, ms_task s k = Running r -> exists f, many k (W k) r (None, f);
  i_idle : forall k, (forall r, ms_task s k <> Running r) -> W k = (None, false);
  i_hold : forall m k, ms_holder s m = Some k <-> fst (W k) = Some m;
  i_fine : forall k, holds_sources k (W k);
  i_pred : forall k, ms_task s k <> Waiting ->
      exists_task p k /\ forall l, exists_task p l -> precedes p l k -> ms_task s l = Ended }.

Lemma one_fine k w a w1 : one k w a w1 -> holds_sources k w -> holds_sources k w1.
Proof.
  intros O H. inversion O; subst; unfold holds_sources in *; cbn [fst snd] in *.
  - intros E. destruct f; [exact (H eq_refl)|]. cbn in E.
    destruct l as [| |b fl|]; try discriminate E. destruct fl; try discriminate E.
    destruct H0 as [<- A]. destruct k; cbn [of_builder];
      try (exfalso; apply A; reflexivity); try (left; apply A; reflexivity).
    + destruct A as [[A _]|[_ A]]; [discriminate A|left; exact A].
    + right. eexists. reflexivity.
  - destruct (is_sources l); [discriminate|exact H].
  - discriminate.
  - discriminate.
Qed.

Definition setw (W : task -> walked) (k : task) (w : walked) : task -> walked :=
  fun l => if task_eq_dec k l then w else W l.
Lemma setw_eq W k w : setw W k w k = w.
Proof. unfold setw. destruct (task_eq_dec k k); congruence. Qed.
Lemma setw_ne W k w l : k <> l -> setw W k w l = W l.
Proof. unfold setw. destruct (task_eq_dec k l); congruence. Qed.
Lemma task_eq s k x : ms_task (set_task s k x) k = x.
Proof. cbn. destruct (task_eq_dec k k); congruence. Qed.
Lemma task_ne s k x l : k <> l -> ms_task (set_task s k x) l = ms_task s l.
Proof. intros N. cbn. destruct (task_eq_dec k l); congruence. Qed.

Lemma RInv_init p : RInv p m_init (fun _ => (None, false)).
Proof.
  constructor.
  - intros k r E. discriminate E.
  - reflexivity.
  - intros m k. split; intros E; discriminate E.
  - intros k E. discriminate E.
  - intros k E. exfalso. apply E. reflexivity.
Qed.

Lemma act_task s k a s' : after_act s k a = Some s' -> ms_task s' = ms_task s.
Proof.
  destruct a; cbn; try (intros E; injection E as <-; reflexivity).
  destruct (ms_holder s m); [discriminate|]. intros E. injection E as <-. reflexivity.
Qed.

(** A started task stays started, an ended one stays ended. *)
Lemma pred_keep p s (Ip : forall k, ms_task s k <> Waiting ->
      exists_task p k /\ forall l, exists_task p l -> precedes p l k -> ms_task s l = Ended) T k x :
  (forall l, T l = ms_task s l) -> ms_task s k <> Waiting -> ms_task s k <> Ended -> x <> Waiting ->
  forall l, (if task_eq_dec k l then x else T l) <> Waiting ->
    exists_task p l /\ forall j, exists_task p j -> precedes p j l ->
      (if task_eq_dec k j then x else T j) = Ended.
Proof.
  intros ET Nw Ne Nx l Nl.
  assert (Sl : ms_task s l <> Waiting).
  { destruct (task_eq_dec k l); [subst; exact Nw|rewrite <- ET; exact Nl]. }
  destruct (Ip l Sl) as [X P]. split; [exact X|]. intros j Xj Pj. specialize (P j Xj Pj).
  destruct (task_eq_dec k j); [subst; contradiction|rewrite ET; exact P].
Qed.

Lemma RInv_step p s W l s' : RInv p s W -> mstep p s l s' ->
  exists W', RInv p s' W' /\
    match l with
    | [] => forall k, snd (W' k) = true -> snd (W k) = true
    | (k, a) :: _ => l = [(k, a)] /\ W' = setw W k (W' k) /\ one k (W k) a (W' k) /\
                     exists r, ms_task s k = Running (a :: r)
    end.
Proof.
  intros I St. destruct I as [Ir Ii Ih If Ip]. inversion St; subst.
  - (* start *)
    assert (Wk : W k = (None, false)) by (apply Ii; intros r; rewrite H0; discriminate).
    destruct (code_traces k t e H2) as (f & M).
    exists W. split; [|auto]. constructor.
    + intros j r. destruct (task_eq_dec k j) as [<-|Nj].
      * rewrite task_eq. intros E. injection E as <-. rewrite Wk. eauto.
      * rewrite task_ne by exact Nj. apply Ir.
    + intros j. destruct (task_eq_dec k j) as [<-|Nj].
      * intros _. exact Wk.
      * intros E. apply Ii. intros r. specialize (E r). rewrite task_ne in E by exact Nj. exact E.
    + exact Ih.
    + exact If.
    + intros j. destruct (task_eq_dec k j) as [<-|Nj].
      * intros _. split; [exact H|]. intros i Xi Pi. specialize (H1 i Xi Pi).
        destruct (task_eq_dec k i) as [<-|Ni]; [congruence|]. rewrite task_ne by exact Ni. exact H1.
      * rewrite task_ne by exact Nj. intros E. destruct (Ip j E) as [X P]. split; [exact X|].
        intros i Xi Pi. specialize (P i Xi Pi).
        destruct (task_eq_dec k i) as [<-|Ni]; [congruence|]. rewrite task_ne by exact Ni. exact P.
  - (* one access *)
    destruct (Ir k _ H) as (f & M). inversion M as [|? ? w1 ? ? O M']; subst.
    exists (setw W k w1). split.
    2: { rewrite setw_eq. split; [reflexivity|]. split; [reflexivity|]. split; [exact O|eauto]. }
    pose proof (act_task _ _ _ _ H0) as ET.
    constructor.
    + intros j r0. destruct (task_eq_dec k j) as [<-|Nj].
      * rewrite task_eq, setw_eq. intros E. injection E as <-. eauto.
      * rewrite task_ne by exact Nj. rewrite setw_ne by exact Nj. rewrite ET. apply Ir.
    + intros j. destruct (task_eq_dec k j) as [<-|Nj].
      * intros E. specialize (E r). rewrite task_eq in E. contradiction.
      * intros E. rewrite setw_ne by exact Nj. apply Ii. intros r0. specialize (E r0).
        rewrite task_ne in E by exact Nj. rewrite ET in E. exact E.
    + intros m j. unfold set_task; cbn [ms_holder].
      destruct (W k) as [h0 f0] eqn:Ewk. inversion O; subst; cbn [after_act] in H0.
      * injection H0 as <-. rewrite Ih.
        destruct (task_eq_dec k j) as [<-|Nj]; [|rewrite setw_ne by exact Nj; tauto].
        rewrite setw_eq, Ewk. cbn [fst]. tauto.
      * injection H0 as <-. rewrite Ih.
        destruct (task_eq_dec k j) as [<-|Nj]; [|rewrite setw_ne by exact Nj; tauto].
        rewrite setw_eq, Ewk. cbn [fst]. tauto.
      * destruct (ms_holder s m0) eqn:Eh; [discriminate|]. injection H0 as <-.
        unfold set_holder; cbn [ms_holder].
        destruct (mutex_eq_dec m0 m) as [<-|Nm].
        -- destruct (task_eq_dec k j) as [<-|Nj]; [rewrite setw_eq; cbn; tauto|].
           rewrite setw_ne by exact Nj. split; [congruence|]. intros E. apply Ih in E. congruence.
        -- rewrite Ih. destruct (task_eq_dec k j) as [<-|Nj]; [|rewrite setw_ne by exact Nj; tauto].
           rewrite setw_eq, Ewk. cbn [fst]. split; [discriminate|congruence].
      * injection H0 as <-. unfold set_holder; cbn [ms_holder].
        destruct (mutex_eq_dec m0 m) as [<-|Nm].
        -- split; [discriminate|]. destruct (task_eq_dec k j) as [<-|Nj]; [rewrite setw_eq; discriminate|].
           rewrite setw_ne by exact Nj. intros E. apply Ih in E.
           assert (E2 : ms_holder s m0 = Some k) by (apply Ih; rewrite Ewk; reflexivity). congruence.
        -- rewrite Ih. destruct (task_eq_dec k j) as [<-|Nj]; [|rewrite setw_ne by exact Nj; tauto].
           rewrite setw_eq, Ewk. cbn [fst]. split; [congruence|discriminate].
    + intros j. destruct (task_eq_dec k j) as [<-|Nj].
      * rewrite setw_eq. exact (one_fine _ _ _ _ O (If k)).
      * rewrite setw_ne by exact Nj. apply If.
    + apply (pred_keep p s Ip (ms_task s'0) k (Running r)).
      * intros i. rewrite ET. reflexivity.
      * rewrite H. discriminate.
      * rewrite H. discriminate.
      * discriminate.
  - (* end *)
    destruct (Ir k _ H) as (f & M).
    assert (Ew : W k = (None, f)) by (inversion M; reflexivity).
    exists (setw W k (None, false)). split.
    2: { intros j. unfold setw. destruct (task_eq_dec k j); [discriminate|auto]. }
    constructor.
    + intros j r. destruct (task_eq_dec k j) as [<-|Nj]; [rewrite task_eq; discriminate|].
      rewrite task_ne, setw_ne by exact Nj. apply Ir.
    + intros j. destruct (task_eq_dec k j) as [<-|Nj]; [intros _; apply setw_eq|].
      intros E. rewrite setw_ne by exact Nj. apply Ii. intros r. specialize (E r).
      rewrite task_ne in E by exact Nj. exact E.
    + intros m j. unfold set_task; cbn [ms_holder]. rewrite Ih.
      destruct (task_eq_dec k j) as [<-|Nj]; [|rewrite setw_ne by exact Nj; tauto].
      rewrite setw_eq, Ew. cbn. tauto.
    + intros j. destruct (task_eq_dec k j) as [<-|Nj].
      * rewrite setw_eq. unfold holds_sources. discriminate.
      * rewrite setw_ne by exact Nj. apply If.
    + apply (pred_keep p s Ip (ms_task s) k Ended).
      * reflexivity.
      * rewrite H. discriminate.
      * rewrite H. discriminate.
      * discriminate.
Qed.

(** ** Which tasks can run at the same time *)
Lemma ended_before p s W k l : RInv p s W -> ms_task s k <> Waiting -> exists_task p l ->
  precedes p l k -> ms_task s l = Ended.
Proof. intros I N X P. exact (proj2 (i_pred _ _ _ I k N) l X P). Qed.

Definition parallel (k1 k2 : task) : Prop :=
  match k1, k2 with
  | K_src b i, K_src c j => b = c /\ i <> j
  | K_id b i, K_id c j => b = c /\ i <> j
  | _, _ => False
  end.

Lemma at_once p s W k1 k2 r1 r2 : RInv p s W -> k1 <> k2 -> of_builder k1 = of_builder k2 ->
  ms_task s k1 = Running r1 -> ms_task s k2 = Running r2 -> parallel k1 k2.
Proof.
  intros I N E R1 R2.
  assert (S1 : ms_task s k1 <> Waiting) by (rewrite R1; discriminate).
  assert (S2 : ms_task s k2 <> Waiting) by (rewrite R2; discriminate).
  pose proof (proj1 (i_pred _ _ _ I k1 S1)) as X1.
  pose proof (proj1 (i_pred _ _ _ I k2 S2)) as X2.
  assert (PO : forall b, ms_task s (K_obj b) <> Waiting -> exists_task p (K_pch b) -> ms_task s (K_pch b) = Ended)
    by (intros; eapply ended_before; eauto; constructor).
  assert (OS : forall b i, ms_task s (K_src b i) <> Waiting -> exists_task p (K_obj b) -> ms_task s (K_obj b) = Ended)
    by (intros; eapply ended_before; eauto; constructor).
  assert (OL : forall b, ms_task s (K_link b) <> Waiting -> exists_task p (K_obj b) -> ms_task s (K_obj b) = Ended)
    by (intros; eapply ended_before; eauto; constructor).
  assert (SL : forall b i, ms_task s (K_link b) <> Waiting -> exists_task p (K_src b i) -> ms_task s (K_src b i) = Ended)
    by (intros; eapply ended_before; eauto; constructor).
  assert (LE : forall b, ms_task s (K_end b) <> Waiting -> exists_task p (K_link b) -> ms_task s (K_link b) = Ended)
    by (intros; eapply ended_before; eauto; constructor).
  assert (GI : forall b i, ms_task s (K_id b i) <> Waiting -> exists_task p (K_gen b) -> ms_task s (K_gen b) = Ended)
    by (intros; eapply ended_before; eauto; constructor).
  assert (GS : forall b, ms_task s (K_store b) <> Waiting -> exists_task p (K_gen b) -> ms_task s (K_gen b) = Ended)
    by (intros; eapply ended_before; eauto; constructor).
  assert (IS : forall b i, ms_task s (K_store b) <> Waiting -> exists_task p (K_id b i) -> ms_task s (K_id b i) = Ended)
    by (intros; eapply ended_before; eauto; constructor).
  assert (SE : forall k, ms_task s k = Ended -> ms_task s k <> Waiting) by (intros k Ek; rewrite Ek; discriminate).
  assert (XX : forall b pch n, nth_error (pr_builders p) b = Some (A_target pch n) ->
    exists_task p (K_obj b) /\ exists_task p (K_link b)).
  { intros b pch n En. unfold exists_task. cbn. rewrite En. auto. }
  assert (XG : forall b n, nth_error (pr_builders p) b = Some (A_generator n) -> exists_task p (K_gen b)).
  { intros b n En. unfold exists_task. cbn. rewrite En. exact Logic.I. }
  assert (FIN : forall k r, ms_task s k = Running r -> ms_task s k = Ended -> False) by congruence.
  destruct k1, k2; cbn [of_builder] in E; subst; try congruence; unfold exists_task in X1, X2;
    cbn [of_builder] in X1, X2; cbn [parallel]; try (split; [reflexivity|congruence]); try (exfalso);
    destruct (nth_error (pr_builders p) b0) as [[pch n|n]|] eqn:En; try contradiction;
    try (destruct (XX _ _ _ En) as [XO XL]); try (pose proof (XG _ _ En) as XGen);
    try (assert (XP : exists_task p (K_pch b0)) by (unfold exists_task; cbn; rewrite En; assumption));
    try (assert (XS1 : exists_task p (K_src b0 i)) by (unfold exists_task; cbn; rewrite En; assumption));
    try (assert (XI1 : exists_task p (K_id b0 i)) by (unfold exists_task; cbn; rewrite En; assumption));
    first [ eapply FIN; [exact R1|]; solve [eauto 9] | eapply FIN; [exact R2|]; solve [eauto 9] ].
Qed.

(** ** Races *)
Lemma reached p log s : mexec p log s -> exists W, RInv p s W.
Proof.
  induction 1 as [|log s l s' _ [W I] St].
  - eexists. apply RInv_init.
  - destruct (RInv_step p s W l s' I St) as (W' & I' & _). eauto.
Qed.

Lemma next_allowed k w a r w2 l : many k w (a :: r) w2 -> touches a l ->
  exists x, allowed k (fst w) x l /\ (a = Write l -> x = true).
Proof.
  intros M T. inversion M as [|? ? w1 ? ? O _]; subst.
  destruct T as [-> | ->]; inversion O; subst; cbn [fst].
  - exists false. split; [assumption|discriminate].
  - exists true. split; [assumption|reflexivity].
Qed.

Lemma only_state p log s l : mexec p log s -> race s l -> l = TaskStateVar.
Proof.
  intros E (k1 & k2 & a1 & a2 & r1 & r2 & N & R1 & R2 & T1 & T2 & Wr).
  destruct (reached p log s E) as (W & I).
  destruct (i_run _ _ _ I _ _ R1) as (f1 & M1). destruct (i_run _ _ _ I _ _ R2) as (f2 & M2).
  destruct (next_allowed _ _ _ _ _ _ M1 T1) as (x1 & A1 & X1).
  destruct (next_allowed _ _ _ _ _ _ M2 T2) as (x2 & A2 & X2).
  assert (Wx : x1 = true \/ x2 = true) by tauto.
  destruct l as [| |b f|b i f]; [reflexivity|exfalso..]; cbn [allowed] in A1, A2.
  - destruct Wx; congruence.
  - destruct A1 as [B1 A1], A2 as [B2 A2].
    pose proof (at_once p s W k1 k2 _ _ I N (eq_trans B1 (eq_sym B2)) R1 R2) as P.
    destruct k1, k2; cbn [parallel] in P; try contradiction; destruct P as [_ P].
    + cbn [of_builder] in B1, B2. subst.
      destruct A1 as [[-> ->]|[Ef A1]], A2 as [[F ->]|[F A2]]; try congruence.
      * destruct Wx; discriminate.
      * apply (i_hold _ _ _ I) in A1, A2. congruence.
    + destruct A1 as [-> _], A2 as [-> _]. destruct Wx; discriminate.
  - destruct A1 as [B1 A1], A2 as [B2 A2].
    pose proof (at_once p s W k1 k2 _ _ I N (eq_trans B1 (eq_sym B2)) R1 R2) as P.
    destruct k1, k2; cbn [parallel] in P; try contradiction; destruct P as [_ P]. congruence.
Qed.

(** ** Lost updates *)
Definition seen := (list task * (task -> list task))%type.
Definition look (b : nat) (v : seen) (x : task * act) : seen :=
  match x with
  | (k, Read (Part b' S_sources)) =>
      if Nat.eqb b b' then (fst v, sees (snd v) k (fst v)) else v
  | (k, Write (Part b' S_sources)) =>
      if Nat.eqb b b'
      then (match k with K_end _ => snd v k | _ => snd v k ++ [k] end, snd v) else v
  | _ => v
  end.
Lemma replay_look b log : forall m f, replay b log m f = fst (fold_left (look b) log (m, f)).
Proof.
  induction log as [|[k a] log IH]; intros m f; [reflexivity|].
  cbn [fold_left replay]. destruct a as [l|l| |]; cbn [look]; try apply IH;
    destruct l as [| |b' fl|]; try apply IH; destruct fl; try apply IH;
    destruct (Nat.eqb b b'); cbn [fst snd]; apply IH.
Qed.
Lemma updates_app b l1 l2 : updates b (l1 ++ l2) = updates b l1 ++ updates b l2.
Proof.
  induction l1 as [|[k a] l1 IH]; [reflexivity|]. cbn [app updates].
  destruct k; try exact IH; destruct a as [l|l| |]; try exact IH;
    destruct l as [| |b' fl|]; try exact IH; destruct fl; try exact IH;
    destruct (Nat.eqb b b'); cbn [app]; rewrite IH; reflexivity.
Qed.

Lemma running_flag p s W k : RInv p s W -> snd (W k) = true -> exists r, ms_task s k = Running r.
Proof.
  intros I F. destruct (ms_task s k) as [|r|] eqn:E; [|eauto|];
    exfalso; assert (X : W k = (None, false)) by (apply (i_idle _ _ _ I); intros r; congruence);
    rewrite X in F; discriminate.
Qed.

Lemma nothing_lost_inv p log s : mexec p log s -> forall b, exists W, RInv p s W /\
  fst (fold_left (look b) log ([], fun _ => [])) = updates b log /\
  (forall k, of_builder k = b -> snd (W k) = true ->
     snd (fold_left (look b) log ([], fun _ => [])) k = updates b log).
Proof.
  intros E b. induction E as [|log s l s' E (W & I & Em & Ev) St].
  - eexists. split; [apply RInv_init|]. split; [reflexivity|]. intros k _ F. discriminate F.
  - destruct (RInv_step p s W l s' I St) as (W' & I' & Wl).
    exists W'. split; [exact I'|]. rewrite fold_left_app, updates_app.
    set (v := fold_left (look b) log ([], fun _ => [])) in *.
    destruct l as [|[k a] l].
    { cbn [fold_left updates]. rewrite app_nil_r. split; [exact Em|].
      intros k Ek F. apply Ev; [exact Ek|]. apply Wl. exact F. }
    destruct Wl as (El & EW & O & (r & R)). injection El as ->. cbn [fold_left].
    assert (Oth : forall j, k <> j -> W' j = W j) by (intros j Nj; rewrite EW; apply setw_ne; exact Nj).
    assert (Dul : (a <> Read (Part b S_sources) /\ a <> Write (Part b S_sources)) ->
      look b v (k, a) = v /\ updates b [(k, a)] = [] /\
      (of_builder k = b -> snd (W' k) = true -> snd (W k) = true)).
    { intros [Na1 Na2]. split; [|split].
      - destruct a as [l|l| |]; cbn [look]; try reflexivity;
          destruct l as [| |b' fl|]; try reflexivity; destruct fl; try reflexivity;
          destruct (Nat.eqb b b') eqn:Eb; try reflexivity;
          apply Nat.eqb_eq in Eb; subst; congruence.
      - cbn [updates]. destruct k; try reflexivity; destruct a as [l|l| |]; try reflexivity;
          destruct l as [| |b' fl|]; try reflexivity; destruct fl; try reflexivity;
          destruct (Nat.eqb b b') eqn:Eb; try reflexivity;
          apply Nat.eqb_eq in Eb; subst; congruence.
      - intros Ek. inversion O; subst; cbn [snd].
        + destruct f; [auto|]. cbn. destruct l as [| |b' fl|]; try discriminate.
          destruct fl; try discriminate. intros _. exfalso.
          match goal with Al : allowed _ _ _ (Part _ S_sources) |- _ => destruct Al as [Al _]; subst; congruence end.
        + destruct (is_sources l); [discriminate|auto].
        + discriminate.
        + discriminate. }
    assert (Cases : a = Read (Part b S_sources) \/ a = Write (Part b S_sources) \/
                    (a <> Read (Part b S_sources) /\ a <> Write (Part b S_sources))).
    { destruct a as [l|l| |]; try (right; right; split; discriminate);
        destruct l as [| |b' fl|]; try (right; right; split; discriminate);
        destruct fl; try (right; right; split; discriminate);
        destruct (Nat.eq_dec b b') as [->|Nb]; auto; right; right; split; congruence. }
    destruct Cases as [-> | [-> | Na]].
    + (* a read *)
      cbn [look updates]. rewrite Nat.eqb_refl. cbn [fst snd].
      assert (U : match k with K_end _ => [] | _ => [] end = @nil task) by (destruct k; reflexivity).
      assert (U2 : updates b [(k, Read (Part b S_sources))] = []) by (destruct k; reflexivity).
      cbn [updates] in U2. rewrite U2, app_nil_r. split; [exact Em|].
      intros j Ej F. unfold sees. destruct (task_eq_dec k j); [exact Em|].
      apply Ev; [exact Ej|]. rewrite <- (Oth j) by assumption. exact F.
    + (* a write *)
      inversion O as [|h f l A Fl Ew' El Ew1| |]; subst. 
      assert (Fk : snd (W k) = true) by (rewrite <- Ew'; apply Fl; reflexivity).
      assert (F0 : snd (W' k) = false) by (rewrite <- Ew1; reflexivity).
      cbn [allowed] in A. destruct A as [Bk A].
      assert (Mk : snd v k = updates b log) by (apply Ev; assumption).
      assert (None_else : forall j, of_builder j = b -> snd (W' j) = true -> False).
      { intros j Ej Fj. destruct (task_eq_dec k j) as [<-|Nj]; [congruence|].
        rewrite Oth in Fj by exact Nj.
        destruct (running_flag _ _ _ _ I Fj) as (rj & Rj).
        pose proof (at_once p s W k j _ _ I Nj (eq_trans Bk (eq_sym Ej)) R Rj) as P.
        pose proof (i_fine _ _ _ I k Fk) as Hk. pose proof (i_fine _ _ _ I j Fj) as Hj.
        destruct k, j; cbn [parallel] in P; try contradiction; destruct P as [Pb Pi].
        - destruct Hk as [Hk|[? Hk]]; [|discriminate]. destruct Hj as [Hj|[? Hj]]; [|discriminate].
          apply (i_hold _ _ _ I) in Hk, Hj. cbn [of_builder] in *. congruence.
        - destruct A as [A _]. discriminate. }
      assert (Goal1 : fst (look b v (k, Write (Part b S_sources))) =
                      updates b log ++ updates b [(k, Write (Part b S_sources))]).
      { cbn [look updates]. rewrite Nat.eqb_refl. cbn [fst]. rewrite Mk.
        destruct k; try reflexivity. rewrite app_nil_r. reflexivity. }
      split; [exact Goal1|]. intros j Ej F. exfalso. exact (None_else j Ej F).
    + destruct (Dul Na) as (D1 & D2 & D3). rewrite D1, D2, app_nil_r. split; [exact Em|].
      intros j Ej F. apply Ev; [exact Ej|].
      destruct (task_eq_dec k j) as [<-|Nj]; [exact (D3 Ej F)|]. rewrite <- (Oth j Nj). exact F.
Qed.

Lemma nothing_lost p log s b : mexec p log s -> records b log = updates b log.
Proof.
  intros E. unfold records. rewrite replay_look.
  destruct (nothing_lost_inv p log s E b) as (W & _ & H & _). exact H.
Qed.

(** ** No deadlock *)
Lemma has_trace c : exists t, trace c t true.
Proof.
  induction c as [| | | |c [t Ht] d [u Hu]|c [t Ht] d _|c _|f IH|m c [t Ht]|c [t Ht] h _].
  - eexists. constructor.
  - eexists. constructor.
  - eexists. constructor.
  - eexists. apply t_fine.
  - eexists. eapply t_seq; eauto.
  - eexists. apply t_left. exact Ht.
  - eexists. apply t_none.
  - destruct (IH 0) as [t Ht]. eexists. eapply t_pick. exact Ht.
  - eexists. apply t_locked. exact Ht.
  - eexists. apply t_try. exact Ht.
Qed.

Definition tasks_of (b : nat) (x : builder) : list task :=
  match x with
  | A_target pch n => (if pch then [K_pch b] else []) ++ K_obj b :: map (K_src b) (seq 0 n) ++ [K_link b; K_end b]
  | A_generator n => K_gen b :: map (K_id b) (seq 0 n) ++ [K_store b]
  end.
Definition all_tasks (p : program) : list task :=
  flat_map (fun b => match nth_error (pr_builders p) b with Some x => tasks_of b x | None => [] end)
           (seq 0 (List.length (pr_builders p))).
Lemma all_tasks_in p k : exists_task p k <-> In k (all_tasks p).
Proof.
  unfold all_tasks. rewrite in_flat_map. split.
  - intros X. exists (of_builder k).
    assert (Nx : nth_error (pr_builders p) (of_builder k) <> None).
    { unfold exists_task in X. destruct (nth_error (pr_builders p) (of_builder k)); [discriminate|].
      destruct k; contradiction. }
    split; [apply in_seq; apply nth_error_Some in Nx; lia|].
    unfold exists_task in X. destruct (nth_error (pr_builders p) (of_builder k)) as [[pch n|n]|]; [| |contradiction];
      destruct k; cbn [of_builder tasks_of] in *; try contradiction; subst;
      rewrite ?in_app_iff; cbn [In]; rewrite ?in_app_iff, ?in_map_iff; cbn [In]; auto 7.
    + right. right. left. eexists. split; [reflexivity|]. apply in_seq. lia.
    + right. left. eexists. split; [reflexivity|]. apply in_seq. lia.
  - intros (b & _ & Ik). destruct (nth_error (pr_builders p) b) as [x|] eqn:En; [|destruct Ik].
    assert (Eb : of_builder k = b).
    { destruct x as [pch n|n]; cbn [tasks_of] in Ik;
        repeat (rewrite ?in_app_iff in Ik; cbn [In] in Ik; rewrite ?in_map_iff in Ik);
        repeat (destruct Ik as [Ik|Ik]); try contradiction; try (subst; reflexivity);
        try (destruct Ik as (i & <- & _); reflexivity).
      destruct pch; [destruct Ik as [<-|[]]; reflexivity|destruct Ik]. }
    unfold exists_task. rewrite Eb, En.
    destruct x as [pch n|n]; cbn [tasks_of] in Ik;
        repeat (rewrite ?in_app_iff in Ik; cbn [In] in Ik; rewrite ?in_map_iff in Ik);
        repeat (destruct Ik as [Ik|Ik]); try contradiction; try (subst; exact Logic.I);
        try (destruct Ik as (i & <- & Hi); apply in_seq in Hi; lia).
    destruct pch; [destruct Ik as [<-|[]]; reflexivity|destruct Ik].
Qed.

Definition place (k : task) : nat :=
  match k with
  | K_pch _ | K_gen _ => 0 | K_obj _ | K_id _ _ => 1 | K_src _ _ | K_store _ => 2
  | K_link _ => 3 | K_end _ => 4
  end.
Lemma least {A} (f : A -> nat) (l : list A) : l <> [] ->
  exists x, In x l /\ forall y, In y l -> f x <= f y.
Proof.
  induction l as [|a l IH]; [congruence|]. intros _. destruct l as [|b l].
  - exists a. split; [left; reflexivity|]. intros y [<-|[]]. lia.
  - destruct IH as (x & Ix & Hx); [discriminate|].
    destruct (Nat.le_gt_cases (f a) (f x)).
    + exists a. split; [left; reflexivity|]. intros y [<-|Iy]; [lia|]. specialize (Hx y Iy). lia.
    + exists x. split; [right; exact Ix|]. intros y [<-|Iy]; [lia|]. exact (Hx y Iy).
Qed.

Lemma running_steps p s W k r : RInv p s W -> ms_task s k = Running r -> exists l s', mstep p s l s'.
Proof.
  intros I R. destruct r as [|a r]; [do 2 eexists; eapply m_end; exact R|].
  destruct a as [l|l|m|m]; try (do 2 eexists; eapply m_act; [exact R|reflexivity]).
  destruct (ms_holder s m) as [j|] eqn:Eh.
  - (* the holder can go on *)
    pose proof (proj1 (i_hold _ _ _ I m j) Eh) as Hj.
    assert (Rj : exists rj, ms_task s j = Running rj).
    { destruct (ms_task s j) as [|rj|] eqn:E; [|eauto|];
        exfalso; assert (X : W j = (None, false)) by (apply (i_idle _ _ _ I); intros z; congruence);
        rewrite X in Hj; discriminate. }
    destruct Rj as (rj & Rj). destruct (i_run _ _ _ I _ _ Rj) as (f & M).
    destruct (W j) as [h g] eqn:Ewj. cbn [fst] in Hj. subst h.
    inversion M as [|? a w1 t ? O M']; subst.
    destruct a as [l|l|m'|m']; try (do 2 eexists; eapply m_act; [exact Rj|reflexivity]).
    inversion O.
  - do 2 eexists. eapply m_act; [exact R|]. cbn [after_act]. rewrite Eh. reflexivity.
Qed.

Lemma never_stuck p log s : orderly p -> mexec p log s ->
  all_ended p s \/ exists l s', mstep p s l s'.
Proof.
  intros (rank & Ord) E. destruct (reached p log s E) as (W & I).
  set (todo := filter (fun k => match ms_task s k with Ended => false | _ => true end) (all_tasks p)).
  destruct todo as [|x todo'] eqn:Et.
  - left. intros k X. apply all_tasks_in in X.
    destruct (ms_task s k) eqn:Ek; [| |reflexivity]; exfalso;
      assert (Ik : In k todo) by (apply filter_In; rewrite Ek; auto); rewrite Et in Ik; exact Ik.
  - right. destruct (least (fun k => rank (of_builder k) * 5 + place k) todo) as (k & Ik & Mk).
    { rewrite Et. discriminate. }
    unfold todo in Ik. apply filter_In in Ik. destruct Ik as [Ik Nk]. apply all_tasks_in in Ik.
    destruct (ms_task s k) as [|r|] eqn:Ek; [|exact (running_steps p s W k r I Ek)|discriminate].
    destruct (has_trace (code k)) as (t & T).
    do 2 eexists. eapply (m_start p s k t true Ik Ek); [|exact T].
    intros j Xj Pj. destruct (ms_task s j) eqn:Ej; [| |reflexivity]; exfalso;
      (assert (Ij : In j todo) by (apply filter_In; rewrite Ej; split; [apply all_tasks_in; exact Xj|reflexivity]));
      specialize (Mk j Ij); cbn beta in Mk;
      (assert (Pl : place j < 5) by (destruct j; cbn; lia));
      (inversion Pj; subst; cbn [of_builder place] in Mk;
       try lia; match goal with H : In _ (pr_deps p) |- _ => specialize (Ord _ _ H) end; lia).
Qed.
