(** Proofs about the storage. *)
From Verif Require Import Prelude Proof_Prelude Model_Storage Spec_Storage.

Lemma s_run_snoc l o : s_run (l ++ [o]) = s_step (s_run l) o.
Proof. unfold s_run. rewrite fold_left_app. reflexivity. Qed.
Lemma assoc_app {A} k (l m : list (string * A)) : assoc k (l ++ m) = match assoc k l with Some x => Some x | None => assoc k m end.
Proof. induction l as [|[a b] l IH]; cbn; [reflexivity|]. destruct (String.eqb k a); auto. Qed.

Lemma adds_app a b : adds (a ++ b) = adds a + adds b.
Proof. induction a as [|[|] a IH]; cbn; auto. Qed.
Lemma s_next_adds l : st_next (s_run l) = adds l.
Proof.
  induction l as [|o l IH] using rev_ind; [reflexivity|]. rewrite s_run_snoc, adds_app. destruct o; cbn; lia.
Qed.

Lemma first_add_app id l2 : forall l1 n cur, first_add id n cur (l1 ++ l2) = first_add id (n + adds l1) (first_add id n cur l1) l2.
Proof.
  induction l1 as [|[i t|] l1 IH]; intros n cur; cbn [app first_add adds].
  - rewrite Nat.add_0_r. reflexivity.
  - rewrite IH. f_equal. lia.
  - apply IH.
Qed.

Lemma find_holds l id : find_ptr (s_run l) id = holds l id.
Proof.
  unfold holds. induction l as [|o l IH] using rev_ind; [reflexivity|]. rewrite s_run_snoc, first_add_app, <- IH. cbn [Nat.add].
  destruct o as [i t|]; [|reflexivity]. cbn [s_step fst first_add]. unfold s_add, find_ptr at 1. cbn [fst st_ptrs].
  destruct (find_ptr (s_run l) i) as [x|] eqn:E.
  - fold (find_ptr (s_run l) id). destruct (find_ptr (s_run l) id) eqn:E2; [reflexivity|].
    destruct (String.eqb_spec i id) as [->|]; [congruence|reflexivity].
  - rewrite assoc_app. fold (find_ptr (s_run l) id). destruct (find_ptr (s_run l) id) as [x|]; [reflexivity|]. cbn [assoc].
    rewrite s_next_adds, (String.eqb_sym id i). destruct (String.eqb i id); reflexivity.
Qed.

Theorem ref_exact l id ty :
  (forall obj, s_ref (s_run l) id ty = Ok obj <-> holds l id = Some (obj, ty)) /\
  (s_valid (s_run l) id ty = true <-> exists obj, holds l id = Some (obj, ty)) /\
  (s_contains (s_run l) id = true <-> holds l id <> None).
Proof.
  unfold s_ref, s_valid, s_contains. rewrite find_holds. destruct (holds l id) as [[o t]|].
  - destruct (String.eqb_spec ty t) as [->|N].
    + repeat split; intros; try congruence; eauto.
    + repeat split; intros; try congruence. destruct H as (obj & H). congruence.
  - repeat split; intros; try congruence. destruct H as (obj & H). congruence.
Qed.

(** Destruction. *)
Definition held (s : storage) : list nat := map (fun p => fst (snd p)) (st_ptrs s).

Record SInv (s : storage) : Prop := {
  si_nodup : NoDup (st_destroyed s ++ held s);
  si_bound : forall x, In x (st_destroyed s ++ held s) -> x < st_next s }.

Lemma SInv_step s o : SInv s -> SInv (s_step s o).
Proof.
  intros [N B]. destruct o as [i t|]; cbn [s_step s_add fst].
  - destruct (find_ptr s i); constructor; cbn [st_destroyed st_next held st_ptrs].
    + exact N.
    + intros x Hx. specialize (B x Hx). lia.
    + unfold held. cbn [st_ptrs]. rewrite map_app, app_assoc. cbn [map fst snd].
      apply (Permutation_NoDup (Permutation_cons_append _ _)). constructor; [|exact N]. intros K. specialize (B _ K). lia.
    + intros x Hx. unfold held in Hx. cbn [st_ptrs] in Hx. rewrite map_app, app_assoc in Hx.
      apply in_app_or in Hx as [Hx|[<-|[]]]; [specialize (B x Hx); lia|cbn; lia].
  - constructor; cbn; rewrite app_nil_r; [exact N|exact B].
Qed.
Lemma SInv_run l : SInv (s_run l).
Proof.
  induction l as [|o l IH] using rev_ind; [constructor; cbn; [constructor|intros x []]|].
  rewrite s_run_snoc. apply SInv_step. exact IH.
Qed.

Theorem destroyed_once l : NoDup (st_destroyed (s_run l)) /\ forall x, In x (st_destroyed (s_run l)) -> x < adds l.
Proof.
  destruct (SInv_run l) as [N B]. rewrite s_next_adds in B. split.
  - clear B. induction (st_destroyed (s_run l)) as [|x a IH]; [constructor|]. cbn in N. inversion N; subst. constructor.
    + intros K. apply H1. apply in_or_app. left. exact K.
    + exact (IH H2).
  - intros x Hx. apply B. apply in_or_app. left. exact Hx.
Qed.

(** An object is destroyed by Clear iff it is the one its identifier refers to. *)
Theorem not_destroyed_while_held l id obj ty : holds l id = Some (obj, ty) -> ~ In obj (st_destroyed (s_run l)).
Proof.
  intros H D. rewrite <- find_holds in H. destruct (SInv_run l) as [N _]. unfold find_ptr in H. apply assoc_In in H.
  assert (K : In obj (held (s_run l))) by (apply in_map_iff; exists (id, (obj, ty)); auto).
  apply in_split in D as (a & b & E). rewrite E in N. rewrite <- app_assoc in N. cbn [app] in N. apply NoDup_remove_2 in N.
  apply N. apply in_or_app. right. apply in_or_app. right. exact K.
Qed.

Lemma distinct_all l : forall s seen, incl (map fst (st_ptrs s)) seen -> distinct_ids seen l = true ->
  Permutation (st_destroyed s ++ held s) (seq 0 (st_next s)) ->
  let s' := fold_left s_step l s in Permutation (st_destroyed s' ++ held s') (seq 0 (st_next s')).
Proof.
  induction l as [|[i t|] l IH]; intros s seen I D P; cbn [fold_left distinct_ids] in *; [exact P| |].
  - apply andb_true_iff in D as [D1 D2]. apply negb_true_iff in D1.
    assert (F : find_ptr s i = None).
    { unfold find_ptr. destruct (assoc i (st_ptrs s)) as [x|] eqn:E; [|reflexivity]. apply assoc_In in E.
      apply (in_map fst) in E. apply I in E. cbn in E. apply (proj2 (mem_str_In _ _)) in E. congruence. }
    apply (IH _ (i :: seen)).
    + cbn [s_step s_add fst]. rewrite F. cbn [st_ptrs]. rewrite map_app. intros x Hx. apply in_app_or in Hx as [Hx|[<-|[]]]; [right; exact (I x Hx)|left; reflexivity].
    + exact D2.
    + cbn [s_step s_add fst]. rewrite F. cbn [st_destroyed st_next]. unfold held. cbn [st_ptrs]. rewrite map_app, app_assoc.
      rewrite seq_S. cbn [Nat.add map]. apply Permutation_app_tail. exact P.
  - apply (IH _ []); [cbn; intros x []|exact D|]. cbn. rewrite app_nil_r. exact P.
Qed.

Theorem clear_destroys_all l : distinct_ids [] l = true ->
  Permutation (st_destroyed (s_run (l ++ [SClear]))) (seq 0 (adds l)).
Proof.
  intros D. rewrite s_run_snoc. cbn [s_step s_clear st_destroyed]. fold (held (s_run l)).
  pose proof (distinct_all l storage_empty [] (fun x H => H) D) as K. cbn in K. fold (s_run l) in K. rewrite s_next_adds in K.
  apply K. constructor.
Qed.

Theorem duplicate_leaks l id ty obj0 ty0 : holds l id = Some (obj0, ty0) ->
  forall l2, ~ In (snd (s_add (s_run l) id ty)) (st_destroyed (s_run (l ++ SAdd id ty :: l2))).
Proof.
  intros H l2. cbn [s_add snd]. rewrite s_next_adds. rewrite <- find_holds in H.
  pose (x := adds l).
  assert (G : forall l2 s, x < st_next s -> ~ In x (st_destroyed s ++ held s) -> ~ In x (st_destroyed (fold_left s_step l2 s) ++ held (fold_left s_step l2 s))).
  { clear. induction l2 as [|[i t|] l2 IH]; intros s L N; cbn [fold_left]; [exact N| |].
    - apply IH.
      + cbn. lia.
      + cbn [s_step s_add fst st_destroyed]. unfold held. cbn [st_ptrs]. destruct (find_ptr s i); [exact N|].
        rewrite map_app, app_assoc. intros K. apply in_app_or in K as [K|[K|[]]]; [exact (N K)|]. cbn in K. lia.
    - apply IH; [cbn; exact L|]. cbn. rewrite app_nil_r. exact N. }
  assert (E : s_run (l ++ SAdd id ty :: l2) = fold_left s_step l2 (s_step (s_run l) (SAdd id ty))).
  { unfold s_run. rewrite fold_left_app. reflexivity. }
  rewrite E. intros K. apply (G l2 (s_step (s_run l) (SAdd id ty))).
  - cbn. rewrite s_next_adds. unfold x. lia.
  - cbn [s_step s_add fst]. rewrite H. cbn [st_destroyed]. unfold held. cbn [st_ptrs]. fold (held (s_run l)).
    intros D. apply (si_bound _ (SInv_run l)) in D. rewrite s_next_adds in D. unfold x in D. lia.
  - apply in_or_app. left. exact K.
Qed.
