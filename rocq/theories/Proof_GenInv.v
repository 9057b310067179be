(** Generator: what holds after every history. *)
From Verif Require Import Prelude Proof_Prelude Model_Path Model_Json Model_Schema Spec_Json Proof_Dec
  Proof_Schema Model_Command Model_Target Spec_Target Proof_TargetBase Model_Gen Spec_Gen Proof_Gen.

Definition blobrel (bd : discipline) (id : string) (x y : list N) : Prop :=
  match bd id with None => x = [] /\ y = [] | Some R => R x y end.
Definition described (bd : discipline) (made : string -> option gart) (id : string) (i : idinfo) : Prop :=
  exists a, made id = Some a /\ ga_inputs a = il_paths (ii_inputs i) /\ ga_outputs a = ii_outputs i /\
    blobrel bd id (ga_blob a) (ii_blob i) /\
    (forall x, In x (ii_inputs i) -> hashed (ga_snap a) (pi_path x) (pi_hash x)).
Definition entry_ok (rg : regime) (bd : discipline) (h : ghist) (st : gstate) (id : string) (i : idinfo) : Prop :=
  described bd (gd_made (g_disk st)) id i \/
  exists c g, gh_taint h = Some c /\ assoc id (go_ids c) = Some g /\
    outdated (gh_next h) (gd_mt (g_disk st)) i g /\
    (rg = Quiet -> exists b, assoc id (g_tasks st) = Some (TEnd true b)).
Definition task_ok (bd : discipline) (h : ghist) (st : gstate) (id : string) (g : gid) (t : gtask) : Prop :=
  match t with
  | TWait => True
  | TCall i => convert (gd_mt (g_disk st)) g = Some i /\
      forall prev, assoc id (loaded_ids (g_load st)) = Some prev -> outdated (gh_next h) (gd_mt (g_disk st)) prev g
  | TEnd true true => id_current bd (gd_mt (g_disk st)) (g_disk st) id g
  | TEnd false true =>
      id_current bd (gd_mt (g_disk st)) (g_disk st) id g /\
      exists prev cur, assoc id (loaded_ids (g_load st)) = Some prev /\
        convert (gd_mt (g_disk st)) g = Some cur /\ is_changed (gi_handler g) prev cur = Some false
  | TEnd _ false => g_ok st = false
  end.

Record GInv (rg : regime) (bd : discipline) (u8 : string -> N) (h : ghist) (st : gstate) : Prop := {
  gv_next : forall f v, gd_mt (g_disk st) f = Some v -> (v < gh_next h f)%N;
  gv_store : forall s id i, gstored u8 (g_disk st) = Some s -> assoc id (gs_ids s) = Some i ->
    entry_ok rg bd h st id i /\ timely (gh_next h) i;
  gv_load : g_pc st <> GIdle -> g_load st = gstored u8 (g_disk st);
  gv_cfg : g_pc st <> GIdle -> gobj_ok (g_cfg st) = true /\ follows bd (g_cfg st) /\
    (forall c, gh_taint h = Some c -> g_cfg st = c);
  gv_tasks : map fst (g_tasks st) = match g_pc st with GTasks => map fst (go_ids (g_cfg st)) | _ => [] end;
  gv_task : forall id g t, assoc id (go_ids (g_cfg st)) = Some g -> assoc id (g_tasks st) = Some t ->
    task_ok bd h st id g t;
  gv_quiet : rg = Quiet -> gh_taint h <> None ->
    exists id b, assoc id (g_tasks st) = Some (TEnd true b);
  gv_build : g_pc st = GTasks -> g_dirty st = compute_build (g_load st) (g_cfg st) }.

Lemma nodup_str_NoDup (l : list string) : nodup_str l = true -> NoDup l.
Proof.
  induction l as [|x l IH]; cbn [nodup_str]; intros H; [constructor|].
  apply andb_true_iff in H as [H1 H2]. constructor; [|exact (IH H2)].
  intros K. apply mem_str_In in K. rewrite K in H1. discriminate.
Qed.
Lemma gobj_ok_NoDup (o : gobj) : gobj_ok o = true -> NoDup (map fst (go_ids o)).
Proof. intros H. apply andb_true_iff in H as [H _]. apply nodup_str_NoDup. exact H. Qed.
Lemma gobj_ok_bytes (o : gobj) (id : string) (g : gid) :
  gobj_ok o = true -> In (id, g) (go_ids o) -> Forall (fun b => (b < 256)%N) (blob_of g).
Proof.
  intros H I. apply andb_true_iff in H as [_ H]. rewrite forallb_forall in H. specialize (H _ I). cbn [snd] in H.
  unfold blob_of. destruct (gi_handler g) as [b|]; [|constructor]. apply Forall_forall. intros x Hx.
  rewrite forallb_forall in H. specialize (H x Hx). apply N.ltb_lt. exact H.
Qed.

Lemma blobrel_current (bd : discipline) (o : gobj) (id : string) (g : gid) (x : list N) :
  follows bd o -> In (id, g) (go_ids o) -> blobrel bd id x (blob_of g) -> blob_current bd id g x.
Proof.
  intros F I. specialize (F id g I). unfold blobrel, blob_current, blob_of.
  destruct (gi_handler g) as [b|], (bd id) as [R|]; try contradiction; intros H; [exact H|]. apply H.
Qed.
Lemma current_blobrel (bd : discipline) (o : gobj) (id : string) (g : gid) (x : list N) :
  follows bd o -> In (id, g) (go_ids o) -> blob_current bd id g x -> blobrel bd id x (blob_of g).
Proof.
  intros F I. specialize (F id g I). unfold blobrel, blob_current, blob_of.
  destruct (gi_handler g) as [b|], (bd id) as [R|]; try contradiction; intros H; [exact H|]. auto.
Qed.
Lemma blobrel_self (bd : discipline) (o : gobj) (id : string) (g : gid) :
  lawful bd -> follows bd o -> In (id, g) (go_ids o) -> blobrel bd id (blob_of g) (blob_of g).
Proof.
  intros L F I. specialize (F id g I). unfold blobrel, blob_of.
  destruct (gi_handler g) as [b|], (bd id) as [R|] eqn:E; try contradiction; [|auto]. apply (L id R E).
Qed.

(** ** Only the times change *)

Lemma task_ok_times bd h st h' st' id g t :
  g_load st' = g_load st -> g_ok st' = g_ok st -> gd_made (g_disk st') = gd_made (g_disk st) ->
  (t <> TWait -> forall f, In f (inputs_of g) -> gd_mt (g_disk st') f = gd_mt (g_disk st) f) ->
  (forall f, (gh_next h f <= gh_next h' f)%N) ->
  task_ok bd h st id g t -> task_ok bd h' st' id g t.
Proof.
  intros El Eo Em Et En. destruct t as [|i|[] []]; unfold task_ok; rewrite ?El, ?Eo.
  - auto.
  - intros (A & B). assert (Et' := Et ltac:(discriminate)). split.
    + rewrite (convert_cong _ _ _ Et'). exact A.
    + intros prev P. specialize (B prev P). apply (outdated_le (gh_next h)); [|exact En].
      destruct B as [B|[B|[B|(x & B1 & B2 & B3)]]]; unfold outdated; auto. right. right. right. exists x.
      split; [exact B1|]. split; [exact B2|]. rewrite (Et' _ B2). exact B3.
  - assert (Et' := Et ltac:(discriminate)). intros (a & A). unfold id_current. rewrite Em. exists a.
    destruct A as (A1 & A2 & A3 & A4 & A5). repeat split; auto. intros f Hf. rewrite (Et' f Hf). exact (A5 f Hf).
  - auto.
  - assert (Et' := Et ltac:(discriminate)). intros ((a & A) & prev & cur & P1 & P2 & P3). split.
    + unfold id_current. rewrite Em. exists a. destruct A as (A1 & A2 & A3 & A4 & A5). repeat split; auto.
      intros f Hf. rewrite (Et' f Hf). exact (A5 f Hf).
    + exists prev, cur. rewrite (convert_cong _ _ _ Et'). auto.
  - auto.
Qed.

Lemma timely_le (n n' : string -> N) (i : idinfo) :
  timely n i -> (forall f, (n f <= n' f)%N) -> timely n' i.
Proof. intros T L x v X E. specialize (T x v X E). specialize (L (pi_path x)). lia. Qed.

Lemma edit_inv rg bd u8 h st f t :
  GInv rg bd u8 h st -> unread st f -> (rg = Forward -> fresh h f t) ->
  GInv rg bd u8 (GH (next_after (gh_next h) (f, t)) (gh_taint h))
       (gwith_disk st (set_gmt (g_disk st) (upd (gd_mt (g_disk st)) f t))).
Proof.
  intros [V1 V2 V3 V4 V5 V6 V7 V8] U F. constructor; gsp; try assumption.
  - cbn [gh_next]. apply (write_all_bound [(f, t)] _ _ V1).
  - intros s id i S A. destruct (V2 s id i S A) as (E & T). split.
    + destruct E as [E|(c & g & E1 & E2 & E3 & E4)]; [left; exact E|right]. exists c, g. cbn [gh_taint gh_next].
      split; [exact E1|]. split; [exact E2|]. split; [|exact E4]. gsp. apply outdated_touch; [exact E3|].
      destruct rg.
      * left. intros K. destruct (E4 eq_refl) as (b & Tb).
        assert (NI : g_pc st <> GIdle).
        { intros P. rewrite P in V5. destruct (g_tasks st); [discriminate|discriminate]. }
        destruct (V4 NI) as (_ & _ & Tc). specialize (Tc c E1). subst c.
        specialize (U id g _ E2 K Tb). discriminate.
      * right. exact (F eq_refl).
    + apply (timely_le _ _ _ T). intros f'. apply next_after_le.
  - intros id g t' A B. specialize (V6 id g t' A B).
    apply (task_ok_times bd h st _ _ id g t'); try reflexivity; [|intros f'; apply next_after_le|exact V6].
    intros NW f' Hf'. gsp. unfold upd. destruct (String.eqb f' f) eqn:E; [|reflexivity].
    apply String.eqb_eq in E as ->. exfalso. apply NW. exact (U id g t' A Hf' B).
Qed.

Lemma task_ok_fail bd h st id g t : task_ok bd h st id g t -> task_ok bd h (gwith_ok st false) id g t.
Proof. destruct t as [|i|[] []]; unfold task_ok; gsp; auto. Qed.
Lemma fail_inv rg bd u8 h st : GInv rg bd u8 h st -> GInv rg bd u8 h (gwith_ok st false).
Proof.
  intros [V1 V2 V3 V4 V5 V6 V7 V8]. constructor; gsp; try assumption.
  intros id g t A B. apply task_ok_fail. exact (V6 id g t A B).
Qed.

(** Back to idle with the same files, when nothing was invoked (Quiet). *)
Lemma idle_inv rg bd u8 h st :
  GInv rg bd u8 h st -> (rg = Forward \/ gh_taint h = None) -> GInv rg bd u8 h (gidle st).
Proof.
  intros [V1 V2 V3 V4 V5 V6 V7 V8] Q. constructor; gsp; try assumption.
  - intros s id i S A. destruct (V2 s id i S A) as (E & T). split; [|exact T].
    destruct E as [E|(c & g & E1 & E2 & E3 & E4)]; [left; exact E|right]. exists c, g.
    repeat split; try assumption. intros ->. destruct Q as [Q|Q]; [discriminate|congruence].
  - intros X. congruence.
  - intros X. congruence.
  - reflexivity.
  - intros id g t _ B. discriminate.
  - intros -> X. destruct Q as [Q|Q]; [discriminate|congruence].
  - intros X. discriminate.
Qed.

(** ** Tasks *)

Lemma enter_task_inv rg bd u8 h st id g t :
  GInv rg bd u8 h st -> g_pc st = GTasks -> assoc id (g_tasks st) = Some TWait ->
  assoc id (go_ids (g_cfg st)) = Some g -> task_ok bd h (set_task st id t) id g t ->
  GInv rg bd u8 h (set_task st id t).
Proof.
  intros [V1 V2 V3 V4 V5 V6 V7 V8] P W G K. constructor; gsp; try assumption.
  - intros s id' i S A. destruct (V2 s id' i S A) as (E & T). split; [|exact T].
    destruct E as [E|(c & g' & E1 & E2 & E3 & E4)]; [left; exact E|right]. exists c, g'. split; [exact E1|].
    split; [exact E2|]. split; [exact E3|]. intros Q. destruct (E4 Q) as (b & Tb). gsp. rewrite assoc_set_task.
    destruct (String.eqb id' id) eqn:Ei; [apply String.eqb_eq in Ei as ->; congruence|]. exists b. exact Tb.
  - rewrite keys_set_task. exact V5.
  - intros id' g' t' A B. rewrite assoc_set_task in B. destruct (String.eqb id' id) eqn:Ei.
    + apply String.eqb_eq in Ei as ->. rewrite W in B. injection B as <-. assert (g' = g) as -> by congruence. exact K.
    + specialize (V6 id' g' t' A B). destruct t' as [|i|[] []]; exact V6.
  - intros Q N. destruct (V7 Q N) as (id' & b & Tb). exists id', b. rewrite assoc_set_task.
    destruct (String.eqb id' id) eqn:Ei; [apply String.eqb_eq in Ei as ->; congruence|exact Tb].
Qed.

Lemma enter_current rg bd u8 h st id g prev cur :
  lawful bd -> GInv rg bd u8 h st -> g_pc st = GTasks -> assoc id (go_ids (g_cfg st)) = Some g ->
  convert (gd_mt (g_disk st)) g = Some cur -> assoc id (loaded_ids (g_load st)) = Some prev ->
  is_changed (gi_handler g) prev cur = Some false ->
  id_current bd (gd_mt (g_disk st)) (g_disk st) id g.
Proof.
  intros L [V1 V2 V3 V4 V5 V6 V7 V8] P G C A H. assert (NI : g_pc st <> GIdle) by congruence.
  destruct (V4 NI) as (_ & F & _). rewrite (V3 NI) in A. destruct (gstored u8 (g_disk st)) as [s|] eqn:S; [|discriminate].
  cbn [loaded_ids] in A. destruct (V2 s id prev eq_refl A) as (E & _).
  pose proof H as H0. apply is_changed_false in H as (H1 & H2 & H3).
  destruct (convert_spec _ _ _ C) as (C1 & C2 & C3 & C4).
  destruct E as [(a & E1 & E2 & E3 & E4 & E5)|(c & g' & E1 & E2 & E3 & _)].
  - exists a. split; [exact E1|]. split; [rewrite E2, H1; exact (Hashed_paths _ _ _ C1)|].
    split; [congruence|]. split.
    + apply assoc_In in G. apply (blobrel_current bd _ id g _ F G). specialize (F id g G).
      unfold blobrel in *. destruct (bd id) as [R|] eqn:B.
      * destruct (gi_handler g) as [b|] eqn:Eh; [|contradiction]. specialize (H3 b eq_refl).
        apply check_changed_false in H3 as (_ & _ & H3). rewrite <- C3. apply F in H3.
        exact (proj2 (L id R B) _ _ _ E4 H3).
      * split; [apply E4|]. unfold blob_of. destruct (gi_handler g); [contradiction|reflexivity].
    + intros f Hf. rewrite H1 in E5. destruct (Hashed_ex _ _ _ _ C1 Hf) as (x & X1 & X2 & X3).
      specialize (E5 x X1). rewrite X2 in E5. exact (hashed_time _ _ _ _ E5 X3).
  - exfalso. destruct (V4 NI) as (_ & _ & Tc). specialize (Tc c E1). rewrite <- Tc, G in E2. injection E2 as <-.
    exact (outdated_changed _ _ _ _ _ E3 C H0).
Qed.

Lemma enter_inv rg bd u8 h st id g :
  lawful bd -> GInv rg bd u8 h st -> g_pc st = GTasks -> assoc id (g_tasks st) = Some TWait ->
  assoc id (go_ids (g_cfg st)) = Some g -> GInv rg bd u8 h (genter st id g).
Proof.
  intros L V P W G. unfold genter. destruct (g_ok st) eqn:O; cbn [negb].
  - destruct (convert (gd_mt (g_disk st)) g) as [cur|] eqn:C.
    + destruct (assoc id (loaded_ids (g_load st))) as [prev|] eqn:A.
      * destruct (is_changed (gi_handler g) prev cur) as [[]|] eqn:H.
        -- apply enter_task_inv with (g := g); try assumption. cbn [task_ok]. gsp. split; [exact C|].
           intros prev' A'. assert (prev' = prev) as -> by congruence.
           apply (changed_outdated _ _ _ cur); [exact C| |congruence].
           assert (NI : g_pc st <> GIdle) by congruence. rewrite (gv_load _ _ _ _ _ V NI) in A.
           destruct (gstored u8 (g_disk st)) as [s|] eqn:S; [|discriminate].
           exact (proj2 (gv_store _ _ _ _ _ V s id prev S A)).
        -- apply enter_task_inv with (g := g); try assumption. cbn [task_ok]. gsp. split.
           ++ exact (enter_current _ _ _ _ _ _ _ _ _ L V P G C A H).
           ++ exists prev, cur. auto.
        -- apply (enter_task_inv _ _ _ _ (gwith_ok st false) id g (TEnd false false)); try assumption; [apply fail_inv; exact V|].
           cbn [task_ok]. reflexivity.
      * apply enter_task_inv with (g := g); try assumption. cbn [task_ok]. gsp. split; [exact C|]. congruence.
    + apply (enter_task_inv _ _ _ _ (gwith_ok st false) id g (TEnd false false)); try assumption; [apply fail_inv; exact V|].
      cbn [task_ok]. reflexivity.
  - apply enter_task_inv with (g := g); try assumption.
Qed.

(** ** Callbacks *)

Lemma call_inv rg bd u8 h st id g i ok w :
  lawful bd -> GInv rg bd u8 h st -> g_pc st = GTasks -> assoc id (g_tasks st) = Some (TCall i) ->
  assoc id (go_ids (g_cfg st)) = Some g ->
  (forall f t, In (f, t) w -> unread st f /\ (rg = Forward -> fresh h f t)) ->
  GInv rg bd u8 (GH (fold_left next_after w (gh_next h)) (Some (g_cfg st))) (gcallback st id i ok w).
Proof.
  intros L V P W G A.
  assert (V' := V). destruct V' as [V1 V2 V3 V4 V5 V6 V7 V8].
  assert (NI : g_pc st <> GIdle) by congruence. destruct (V4 NI) as (Vo & Vf & Vt).
  assert (K := V6 id g _ G W). cbn [task_ok] in K. destruct K as (K1 & K2).
  assert (Un : forall id' g' t', assoc id' (go_ids (g_cfg st)) = Some g' -> assoc id' (g_tasks st) = Some t' ->
             t' <> TWait -> forall f, In f (inputs_of g') -> write_all (gd_mt (g_disk st)) w f = gd_mt (g_disk st) f).
  { intros id' g' t' A1 A2 A3 f Hf. apply write_all_same. intros t Ht. apply A3.
    exact (proj1 (A f t Ht) id' g' t' A1 Hf A2). }
  set (a := GA (go_args (g_cfg st)) (il_paths (ii_inputs i)) (ii_outputs i) (ii_blob i) (gd_mt (g_disk st))).
  set (st1 := glogged (set_task (gwith_disk st (set_made (set_gmt (g_disk st) (write_all (gd_mt (g_disk st)) w)) id
                (if ok then Some a else None))) id (TEnd true ok)) (GC id a ok)).
  set (st2 := if ok then st1 else gwith_ok st1 false).
  assert (Hdisk : g_disk st2 = g_disk st1) by (subst st2; destruct ok; reflexivity).
  assert (Hpc : g_pc st2 = GTasks) by (subst st2; destruct ok; exact P).
  assert (Hcfg : g_cfg st2 = g_cfg st) by (subst st2; destruct ok; reflexivity).
  assert (Hload : g_load st2 = g_load st) by (subst st2; destruct ok; reflexivity).
  assert (Hdirty : g_dirty st2 = g_dirty st) by (subst st2; destruct ok; reflexivity).
  assert (Htasks : g_tasks st2 = g_tasks st1) by (subst st2; destruct ok; reflexivity).
  change (gcallback st id i ok w) with st2.
  assert (Oth : forall id' g' t', assoc id' (go_ids (g_cfg st)) = Some g' -> assoc id' (g_tasks st) = Some t' -> id' <> id ->
     task_ok bd (GH (fold_left next_after w (gh_next h)) (Some (g_cfg st))) st2 id' g' t').
  { intros id' g' t' A1 A2 Ne. specialize (V6 id' g' t' A1 A2).
    assert (K : task_ok bd (GH (fold_left next_after w (gh_next h)) (Some (g_cfg st))) st1 id' g' t').
    { assert (M : gd_made (g_disk st1) id' = gd_made (g_disk st) id').
      { subst st1. gsp. unfold upd. destruct (String.eqb id' id) eqn:E; [apply String.eqb_eq in E; congruence|reflexivity]. }
      pose (stm := gwith_disk st (set_gmt (g_disk st) (write_all (gd_mt (g_disk st)) w))).
      assert (K : task_ok bd (GH (fold_left next_after w (gh_next h)) (Some (g_cfg st))) stm id' g' t').
      { apply (task_ok_times bd h st); try reflexivity; [|intros f; apply next_afters_le|exact V6].
        intros NW f Hf. subst stm. gsp. exact (Un id' g' t' A1 A2 NW f Hf). }
      unfold id_current in K |- *. destruct t' as [|j|[] []]; unfold task_ok, id_current in *; try rewrite M; exact K. }
    subst st2. destruct ok; [exact K|apply task_ok_fail; exact K]. }
  constructor; rewrite ?Hdisk, ?Hpc, ?Hcfg, ?Hload, ?Hdirty, ?Htasks.
  - subst st1. gsp. cbn [gh_next]. exact (write_all_bound w _ _ V1).
  - intros s id' e S E. assert (S' : gstored u8 (g_disk st) = Some s) by (subst st1; exact S).
    destruct (V2 s id' e S' E) as (X & T). split; [|apply (timely_le _ _ _ T); intros f; apply next_afters_le].
    assert (Fr : forall g0, assoc id' (go_ids (g_cfg st)) = Some g0 ->
                 (rg = Quiet -> exists t, assoc id' (g_tasks st) = Some t /\ t <> TWait) ->
                 outdated (gh_next h) (gd_mt (g_disk st)) e g0 ->
                 outdated (fold_left next_after w (gh_next h)) (gd_mt (g_disk st2)) e g0).
    { intros g0 G0 Q O. rewrite Hdisk. subst st1. gsp. apply (outdated_le (gh_next h)); [|intros f; apply next_afters_le].
      apply outdated_writes; [exact O|]. intros f t Ft. destruct (A f t Ft) as (A1 & A2). destruct rg.
      - left. destruct (Q eq_refl) as (t0 & Q1 & Q2). intros Hf. apply Q2. exact (A1 id' g0 t0 G0 Hf Q1).
      - right. exact (A2 eq_refl). }
    destruct (String.eqb id' id) eqn:Ei.
    + apply String.eqb_eq in Ei as ->. right. exists (g_cfg st), g. cbn [gh_taint gh_next]. split; [reflexivity|].
      split; [exact G|]. split.
      * apply Fr; [exact G| |apply K2; rewrite V3, S' by exact NI; exact E].
        intros _. exists (TCall i). split; [exact W|discriminate].
      * intros _. exists ok. rewrite Htasks. subst st1. gsp. rewrite assoc_set_task, String.eqb_refl, W. reflexivity.
    + assert (Ne : id' <> id) by (intros ->; rewrite String.eqb_refl in Ei; discriminate).
      destruct X as [(b & X)|(c & g' & X1 & X2 & X3 & X4)].
      * left. exists b. rewrite Hdisk. subst st1. gsp. unfold upd. rewrite Ei. exact X.
      * right. specialize (Vt c X1). subst c. exists (g_cfg st), g'. cbn [gh_taint gh_next]. split; [reflexivity|].
        split; [exact X2|]. split.
        -- apply Fr; [exact X2| |exact X3]. intros Q. destruct (X4 Q) as (b & Tb). exists (TEnd true b). split; [exact Tb|discriminate].
        -- intros Q. destruct (X4 Q) as (b & Tb). exists b. rewrite Htasks. subst st1. gsp.
           rewrite assoc_set_task, Ei. exact Tb.
  - intros _. rewrite (V3 NI). subst st1. reflexivity.
  - intros _. split; [exact Vo|]. split; [exact Vf|]. cbn [gh_taint]. intros c [= <-]. reflexivity.
  - subst st1. gsp. rewrite keys_set_task. rewrite P in V5. exact V5.
  - intros id' g' t' A1 B1. subst st1. gsp. rewrite assoc_set_task in B1. destruct (String.eqb id' id) eqn:Ei.
    + apply String.eqb_eq in Ei as ->. rewrite W in B1. injection B1 as <-. assert (g' = g) as -> by congruence.
      destruct ok; [|reflexivity]. subst st2. cbn [task_ok]. exists a. gsp. unfold upd. rewrite String.eqb_refl.
      destruct (convert_spec _ _ _ K1) as (C1 & C2 & C3 & _). split; [reflexivity|]. subst a. cbn [ga_inputs ga_outputs ga_blob ga_snap].
      split; [exact (Hashed_paths _ _ _ C1)|]. split; [exact C2|]. split.
      * apply assoc_In in G. apply (blobrel_current bd _ id g _ Vf G). rewrite C3. exact (blobrel_self bd _ id g L Vf G).
      * intros f Hf. symmetry. apply (Un id g (TCall i) G W); [discriminate|exact Hf].
    + apply (Oth id' g' t' A1 B1). intros ->. rewrite String.eqb_refl in Ei. discriminate.
  - intros _ _. exists id, ok. subst st1. gsp. rewrite assoc_set_task, String.eqb_refl, W. reflexivity.
  - intros _. apply V8. exact P.
Qed.
