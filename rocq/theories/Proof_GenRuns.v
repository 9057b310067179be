(** Generator: unchanged, selected, failed and skipped ids. *)
From Verif Require Import Prelude Proof_Prelude Model_Path Model_Json Model_Schema Spec_Json Proof_Dec
  Proof_Schema Model_Command Model_Target Spec_Target Proof_TargetBase Model_Gen Spec_Gen Proof_Gen Proof_GenInv
  Proof_GenMain.

Lemma gexec_app u8 st a b : gexec u8 st (a ++ b) = match gexec u8 st a with Some st' => gexec u8 st' b | None => None end.
Proof. revert st. induction a as [|ev a IH]; intros st; cbn [gexec app]; [reflexivity|]. destruct (gstep u8 st ev); auto. Qed.

(** ** Nothing changed *)

Definition settled (u8 : string -> N) (o : gobj) (d : gdisk) : Prop :=
  exists s, gstored u8 d = Some s /\ compute_build (Some s) o = false /\
    forall id g, assoc id (go_ids o) = Some g ->
      exists i cur, assoc id (gs_ids s) = Some i /\ convert (gd_mt d) g = Some cur /\
        is_changed (gi_handler g) i cur = Some false.

Lemma in_assoc_first {A} (k : string) (l : list (string * A)) (v : A) :
  In (k, v) l -> exists v', assoc k l = Some v'.
Proof. intros H. apply assoc_key. apply in_map_iff. exists (k, v). auto. Qed.

Definition calm (l : list (string * gtask)) : Prop :=
  Forall (fun x => snd x = TWait \/ exists b, snd x = TEnd false b) l.
Lemma calm_assoc l id t : calm l -> assoc id l = Some t -> t = TWait \/ exists b, t = TEnd false b.
Proof. intros C A. apply assoc_In in A. unfold calm in C; rewrite Forall_forall in C. exact (C _ A). Qed.
Lemma calm_set l id t :
  calm l -> (t = TWait \/ exists b, t = TEnd false b) ->
  calm (map (fun x => if String.eqb (fst x) id then (id, t) else x) l).
Proof.
  intros C T. apply Forall_forall. intros x X. apply in_map_iff in X as (y & <- & Y).
  destruct (String.eqb (fst y) id); [exact T|]. unfold calm in C. rewrite Forall_forall in C. exact (C y Y).
Qed.

Record resting (u8 : string -> N) (o : gobj) (st : gstate) : Prop := {
  rs_settled : settled u8 o (g_disk st);
  rs_cfg : g_pc st <> GIdle -> g_cfg st = o /\ g_load st = gstored u8 (g_disk st);
  rs_dirty : g_dirty st = false;
  rs_calm : calm (g_tasks st) }.

Lemma resting_gdirty u8 o st : resting u8 o st -> gdirty st = false.
Proof.
  intros [_ _ D T]. unfold gdirty. rewrite D. cbn [orb]. destruct (existsb _ _) eqn:E; [|reflexivity].
  apply existsb_exists in E as ([id t] & I & S). unfold calm in T. rewrite Forall_forall in T. specialize (T _ I).
  cbn [snd] in *. destruct T as [->|(b & ->)]; discriminate.
Qed.

Lemma settled_edit u8 o d f t :
  settled u8 o d -> (forall id g, In (id, g) (go_ids o) -> ~ In f (inputs_of g)) ->
  settled u8 o (set_gmt d (upd (gd_mt d) f t)).
Proof.
  intros (s & S1 & S2 & S3) N. exists s. split; [exact S1|]. split; [exact S2|]. intros id g G.
  destruct (S3 id g G) as (i & cur & A & B & C). exists i, cur. split; [exact A|]. split; [|exact C].
  gsp. rewrite (convert_cong (gd_mt d)); [exact B|]. intros f' Hf. unfold upd.
  destruct (String.eqb f' f) eqn:E; [|reflexivity]. apply String.eqb_eq in E as ->.
  exfalso. exact (N id g (assoc_In _ _ _ G) Hf).
Qed.

Lemma resting_step u8 o st ev st' :
  resting u8 o st -> gundisturbed o ev -> gstep u8 st ev = Some st' ->
  resting u8 o st' /\ g_log st' = g_log st /\ gd_store (g_disk st') = gd_store (g_disk st) /\
  gd_made (g_disk st') = gd_made (g_disk st).
Proof.
  intros R U H. assert (D := resting_gdirty _ _ _ R). destruct R as [R1 R2 R3 R4].
  destruct ev as [f t| | | |o'| |id|id ok w|w|n]; cbn [gstep gundisturbed] in *.
  - injection H as <-. gsp. split; [|auto]. constructor; gsp; try assumption. apply settled_edit; assumption.
  - injection H as <-. gsp. split; [|auto]. constructor; gsp; assumption.
  - destruct (g_pc st); [discriminate| |]; injection H as <-; gsp; (split; [|auto]); constructor; gsp; try assumption;
      try reflexivity; try congruence; constructor.
  - contradiction.
  - destruct (g_pc st); try discriminate. subst o'. unfold gstart in H. destruct (gobj_ok o); [|discriminate].
    injection H as <-. gsp. split; [|auto]. constructor; gsp; try assumption; auto. constructor.
  - destruct (g_pc st) eqn:P; try discriminate. injection H as <-. unfold gsetup. destruct (g_ok st); cbn [negb]; gsp.
    + split; [|auto]. destruct R2 as (C1 & C2); [congruence|]. constructor; gsp; auto.
      * destruct R1 as (s & S1 & S2 & _). rewrite C1, C2, S1. exact S2.
      * apply Forall_forall. intros x X. apply in_map_iff in X as (y & <- & _). left. reflexivity.
    + split; [|auto]. constructor; gsp; auto; try congruence; try (constructor; fail).
  - destruct (g_pc st) eqn:P; try discriminate. destruct (assoc id (g_tasks st)) as [[]|] eqn:W; try discriminate.
    destruct (assoc id (go_ids (g_cfg st))) as [g|] eqn:G; try discriminate. injection H as <-.
    destruct R2 as (C1 & C2); [congruence|]. rewrite C1 in G. destruct R1 as (s & S1 & S2 & S3).
    destruct (S3 id g G) as (i & cur & A & B & C). unfold genter. rewrite C2, S1. cbn [loaded_ids]. rewrite A, B, C.
    destruct (g_ok st); cbn [negb]; gsp; (split; [|auto]); constructor; gsp; try assumption.
    + exists s. auto.
    + intros _. split; [exact C1|]. exact C2.
    + apply calm_set; [exact R4|]. eauto.
    + exists s. auto.
    + intros _. split; [exact C1|]. exact C2.
    + apply calm_set; [exact R4|]. eauto.
  - destruct (g_pc st); try discriminate. destruct (assoc id (g_tasks st)) as [[| |]|] eqn:W; try discriminate.
    exfalso. destruct (calm_assoc _ _ _ R4 W) as [K|(b & K)]; discriminate.
  - destruct (g_pc st); try discriminate. destruct (forallb _ _); [|discriminate]. unfold gfinish in H. rewrite D in H.
    destruct w; try discriminate. injection H as <-. gsp. split; [|auto]. constructor; gsp; try assumption; try reflexivity; try congruence.
    constructor.
  - destruct (g_pc st); try discriminate. rewrite D, andb_false_r in H. discriminate.
Qed.

Lemma resting_exec u8 o evs : forall st st',
  resting u8 o st -> Forall (gundisturbed o) evs -> gexec u8 st evs = Some st' ->
  resting u8 o st' /\ g_log st' = g_log st /\ gd_store (g_disk st') = gd_store (g_disk st) /\
  gd_made (g_disk st') = gd_made (g_disk st).
Proof.
  induction evs as [|ev evs IH]; intros st st' R F H; cbn [gexec] in H.
  - injection H as <-. auto.
  - apply Forall_cons_iff in F as [F1 F2]. destruct (gstep u8 st ev) as [st1|] eqn:S; [|discriminate].
    destruct (resting_step _ _ _ _ _ R F1 S) as (R' & A & B & C). destruct (IH _ _ R' F2 H) as (R'' & A' & B' & C').
    split; [exact R''|]. split; [congruence|]. split; congruence.
Qed.

Lemma compute_build_false (s : gschema) (o : gobj) :
  compute_build (Some s) o = false <-> (forall id, In id (map fst (gs_ids s)) <-> In id (map fst (go_ids o))).
Proof.
  cbn [compute_build]. rewrite orb_false_iff. split.
  - intros [A B] id. split; intros I.
    + destruct (assoc id (go_ids o)) as [g|] eqn:E; [apply assoc_key; eauto|]. exfalso.
      apply in_map_iff in I as ([k v] & Ek & I). cbn [fst] in Ek. subst k.
      assert (K : existsb (fun x => match assoc (fst x) (go_ids o) with None => true | Some _ => false end) (gs_ids s) = true).
      { apply existsb_exists. exists (id, v). split; [exact I|]. cbn [fst]. rewrite E. reflexivity. }
      congruence.
    + destruct (assoc id (gs_ids s)) as [g|] eqn:E; [apply assoc_key; eauto|]. exfalso.
      apply in_map_iff in I as ([k v] & Ek & I). cbn [fst] in Ek. subst k.
      assert (K : existsb (fun x => match assoc (fst x) (gs_ids s) with None => true | Some _ => false end) (go_ids o) = true).
      { apply existsb_exists. exists (id, v). split; [exact I|]. cbn [fst]. rewrite E. reflexivity. }
      congruence.
  - intros H. split.
    + destruct (existsb _ _) eqn:E; [|reflexivity]. apply existsb_exists in E as ([id v] & I & K). cbn [fst] in K.
      assert (J : In id (map fst (gs_ids s))) by (apply in_map_iff; exists (id, v); auto).
      apply H in J. apply assoc_key in J as (x & J). rewrite J in K. discriminate.
    + destruct (existsb _ _) eqn:E; [|reflexivity]. apply existsb_exists in E as ([id v] & I & K). cbn [fst] in K.
      assert (J : In id (map fst (go_ids o))) by (apply in_map_iff; exists (id, v); auto).
      apply H in J. apply assoc_key in J as (x & J). rewrite J in K. discriminate.
Qed.

Lemma convert_self (mt : times) (g : gid) (i : idinfo) :
  convert mt g = Some i -> (forall h, gi_handler g = Some h -> sane_handler h) -> is_changed (gi_handler g) i i = Some false.
Proof.
  intros C S. apply is_changed_false. split; [reflexivity|]. split; [reflexivity|]. intros h E.
  destruct (convert_spec _ _ _ C) as (_ & _ & C3 & _). rewrite C3. unfold blob_of. rewrite E.
  apply check_changed_false. destruct (S h E) as (A & B). auto.
Qed.

Lemma settled_after rg bd u8 m0 evs h st :
  lawful bd -> ghistory rg bd u8 m0 (evs ++ [GFinish WOk]) h st -> g_ok st = true -> sane_handlers (g_cfg st) ->
  settled u8 (g_cfg st) (g_disk st).
Proof.
  intros L H O SH. apply history_last in H as (h0 & st0 & H & A & S & ->).
  assert (V := history_inv _ _ _ _ _ _ _ L H).
  destruct (finish_keeps _ _ _ _ S) as (P & F & Fi & E1 & E2 & E3 & _ & _ & E4). rewrite E3 in *.
  assert (NI : g_pc st0 <> GIdle) by congruence. destruct (gv_cfg _ _ _ _ _ V NI) as (Go & _ & _).
  assert (All : forall id g, assoc id (go_ids (g_cfg st0)) = Some g ->
            exists b, assoc id (g_tasks st0) = Some (TEnd b true) /\ task_ok bd h0 st0 id g (TEnd b true)).
  { intros id g G. exact (all_ended _ _ _ _ _ _ _ V P F (E4 O) G). }
  unfold gfinish in Fi. destruct (gdirty st0) eqn:D.
  - destruct (final_text st0) as [t|] eqn:T; [|injection Fi as <-; discriminate]. injection Fi as <-.
    destruct (final_text_rt u8 st0 t Go T) as (l & L1 & L2). destruct (final_ids_spec _ _ _ _ L1) as (K1 & K2 & K3 & K4).
    assert (ND : NoDup (map fst l)) by (apply K2; exact (gobj_ok_NoDup _ Go)).
    exists (GS "" l). gsp. unfold gstored. gsp. cbn [bind]. split; [exact L2|]. split.
    + apply compute_build_false. cbn [gs_ids]. intros id. split; [apply K1|]. intros I. apply assoc_key in I as (g & G).
      destruct (All id g G) as (b & B1 & _). destruct (K4 id g _ (assoc_In _ _ _ G) B1) as (i & I & _); [destruct b; reflexivity|].
      apply in_map_iff. exists (id, i). auto.
    + intros id g G. destruct (All id g G) as (b & B1 & _).
      destruct (K4 id g _ (assoc_In _ _ _ G) B1) as (i & I & C); [destruct b; reflexivity|].
      exists i, i. cbn [gs_ids]. split; [exact (assoc_NoDup_In _ _ _ ND I)|]. split; [exact C|].
      apply (convert_self _ _ _ C). intros hd Eh. exact (SH id g hd (assoc_In _ _ _ G) Eh).
  - injection Fi as <-. gsp. unfold gdirty in D. apply orb_false_iff in D as [D1 D2].
    rewrite (gv_build _ _ _ _ _ V P) in D1. assert (El := gv_load _ _ _ _ _ V NI).
    destruct (g_load st0) as [s|] eqn:Es; [|discriminate]. exists s. split; [congruence|]. split; [exact D1|].
    intros id g G. destruct (All id g G) as (b & B1 & B2). destruct b.
    + exfalso. assert (K : existsb (fun x => should (snd x)) (g_tasks st0) = true); [|congruence].
      apply existsb_exists. exists (id, TEnd true true). split; [exact (assoc_In _ _ _ B1)|reflexivity].
    + destruct B2 as (_ & prev & cur & X1 & X2 & X3). exists prev, cur. rewrite Es in X1. auto.
Qed.

Lemma idle_resting u8 o st :
  settled u8 o (g_disk st) -> g_pc st = GIdle -> g_dirty st = false -> g_tasks st = [] -> resting u8 o st.
Proof. intros S P D T. constructor; try assumption; [congruence|]. rewrite T. constructor. Qed.

Lemma finish_idle u8 st w st' : gstep u8 st (GFinish w) = Some st' -> g_pc st' = GIdle /\ g_dirty st' = false /\ g_tasks st' = [].
Proof.
  cbn [gstep]. destruct (g_pc st); try discriminate. destruct (forallb _ _); [|discriminate]. unfold gfinish.
  destruct (gdirty st); [destruct (final_text st) as [t|]|]; destruct w as [| |n rep]; try discriminate;
    try (intros [= <-]; gsp; auto; fail).
  destruct (short n t); [|discriminate]. intros [= <-]. destruct rep; gsp; auto.
Qed.

Lemma after_resting rg bd u8 m0 evs h st :
  lawful bd -> ghistory rg bd u8 m0 (evs ++ [GFinish WOk]) h st -> g_ok st = true -> sane_handlers (g_cfg st) ->
  resting u8 (g_cfg st) st.
Proof.
  intros L H O SH. assert (S := settled_after _ _ _ _ _ _ _ L H O SH).
  apply history_last in H as (h0 & st0 & _ & _ & F & _). destruct (finish_idle _ _ _ _ F) as (A & B & C).
  apply idle_resting; assumption.
Qed.

(** C41 *)
Lemma generator_rests rg bd u8 m0 evs h st evs2 st2 :
  lawful bd -> ghistory rg bd u8 m0 (evs ++ [GFinish WOk]) h st -> g_ok st = true -> sane_handlers (g_cfg st) ->
  Forall (gundisturbed (g_cfg st)) evs2 -> gexec u8 st evs2 = Some st2 ->
  g_log st2 = g_log st /\ gd_store (g_disk st2) = gd_store (g_disk st) /\ gd_made (g_disk st2) = gd_made (g_disk st).
Proof.
  intros L H O SH U X. apply (resting_exec u8 (g_cfg st) evs2); try assumption.
  exact (after_resting _ _ _ _ _ _ _ L H O SH).
Qed.

Lemma idle_enters u8 o ids : forall st,
  settled u8 o (g_disk st) -> gobj_ok o = true -> g_pc st = GTasks -> g_cfg st = o -> g_load st = gstored u8 (g_disk st) -> g_ok st = true ->
  NoDup ids -> (forall id, In id ids -> assoc id (g_tasks st) = Some TWait) ->
  (forall id, In id ids -> In id (map fst (go_ids o))) ->
  (forall id t, assoc id (g_tasks st) = Some t -> ~ In id ids -> t = TEnd false true) ->
  exists st', gexec u8 st (map GEnter ids) = Some st' /\ g_disk st' = g_disk st /\ g_log st' = g_log st /\ g_ok st' = true /\
    g_pc st' = GTasks /\ g_dirty st' = g_dirty st /\ map fst (g_tasks st') = map fst (g_tasks st) /\
    (forall id t, assoc id (g_tasks st') = Some t -> t = TEnd false true).
Proof.
  induction ids as [|id ids IH]; intros st S Go P C El O N W K D; cbn [map gexec].
  - exists st. repeat split; auto. intros id t X. apply (D id t X). intros [].
  - apply NoDup_cons_iff in N as [N1 N2].
    assert (Hk := K id (or_introl eq_refl)). apply assoc_key in Hk as (g & G).
    destruct S as (s & S1 & S2 & S3). destruct (S3 id g G) as (i & cur & X1 & X2 & X3).
    cbn [gstep]. rewrite P, (W id (or_introl eq_refl)), C, G. unfold genter. rewrite O, El, S1. cbn [negb loaded_ids].
    rewrite X2, X1, X3.
    destruct (IH (set_task st id (TEnd false true))) as (st' & Y1 & Y2 & Y3 & Y4 & Y5 & Y6 & Y7 & Y8); gsp; auto.
    + exists s. auto.
    + intros id' I. rewrite assoc_set_task. destruct (String.eqb id' id) eqn:E.
      * apply String.eqb_eq in E as ->. contradiction.
      * apply W. right. exact I.
    + intros id' I. apply K. right. exact I.
    + intros id' t A NI. rewrite assoc_set_task in A. destruct (String.eqb id' id) eqn:E.
      * rewrite (W id (or_introl eq_refl)) in A. congruence.
      * apply (D id' t A). intros [->|I]; [rewrite String.eqb_refl in E; discriminate|contradiction].
    + exists st'. rewrite keys_set_task in Y7. repeat split; auto.
Qed.

Lemma generator_idle_run rg bd u8 m0 evs h st ids :
  lawful bd -> ghistory rg bd u8 m0 (evs ++ [GFinish WOk]) h st -> g_ok st = true -> sane_handlers (g_cfg st) ->
  Permutation ids (map fst (go_ids (g_cfg st))) ->
  exists st2, gexec u8 st (gidle_run (g_cfg st) ids) = Some st2 /\ g_ok st2 = true /\ g_pc st2 = GIdle /\
    g_log st2 = g_log st /\ g_disk st2 = g_disk st.
Proof.
  intros L H O SH Pm. assert (S := settled_after _ _ _ _ _ _ _ L H O SH).
  apply history_last in H as (h0 & st0 & H & A & Fi & ->). assert (V := history_inv _ _ _ _ _ _ _ L H).
  destruct (finish_keeps _ _ _ _ Fi) as (P & _ & _ & _ & _ & E3 & _ & P' & _).
  assert (NI : g_pc st0 <> GIdle) by congruence. destruct (gv_cfg _ _ _ _ _ V NI) as (Go & _ & _). rewrite <- E3 in Go.
  assert (ND := gobj_ok_NoDup _ Go).
  unfold gidle_run. cbn [gexec gstep]. rewrite P'. unfold gstart. rewrite Go. cbn [g_pc]. unfold gsetup. gsp. cbn [negb].
  set (st1 := GST _ GTasks _ _ _ _ _ _).
  assert (N1 : NoDup ids) by (apply (Permutation_NoDup (Permutation_sym Pm)); exact ND).
  assert (Wt : forall id t, assoc id (g_tasks st1) = Some t -> t = TWait).
  { intros id t X. apply assoc_In in X. subst st1. gsp. apply in_map_iff in X as (y & Y & _). injection Y as _ <-. reflexivity. }
  assert (Ks : map fst (g_tasks st1) = map fst (go_ids (g_cfg st))) by (subst st1; gsp; rewrite map_map; reflexivity).
  destruct (idle_enters u8 (g_cfg st) ids st1) as (st2 & Y1 & Y2 & Y3 & Y4 & Y5 & Y6 & Y7 & Y8); try reflexivity; auto.
  - intros id I. assert (X : exists t, assoc id (g_tasks st1) = Some t).
    { apply assoc_key. rewrite Ks. apply (Permutation_in _ Pm). exact I. }
    destruct X as (t & X). rewrite X. f_equal. exact (Wt id t X).
  - intros id I. apply (Permutation_in _ Pm). exact I.
  - intros id t X NIn. exfalso. apply NIn. apply (Permutation_in _ (Permutation_sym Pm)). rewrite <- Ks. apply assoc_key. eauto.
  - rewrite gexec_app, Y1. cbn [gexec gstep]. rewrite Y5.
    assert (C2 : forall x, In x (g_tasks st2) -> snd x = TEnd false true).
    { intros [k t] X. cbn [snd]. apply (Y8 k t). apply assoc_NoDup_In; [rewrite Y7, Ks; exact ND|exact X]. }
    assert (En : forallb (fun x => ended (snd x)) (g_tasks st2) = true).
    { apply forallb_forall. intros x X. rewrite (C2 x X). reflexivity. }
    assert (Dn : gdirty st2 = false).
    { unfold gdirty. rewrite Y6. destruct S as (s & S1 & S2 & _). subst st1. gsp. rewrite S1. rewrite S2. cbn [orb].
      destruct (existsb _ _) eqn:X; [|reflexivity]. apply existsb_exists in X as (x & X1 & X2). rewrite (C2 x X1) in X2. discriminate. }
    rewrite En. unfold gfinish. rewrite Dn. exists (gidle st2). split; [reflexivity|]. gsp. split; [exact Y4|].
    split; [reflexivity|]. split; [exact Y3|exact Y2].
Qed.
