(** Generator: histories. *)
From Verif Require Import Prelude Proof_Prelude Model_Path Model_Json Model_Schema Spec_Json Proof_Dec
  Proof_Schema Model_Command Model_Target Spec_Target Proof_TargetBase Model_Gen Spec_Gen Proof_Gen Proof_GenInv.

(** ** The final schema *)

Lemma final_ids_spec (mt : times) (tasks : list (string * gtask)) : forall ids l,
  final_ids mt ids tasks = Some l ->
  (forall id, In id (map fst l) -> In id (map fst ids)) /\
  (NoDup (map fst ids) -> NoDup (map fst l)) /\
  (forall id i, In (id, i) l -> exists g t, In (id, g) ids /\ assoc id tasks = Some t /\ succeeded t = true /\ convert mt g = Some i) /\
  (forall id g t, In (id, g) ids -> assoc id tasks = Some t -> succeeded t = true -> exists i, In (id, i) l /\ convert mt g = Some i).
Proof.
  induction ids as [|[id g] ids IH]; intros l H; cbn [final_ids] in H.
  - injection H as <-. repeat split; intros; try contradiction. constructor.
  - assert (Skip : final_ids mt ids tasks = Some l -> (forall t, assoc id tasks = Some t -> succeeded t = false) ->
      (forall id0, In id0 (map fst l) -> In id0 (map fst ((id, g) :: ids))) /\
      (NoDup (map fst ((id, g) :: ids)) -> NoDup (map fst l)) /\
      (forall id0 i, In (id0, i) l -> exists g0 t, In (id0, g0) ((id, g) :: ids) /\ assoc id0 tasks = Some t /\ succeeded t = true /\ convert mt g0 = Some i) /\
      (forall id0 g0 t, In (id0, g0) ((id, g) :: ids) -> assoc id0 tasks = Some t -> succeeded t = true -> exists i, In (id0, i) l /\ convert mt g0 = Some i)).
    { intros H' Sf. destruct (IH l H') as (A & B & C & D). split; [|split; [|split]].
      - intros x X. right. exact (A x X).
      - intros N. apply B. cbn [map fst] in N. apply NoDup_cons_iff in N. apply N.
      - intros x i X. destruct (C x i X) as (g0 & t & G1 & G2). exists g0, t. split; [right; exact G1|exact G2].
      - intros x g0 t [E|X] T S; [|exact (D x g0 t X T S)]. injection E as <- <-. rewrite (Sf t T) in S. discriminate. }
    destruct (assoc id tasks) as [t|] eqn:T; [|apply Skip; [exact H|discriminate]].
    destruct (succeeded t) eqn:S; [|apply Skip; [exact H|intros t' [= <-]; exact S]].
    destruct (convert mt g) as [i|] eqn:C; [|discriminate].
    destruct (final_ids mt ids tasks) as [l'|] eqn:F; [|discriminate]. injection H as <-.
    destruct (IH l' eq_refl) as (A & B & C' & D). cbn [map fst]. split; [|split; [|split]].
    + intros x [X|X]; [left; exact X|right; exact (A x X)].
    + intros N. apply NoDup_cons_iff in N as [N1 N2]. constructor; [intros K; apply N1; exact (A _ K)|exact (B N2)].
    + intros x j [E|X].
      * injection E as <- <-. exists g, t. split; [left; reflexivity|]. auto.
      * destruct (C' x j X) as (g0 & t0 & G1 & G2). exists g0, t0. split; [right; exact G1|exact G2].
    + intros x g0 t0 [E|X] T' S'.
      * injection E as <- <-. exists i. split; [left; reflexivity|exact C].
      * destruct (D x g0 t0 X T' S') as (j & J1 & J2). exists j. split; [right; exact J1|exact J2].
Qed.

Lemma final_ids_ok (o : gobj) (mt : times) (tasks : list (string * gtask)) (l : list (string * idinfo)) :
  gobj_ok o = true -> final_ids mt (go_ids o) tasks = Some l -> gen_ok (GS "" l).
Proof.
  intros G H. destruct (final_ids_spec _ _ _ _ H) as (_ & B & C & _). split; cbn [gs_ids].
  - apply B. apply gobj_ok_NoDup. exact G.
  - apply Forall_forall. intros [id i] I. cbn [snd]. destruct (C id i I) as (g & t & I' & _ & _ & K).
    destruct (convert_spec _ _ _ K) as (_ & _ & -> & _). exact (gobj_ok_bytes _ _ _ G I').
Qed.
Lemma final_text_rt (u8 : string -> N) (st : gstate) (t : string) :
  gobj_ok (g_cfg st) = true -> final_text st = Some t ->
  exists l, final_ids (gd_mt (g_disk st)) (go_ids (g_cfg st)) (g_tasks st) = Some l /\
    gen_load_text u8 t = Some (GS "" l).
Proof.
  unfold final_text. intros G. destruct (final_ids _ _ _) as [l|] eqn:F; [|discriminate]. intros T. exists l.
  split; [reflexivity|]. apply gen_text_rt; [exact (final_ids_ok _ _ _ _ G F)|exact T].
Qed.
Lemma short_prefix (n : nat) (t t' : string) : short n t = Some t' -> strict_prefix t' t.
Proof.
  unfold short. destruct (Nat.ltb n (String.length t)) eqn:E; [|discriminate]. intros [= <-]. apply Nat.ltb_lt in E.
  revert n E. induction t as [|c t IH]; intros n E; [cbn in E; lia|]. destruct n as [|n]; cbn [substring].
  - exists (String c t). split; [discriminate|]. destruct t; reflexivity.
  - cbn [String.length] in E. destruct (IH n) as (q & Q1 & Q2); [lia|]. exists q. split; [exact Q1|]. cbn. f_equal. exact Q2.
Qed.
Lemma final_text_short (u8 : string -> N) (st : gstate) (t t' : string) (n : nat) :
  gobj_ok (g_cfg st) = true -> final_text st = Some t -> short n t = Some t' -> gen_load_text u8 t' = None.
Proof.
  unfold final_text. intros G. destruct (final_ids _ _ _) as [l|] eqn:F; [|discriminate]. intros T S.
  apply (gen_prefix u8 (GS "" l) t); [exact (final_ids_ok _ _ _ _ G F)|exact T|exact (short_prefix _ _ _ S)].
Qed.

(** A new state file is on disk; memory is gone. *)
Lemma written_inv rg bd u8 h st txt ok :
  GInv rg bd u8 h st -> g_pc st = GTasks ->
  (gen_load_text u8 txt = None \/
   exists l, final_ids (gd_mt (g_disk st)) (go_ids (g_cfg st)) (g_tasks st) = Some l /\ gen_load_text u8 txt = Some (GS "" l)) ->
  GInv rg bd u8 (GH (gh_next h) None)
    (gwith_ok (gwith_disk (gidle st) (set_gstore (g_disk st) (Some txt))) ok).
Proof.
  intros [V1 V2 V3 V4 V5 V6 V7 V8] P R. constructor; gsp; cbn [gh_taint gh_next]; try assumption.
  - intros s id i S A. unfold gstored in S. gsp. cbn [bind] in S.
    destruct R as [R|(l & R1 & R2)]; [congruence|]. rewrite R2 in S. injection S as <-. cbn [gs_ids] in A.
    destruct (final_ids_spec _ _ _ _ R1) as (_ & _ & C & _). apply assoc_In in A.
    destruct (C id i A) as (g & t & C1 & C2 & C3 & C4). assert (NI : g_pc st <> GIdle) by congruence.
    destruct (V4 NI) as (Vo & Vf & _). assert (G := assoc_NoDup_In _ _ _ (gobj_ok_NoDup _ Vo) C1).
    destruct (convert_spec _ _ _ C4) as (D1 & D2 & D3 & _). split.
    + left. gsp. assert (Cur : id_current bd (gd_mt (g_disk st)) (g_disk st) id g).
      { specialize (V6 id g t G C2). destruct t as [|j|[] []]; try discriminate; [exact V6|exact (proj1 V6)]. }
      destruct Cur as (a & A1 & A2 & A3 & A4 & A5). exists a. split; [exact A1|].
      split; [rewrite A2; symmetry; exact (Hashed_paths _ _ _ D1)|]. split; [congruence|].
      split; [rewrite D3; exact (current_blobrel bd _ id g _ Vf C1 A4)|]. intros x X.
      destruct (Hashed_In _ _ _ _ D1 X) as (v & X1 & X2). exists v. split; [|exact X2]. rewrite A5; [exact X1|].
      rewrite <- (Hashed_paths _ _ _ D1). unfold il_paths. apply in_map. exact X.
    + intros x v X E. destruct (Hashed_In _ _ _ _ D1 X) as (v' & X1 & X2). apply V1.
      rewrite X1. f_equal. apply dec_of_N_inj. congruence.
  - intros X. congruence.
  - intros X. congruence.
  - reflexivity.
  - intros id g t _ B. discriminate.
  - intros _ X. congruence.
  - intros X. discriminate.
Qed.

Lemma start_inv rg bd u8 h st o st' :
  GInv rg bd u8 h st -> g_pc st = GIdle -> follows bd o -> (forall c, gh_taint h = Some c -> o = c) ->
  gstart u8 st o = Some st' -> GInv rg bd u8 h st'.
Proof.
  intros [V1 V2 V3 V4 V5 V6 V7 V8] P F T. unfold gstart. destruct (gobj_ok o) eqn:Go; [|discriminate]. intros [= <-].
  rewrite P in V5. assert (Et : g_tasks st = []) by (destruct (g_tasks st); [reflexivity|discriminate]).
  constructor; gsp; try assumption.
  - intros s id i S A. destruct (V2 s id i S A) as (E & Tm). split; [|exact Tm].
    destruct E as [E|(c & g & E1 & E2 & E3 & E4)]; [left; exact E|right]. exists c, g. repeat split; try assumption.
    intros Q. destruct (E4 Q) as (b & Tb). rewrite Et in Tb. discriminate.
  - intros _. reflexivity.
  - intros _. auto.
  - reflexivity.
  - intros id g t _ B. discriminate.
  - intros Q N. destruct (V7 Q N) as (id & b & Tb). rewrite Et in Tb. discriminate.
  - intros X. discriminate.
Qed.
Lemma setup_inv rg bd u8 h st :
  GInv rg bd u8 h st -> g_pc st = GBuilt -> GInv rg bd u8 h (gsetup st).
Proof.
  intros V P. unfold gsetup. assert (V' := V). destruct V' as [V1 V2 V3 V4 V5 V6 V7 V8].
  rewrite P in V5. assert (Et : g_tasks st = []) by (destruct (g_tasks st); [reflexivity|discriminate]).
  assert (Qt : rg = Forward \/ gh_taint h = None).
  { destruct rg; [|left; reflexivity]. right. destruct (gh_taint h) eqn:E; [|reflexivity].
    destruct V7 as (id & b & Tb); [reflexivity|discriminate|]. rewrite Et in Tb. discriminate. }
  destruct (g_ok st) eqn:O; cbn [negb]; [|exact (idle_inv _ _ _ _ _ V Qt)].
  assert (NI : g_pc st <> GIdle) by congruence.
  constructor; gsp; try assumption.
  - intros s id i S A. destruct (V2 s id i S A) as (E & Tm). split; [|exact Tm].
    destruct E as [E|(c & g & E1 & E2 & E3 & E4)]; [left; exact E|right]. exists c, g. repeat split; try assumption.
    intros ->. destruct Qt as [Q|Q]; [discriminate|congruence].
  - intros _. exact (V3 NI).
  - intros _. exact (V4 NI).
  - rewrite map_map. reflexivity.
  - intros id g t _ B. assert (t = TWait) as ->; [|exact Logic.I]. apply assoc_In in B. apply in_map_iff in B as ([k v] & E & _).
    injection E as _ <-. reflexivity.
  - intros -> N. destruct Qt as [Q|Q]; [discriminate|congruence].
  - intros _. reflexivity.
Qed.

Lemma drop_inv rg bd u8 h st :
  GInv rg bd u8 h st -> g_pc st = GIdle ->
  GInv rg bd u8 (GH (gh_next h) None) (gwith_disk st (set_gstore (g_disk st) None)).
Proof.
  intros [V1 V2 V3 V4 V5 V6 V7 V8] P. rewrite P in V5.
  assert (Et : g_tasks st = []) by (destruct (g_tasks st); [reflexivity|discriminate]).
  constructor; gsp; cbn [gh_next gh_taint]; try assumption.
  - intros s id i S. unfold gstored in S. gsp. discriminate.
  - intros X. congruence.
  - intros X. congruence.
  - rewrite P. exact V5.
  - intros _ N. congruence.
Qed.

Lemma not_dirty_taint rg bd u8 h st :
  GInv rg bd u8 h st -> gdirty st = false -> rg = Forward \/ gh_taint h = None.
Proof.
  intros V D. destruct rg; [|left; reflexivity]. right. destruct (gh_taint h) eqn:E; [|reflexivity]. exfalso.
  destruct (gv_quiet _ _ _ _ _ V eq_refl) as (id & b & Tb); [rewrite E; discriminate|].
  unfold gdirty in D. apply orb_false_iff in D as [_ D]. apply assoc_In in Tb.
  assert (K : existsb (fun x => should (snd x)) (g_tasks st) = true); [|congruence].
  apply existsb_exists. exists (id, TEnd true b). split; [exact Tb|reflexivity].
Qed.

Lemma GInv_gwith_ok_id st : gwith_ok st (g_ok st) = st.
Proof. destruct st. reflexivity. Qed.
Lemma ghist_eta h : GH (gh_next h) (gh_taint h) = h.
Proof. destruct h. reflexivity. Qed.

Lemma finish_inv rg bd u8 h st w st' :
  GInv rg bd u8 h st -> g_pc st = GTasks -> gadmissible rg bd h st (GFinish w) ->
  gfinish st w = Some st' -> GInv rg bd u8 (gtrack h st (GFinish w)) st'.
Proof.
  intros V P A H. cbn [gadmissible] in A. cbn [gtrack]. unfold gfinish in H.
  assert (NI : g_pc st <> GIdle) by congruence. destruct (gv_cfg _ _ _ _ _ V NI) as (Go & _ & _).
  unfold writes_gstore in *. destruct (gdirty st) eqn:D.
  - destruct (final_text st) as [t|] eqn:T.
    + destruct w as [| |n rep]; cbn [andb] in *.
      * injection H as <-. rewrite <- (GInv_gwith_ok_id (gwith_disk _ _)). apply (written_inv rg bd u8 h st t); [exact V|exact P|].
        right. exact (final_text_rt u8 st t Go T).
      * injection H as <-. rewrite ghist_eta. apply fail_inv. apply idle_inv; [exact V|].
        destruct A as [A|[A|A]]; [left; exact A|discriminate|discriminate].
      * destruct (short n t) as [t'|] eqn:S; [|discriminate].
        assert (N := final_text_short u8 st t t' n Go T S).
        injection H as <-. destruct rep.
        -- rewrite <- (GInv_gwith_ok_id (gwith_disk _ _)). apply (written_inv rg bd u8 h st t'); auto.
        -- apply (written_inv rg bd u8 h st t'); auto.
    + destruct w; try discriminate. injection H as <-. cbn [andb] in *. rewrite ghist_eta. apply fail_inv.
      apply idle_inv; [exact V|]. destruct A as [A|[A|A]]; [left; exact A|discriminate|discriminate].
  - destruct w; try discriminate. injection H as <-. cbn [andb]. rewrite ghist_eta. apply idle_inv; [exact V|].
    exact (not_dirty_taint _ _ _ _ _ V D).
Qed.

Lemma step_inv rg bd u8 h st ev st' :
  lawful bd -> GInv rg bd u8 h st -> gadmissible rg bd h st ev -> gstep u8 st ev = Some st' ->
  GInv rg bd u8 (gtrack h st ev) st'.
Proof.
  intros L V A H. destruct ev as [f t| | | |o| |id|id ok w|w|n]; cbn [gstep gtrack gadmissible] in *.
  - injection H as <-. apply edit_inv; [exact V|apply A|apply A].
  - injection H as <-. apply fail_inv. exact V.
  - destruct (g_pc st) eqn:P; [discriminate| |]; injection H as <-; apply fail_inv, idle_inv; assumption.
  - injection H as <-. apply drop_inv; assumption.
  - destruct (g_pc st) eqn:P; try discriminate. exact (start_inv _ _ _ _ _ _ _ V P (proj1 A) (proj2 A) H).
  - destruct (g_pc st) eqn:P; try discriminate. injection H as <-. exact (setup_inv _ _ _ _ _ V P).
  - destruct (g_pc st) eqn:P; try discriminate. destruct (assoc id (g_tasks st)) as [[]|] eqn:W; try discriminate.
    destruct (assoc id (go_ids (g_cfg st))) as [g|] eqn:G; try discriminate. injection H as <-.
    exact (enter_inv _ _ _ _ _ _ _ L V P W G).
  - destruct (g_pc st) eqn:P; try discriminate. destruct (assoc id (g_tasks st)) as [[| |]|] eqn:W; try discriminate.
    injection H as <-. assert (T := gv_tasks _ _ _ _ _ V). rewrite P in T.
    assert (K : exists g, assoc id (go_ids (g_cfg st)) = Some g).
    { apply assoc_key. rewrite <- T. apply assoc_key. eauto. }
    destruct K as (g & G). exact (call_inv _ _ _ _ _ _ _ _ _ _ L V P W G A).
  - destruct (g_pc st) eqn:P; try discriminate. destruct (forallb _ _); [|discriminate].
    exact (finish_inv _ _ _ _ _ _ _ V P A H).
  - destruct (g_pc st) eqn:P; try discriminate. destruct (forallb _ _ && gdirty st); [|discriminate].
    destruct (final_text st) as [t|] eqn:T; cbn [bind] in H; [|discriminate].
    destruct (short n t) as [t'|] eqn:S; [|discriminate]. injection H as <-.
    assert (NI : g_pc st <> GIdle) by congruence. destruct (gv_cfg _ _ _ _ _ V NI) as (Go & _ & _).
    assert (N := final_text_short u8 st t t' n Go T S).
    exact (written_inv rg bd u8 h st t' false V P (or_introl N)).
Qed.

Lemma init_inv rg bd u8 m0 : GInv rg bd u8 (ghist0 m0) (ginit m0).
Proof.
  constructor; cbn; try discriminate; try congruence.
  intros f v ->. lia.
Qed.
Lemma history_inv rg bd u8 m0 evs h st :
  lawful bd -> ghistory rg bd u8 m0 evs h st -> GInv rg bd u8 h st.
Proof.
  intros L H. induction H as [|evs h st ev st' H IH A S]; [apply init_inv|]. exact (step_inv _ _ _ _ _ _ _ L IH A S).
Qed.

Lemma history_last rg bd u8 m0 evs ev h st :
  ghistory rg bd u8 m0 (evs ++ [ev]) h st ->
  exists h0 st0, ghistory rg bd u8 m0 evs h0 st0 /\ gadmissible rg bd h0 st0 ev /\ gstep u8 st0 ev = Some st /\ h = gtrack h0 st0 ev.
Proof.
  intros H. remember (evs ++ [ev]) as l eqn:E. destruct H as [|evs' h' st' ev' st'' H A S].
  - destruct evs; discriminate.
  - apply app_inj_tail in E as [-> ->]. exists h', st'. auto.
Qed.

(** What a finished run leaves in place. *)
Lemma finish_keeps u8 st w st' :
  gstep u8 st (GFinish w) = Some st' ->
  g_pc st = GTasks /\ forallb (fun x => ended (snd x)) (g_tasks st) = true /\ gfinish st w = Some st' /\
  gd_mt (g_disk st') = gd_mt (g_disk st) /\ gd_made (g_disk st') = gd_made (g_disk st) /\
  g_cfg st' = g_cfg st /\ g_log st' = g_log st /\ g_pc st' = GIdle /\ (g_ok st' = true -> g_ok st = true).
Proof.
  cbn [gstep]. destruct (g_pc st) eqn:P; try discriminate. destruct (forallb _ _) eqn:F; [|discriminate]. intros H.
  split; [reflexivity|]. split; [reflexivity|]. split; [exact H|]. unfold gfinish in H.
  destruct (gdirty st); [destruct (final_text st) as [t|]|]; destruct w as [| |n rep]; try discriminate;
    try (injection H as <-; gsp; repeat split; auto; discriminate).
  destruct (short n t); [|discriminate]. injection H as <-. destruct rep; gsp; repeat split; auto; discriminate.
Qed.

Lemma all_ended rg bd u8 h st id g :
  GInv rg bd u8 h st -> g_pc st = GTasks -> forallb (fun x => ended (snd x)) (g_tasks st) = true -> g_ok st = true ->
  assoc id (go_ids (g_cfg st)) = Some g ->
  exists b, assoc id (g_tasks st) = Some (TEnd b true) /\ task_ok bd h st id g (TEnd b true).
Proof.
  intros V P F O G. assert (T := gv_tasks _ _ _ _ _ V). rewrite P in T.
  assert (K : exists t, assoc id (g_tasks st) = Some t). { apply assoc_key. rewrite T. apply assoc_key. eauto. }
  destruct K as (t & K). assert (X := gv_task _ _ _ _ _ V id g t G K).
  rewrite forallb_forall in F. specialize (F _ (assoc_In _ _ _ K)). cbn [snd] in F.
  destruct t as [|i|b []]; try discriminate.
  - exists b. auto.
  - exfalso. destruct b; cbn [task_ok] in X; congruence.
Qed.

(** C39 *)
Lemma run_current rg bd u8 m0 evs w h st :
  lawful bd -> ghistory rg bd u8 m0 (evs ++ [GFinish w]) h st -> g_ok st = true ->
  forall id g, In (id, g) (go_ids (g_cfg st)) -> id_current bd (gd_mt (g_disk st)) (g_disk st) id g.
Proof.
  intros L H O id g I. apply history_last in H as (h0 & st0 & H & A & S & ->).
  assert (V := history_inv _ _ _ _ _ _ _ L H).
  destruct (finish_keeps _ _ _ _ S) as (P & F & _ & E1 & E2 & E3 & _ & _ & E4). rewrite E3 in I.
  assert (NI : g_pc st0 <> GIdle) by congruence. destruct (gv_cfg _ _ _ _ _ V NI) as (Go & _ & _).
  assert (G := assoc_NoDup_In _ _ _ (gobj_ok_NoDup _ Go) I).
  destruct (all_ended _ _ _ _ _ _ _ V P F (E4 O) G) as (b & _ & X).
  assert (C : id_current bd (gd_mt (g_disk st0)) (g_disk st0) id g) by (destruct b; [exact X|exact (proj1 X)]).
  unfold id_current. rewrite E1, E2. exact C.
Qed.
