(** A repeated run of a generator is a run of a new process that found the state
    file the present process had loaded: as if the runs before had been killed just
    before they wrote theirs. *)
From Verif Require Import Prelude Proof_Prelude Model_Json Model_Schema Model_Command Model_Target Spec_Target Model_Gen Spec_Gen
  Proof_Gen Proof_GenInv Proof_GenMain Model_Again Model_GenAgain Spec_GenAgain.

(** The same state with another state file. *)
Definition sw (X : option string) (st : gstate) : gstate := gwith_disk st (set_gstore (g_disk st) X).
Definition grun_ev (ev : gevent) : bool :=
  match ev with GEdit _ _ | GFail | GSetup | GEnter _ | GCall _ _ _ => true | _ => false end.

Lemma sw_self st : sw (gd_store (g_disk st)) st = st.
Proof. destruct st as [[m s k] pc c l d t o g]. reflexivity. Qed.
Lemma sw_step u8 X st ev st' : grun_ev ev = true -> gstep u8 st ev = Some st' -> gstep u8 (sw X st) ev = Some (sw X st').
Proof.
  destruct st as [[m s k] pc c l d t o g]. intros R H. destruct ev; try discriminate R; cbn in *.
  - injection H as <-. reflexivity.
  - injection H as <-. reflexivity.
  - destruct pc; try discriminate H. injection H as <-. unfold gsetup. cbn. destruct o; reflexivity.
  - destruct pc; try discriminate H. destruct (assoc id t) as [[| |]|]; try discriminate H. destruct (assoc id (go_ids c)) as [gg|]; [|discriminate H].
    injection H as <-. unfold genter, sw. cbn [g_ok gwith_disk g_disk gd_mt set_gstore g_load negb]. destruct o; cbn [negb]; [|reflexivity].
    destruct (convert m gg) as [cur|]; [|reflexivity]. destruct (assoc id (loaded_ids l)) as [prev|]; [|reflexivity].
    destruct (is_changed _ prev cur) as [[]|]; reflexivity.
  - destruct pc; try discriminate H. destruct (assoc id t) as [[|i|]|]; try discriminate H. injection H as <-. unfold gcallback, sw. destruct ok; reflexivity.
Qed.
Lemma sw_admissible bd h h' X st ev : grun_ev ev = true -> gh_next h' = gh_next h ->
  gadmissible Forward bd h st ev -> gadmissible Forward bd h' (sw X st) ev.
Proof.
  intros R N A. destruct ev; try discriminate R; cbn [gadmissible] in *; try exact A.
  - unfold fresh in *. rewrite N. exact A.
  - unfold fresh in *. rewrite N. exact A.
Qed.
Lemma sw_next h h' X st ev : grun_ev ev = true -> gh_next h' = gh_next h ->
  gh_next (gtrack h' (sw X st) ev) = gh_next (gtrack h st ev).
Proof. intros R N. destruct ev; try discriminate R; cbn [gtrack gh_next]; rewrite ?N; first [exact N|reflexivity]. Qed.
(** What steps of a run leave alone. *)
Lemma grun_keeps u8 st ev st' : grun_ev ev = true -> gstep u8 st ev = Some st' ->
  g_cfg st' = g_cfg st /\ g_load st' = g_load st /\ gd_store (g_disk st') = gd_store (g_disk st).
Proof.
  destruct st as [[m s k] pc c l d t o g]. intros R H. destruct ev; try discriminate R; cbn in *.
  - injection H as <-. auto.
  - injection H as <-. auto.
  - destruct pc; try discriminate H. injection H as <-. unfold gsetup. cbn. destruct o; auto.
  - destruct pc; try discriminate H. destruct (assoc id t) as [[| |]|]; try discriminate H. destruct (assoc id (go_ids c)) as [gg|]; [|discriminate H].
    injection H as <-. unfold genter. cbn. destruct o; cbn; auto.
    destruct (convert m gg) as [cur|]; cbn; auto. destruct (assoc id (loaded_ids l)) as [prev|]; cbn; auto.
    destruct (is_changed _ prev cur) as [[]|]; cbn; auto.
  - destruct pc; try discriminate H. destruct (assoc id t) as [[|i|]|]; try discriminate H. injection H as <-. unfold gcallback. destruct ok; cbn; auto.
Qed.

Lemma pc_run u8 st ev st' : grun_ev ev = true -> gstep u8 st ev = Some st' -> ev <> GSetup -> g_pc st' = g_pc st.
Proof.
  destruct st as [[m s k] pc c l d t o g]. intros R H E. destruct ev; try discriminate R; cbn in *.
  - injection H as <-. reflexivity.
  - injection H as <-. reflexivity.
  - congruence.
  - destruct pc; try discriminate H. destruct (assoc id t) as [[| |]|]; try discriminate H. destruct (assoc id (go_ids c)) as [gg|]; [|discriminate H].
    injection H as <-. unfold genter. cbn. destruct o; cbn; auto.
    destruct (convert m gg) as [cur|]; cbn; auto. destruct (assoc id (loaded_ids l)) as [prev|]; cbn; auto.
    destruct (is_changed _ prev cur) as [[]|]; cbn; auto.
  - destruct pc; try discriminate H. destruct (assoc id t) as [[|i|]|]; try discriminate H. injection H as <-. unfold gcallback. destruct ok; cbn; auto.
Qed.

(** Replacing a task that has not run keeps those that have. *)
Lemma should_stays (id : string) (t t0 : gtask) (l : list (string * gtask)) :
  NoDup (map fst l) -> assoc id l = Some t0 -> should t0 = false -> existsb (fun x => should (snd x)) l = true ->
  existsb (fun x => should (snd x)) (map (fun x => if String.eqb (fst x) id then (id, t) else x) l) = true.
Proof.
  intros N A S H. apply existsb_exists in H as ([k v] & I & K). apply existsb_exists. exists (k, v). split; [|exact K].
  apply in_map_iff. exists (k, v). split; [|exact I]. cbn [fst]. destruct (String.eqb k id) eqn:E; [|reflexivity].
  apply String.eqb_eq in E. subst k. rewrite (assoc_NoDup_In _ _ _ N I) in A. injection A as ->. cbn [snd] in K. congruence.
Qed.
(** A step after which there is nothing to write neither invoked a callback nor
    touched what an earlier one left. *)
Lemma clean_back u8 st ev st' : NoDup (map fst (g_tasks st)) -> grun_ev ev = true -> ev <> GSetup -> gstep u8 st ev = Some st' ->
  gdirty st' = false ->
  gdirty st = false /\ g_log st' = g_log st /\
  g_disk st' = match ev with GEdit f t => set_gmt (g_disk st) (upd (gd_mt (g_disk st)) f t) | _ => g_disk st end.
Proof.
  destruct st as [d pc c l dd t o g]. intros N R NS H D. destruct ev; try discriminate R; cbn in *.
  - injection H as <-. auto.
  - injection H as <-. auto.
  - congruence.
  - destruct pc; try discriminate H. destruct (assoc id t) as [[| |]|] eqn:A; try discriminate H. destruct (assoc id (go_ids c)) as [gg|]; [|discriminate H].
    injection H as <-.
    assert (K : forall t1, dd || existsb (fun x => should (snd x)) (map (fun x => if String.eqb (fst x) id then (id, t1) else x) t) = false ->
       dd || existsb (fun x => should (snd x)) t = false).
    { intros t1 H. apply orb_false_iff in H as [-> H]. cbn [orb]. destruct (existsb (fun x => should (snd x)) t) eqn:E; [|reflexivity].
      rewrite (should_stays id t1 TWait t N A eq_refl E) in H. discriminate H. }
    unfold genter, gdirty in *. cbn in *. destruct o; cbn in *; [|eauto].
    destruct (convert _ gg) as [cur|]; cbn in *; [|eauto]. destruct (assoc id (loaded_ids l)) as [prev|]; cbn in *; [|eauto].
    destruct (is_changed _ prev cur) as [[]|]; cbn in *; eauto.
  - destruct pc; try discriminate H. destruct (assoc id t) as [[|i|]|] eqn:A; try discriminate H. exfalso. injection H as <-.
    assert (K : existsb (fun x => should (snd x)) (map (fun x => if String.eqb (fst x) id then (id, TEnd true ok) else x) t) = true).
    { apply existsb_exists. exists (id, TEnd true ok). split; [|reflexivity]. apply in_map_iff. exists (id, TCall i). cbn [fst].
      rewrite String.eqb_refl. split; [reflexivity|]. exact (assoc_In _ _ _ A). }
    unfold gcallback, gdirty in D. destruct ok; cbn in D; rewrite K, orb_true_r in D; discriminate D.
Qed.

Section Again.
Context (bd : discipline) (u8 : string -> N) (m0 : times) (L : lawful bd).

(** A history at rest with the same disk and callbacks. *)
Definition HR (h : ghist) (st : gstate) : Prop :=
  exists evs h' s, ghistory Forward bd u8 m0 evs h' s /\ gh_next h' = gh_next h /\ gh_taint h' = gh_taint h /\
    g_disk s = g_disk st /\ g_log s = g_log st /\ g_pc s = GIdle /\ g_tasks s = [].
(** A history of a process that is running, with another state file. *)
Definition HS (X : option string) (h : ghist) (st : gstate) : Prop :=
  exists evs hs, ghistory Forward bd u8 m0 evs hs (sw X st) /\ gh_next hs = gh_next h.
Record BRest (h : ghist) (st : gstate) : Prop := {
  o_real : HR h st;
  o_ok : gobj_ok (g_cfg st) = true;
  o_follows : follows bd (g_cfg st);
  o_shadow : exists X evs hs, ghistory Forward bd u8 m0 evs hs (gwith_ok (sw X st) false) /\ gh_next hs = gh_next h /\
    (forall c, gh_taint hs = Some c -> g_cfg st = c) /\ bind X (gen_load_text u8) = g_load st }.
Definition at_rest (st : gstate) : Prop := g_pc st = GIdle /\ g_tasks st = [].
Definition BInv (h : ghist) (b : bstate) : Prop :=
  let st := b_st b in
  match b_phase b with
  | Out => at_rest st /\ HR h st
  | First => g_pc st <> GIdle /\ exists evs, ghistory Forward bd u8 m0 evs h st
  | Rest _ => at_rest st /\ BRest h st
  | Rep => g_pc st <> GIdle /\ (g_pc st = GBuilt -> g_dirty st = false) /\ (exists X, HS X h st) /\ (gdirty st = false -> HR h st)
  end.

Lemma hr_edit (h : ghist) (st : gstate) (f : string) (t : option N) : (forall v, t = Some v -> (gh_next h f <= v)%N) -> HR h st ->
  HR (GH (next_after (gh_next h) (f, t)) (gh_taint h)) (gwith_disk st (set_gmt (g_disk st) (upd (gd_mt (g_disk st)) f t))).
Proof.
  intros F (evs & h' & s & H & N & T & D & G & P & K).
  exists (evs ++ [GEdit f t]), (gtrack h' s (GEdit f t)), (gwith_disk s (set_gmt (g_disk s) (upd (gd_mt (g_disk s)) f t))).
  split; [|cbn [gtrack gh_next gh_taint]; gsp; rewrite N, T, D; auto 10].
  apply (ghistory_snoc Forward bd u8 m0 evs h' s (GEdit f t)); [exact H| |reflexivity]. cbn [gadmissible]. split.
  - intros id g tk _ _ A. rewrite K in A. discriminate A.
  - intros _. unfold fresh. rewrite N. exact F.
Qed.
Lemma hr_same (h h' : ghist) (st st' : gstate) : gh_next h' = gh_next h -> gh_taint h' = gh_taint h -> g_disk st' = g_disk st ->
  g_log st' = g_log st -> HR h st -> HR h' st'.
Proof.
  intros N T D G (evs & h1 & s & H & N1 & T1 & D1 & G1 & P). exists evs, h1, s. split; [exact H|]. repeat split; try congruence; apply P.
Qed.

Lemma hs_step (X : option string) (h : ghist) (st st' : gstate) (ev : gevent) :
  grun_ev ev = true -> gadmissible Forward bd h st ev -> gstep u8 st ev = Some st' -> HS X h st -> HS X (gtrack h st ev) st'.
Proof.
  intros R A S (evs & hs & H & N). exists (evs ++ [ev]), (gtrack hs (sw X st) ev). split.
  - apply (ghistory_snoc Forward bd u8 m0 evs hs (sw X st) ev); [exact H|exact (sw_admissible bd h hs X st ev R N A)|exact (sw_step u8 X st ev st' R S)].
  - exact (sw_next h hs X st ev R N).
Qed.

(** At the end of a run: the file is written, or there was nothing to write. *)
Lemma finish_sw (X : option string) (st st' : gstate) (w : wres) : gstep u8 st (GFinish w) = Some st' ->
  exists s, gstep u8 (sw X st) (GFinish w) = Some s /\ g_ok s = g_ok st' /\ gd_mt (g_disk s) = gd_mt (g_disk st') /\
    gd_made (g_disk s) = gd_made (g_disk st') /\ g_cfg s = g_cfg st' /\ g_log s = g_log st' /\ g_pc s = GIdle /\ g_tasks s = [] /\
    g_load st' = g_load st /\ at_rest st' /\ gwith_ok (sw X st') false = gkilled (sw X st) /\
    (writes_gstore st w = true -> s = st') /\
    (gdirty st = false -> g_disk st' = g_disk st /\ g_log st' = g_log st).
Proof.
  destruct st as [[m sx k] pc c l d t o g]. cbn [gstep g_pc]. destruct pc; try discriminate. cbn [g_tasks sw gwith_disk g_pc].
  destruct (forallb _ t); [|discriminate]. unfold gfinish, writes_gstore, gdirty, final_text, at_rest. cbn.
  set (b := d || existsb (fun x => should (snd x)) t). destruct b.
  - destruct (match final_ids m (go_ids c) t with Some ids => gen_store_text (GS "" ids) | None => None end) as [txt|].
    + destruct w as [| |n rep]; [intros [= <-]; eexists; split; [reflexivity|]; cbn; repeat split; auto; try discriminate..|].
      destruct (short n txt) as [t'|]; [|discriminate]. destruct rep; intros [= <-]; eexists; (split; [reflexivity|]); cbn; repeat split; auto; discriminate.
    + destruct w; try discriminate. intros [= <-]. eexists. split; [reflexivity|]. cbn. repeat split; auto; discriminate.
  - destruct w; try discriminate. intros [= <-]. eexists. split; [reflexivity|]. cbn. repeat split; auto; discriminate.
Qed.

Lemma finish_taint (h hs : ghist) (X : option string) (st : gstate) (w : wres) : writes_gstore st w = true ->
  gh_taint (gtrack hs (sw X st) (GFinish w)) = gh_taint (gtrack h st (GFinish w)).
Proof.
  intros W. cbn [gtrack gh_taint]. rewrite W. replace (writes_gstore (sw X st) w) with (writes_gstore st w) by reflexivity. rewrite W. reflexivity.
Qed.

(** What a run that has come to its end leaves for the next run of the process. *)
Lemma rest_of (h hs : ghist) (X : option string) (evs : list gevent) (st st' : gstate) (w : wres) :
  ghistory Forward bd u8 m0 evs hs (sw X st) -> gh_next hs = gh_next h -> gstep u8 st (GFinish w) = Some st' ->
  HR (gtrack h st (GFinish w)) st' -> BRest (gtrack h st (GFinish w)) st'.
Proof using L.
  intros H N S R. pose proof (history_inv _ _ _ _ _ _ _ L H) as V.
  destruct (finish_sw X st st' w S) as (s & S1 & S2 & S3 & S4 & S5 & S6 & S7 & S8 & S9 & S10 & S11 & S12 & S13).
  destruct (finish_keeps _ _ _ _ S) as (P & _ & _ & _ & _ & C & _).
  assert (NI : g_pc (sw X st) <> GIdle) by (unfold sw; gsp; congruence).
  destruct (gv_cfg _ _ _ _ _ V NI) as (V1 & V2 & V3). pose proof (gv_load _ _ _ _ _ V NI) as V4.
  unfold sw in V1, V2, V3, V4. gsp. constructor; [exact R|rewrite C; exact V1|rewrite C; exact V2|].
  exists X, (evs ++ [GCrash]), hs. split; [|split; [exact N|split; [rewrite C; exact V3|rewrite S9, V4; reflexivity]]].
  rewrite S11. apply (ghistory_snoc Forward bd u8 m0 evs hs (sw X st) GCrash).
  - exact H.
  - left. reflexivity.
  - cbn [gstep]. unfold sw. gsp. rewrite P. reflexivity.
Qed.

Theorem careful_BInv (evs : list bevent) (h : ghist) (b : bstate) :
  bsession Forward bd u8 m0 bcareful evs h b -> BInv h b.
Proof using L.
  induction 1 as [|evs h b ev b' H IH A CR S].
  - split; [split; reflexivity|]. exists [], (ghist0 m0), (ginit m0). split; [apply ghistory_nil|]. repeat split; reflexivity.
  - unfold BInv in *. destruct b as [st ph]. cbn [b_st b_phase] in *. destruct ev as [x| |]; cbn [bstep b_st b_phase] in S.
    + cbn [badmissible b_st] in A. cbn [btrack b_st]. destruct (gstep u8 st x) as [st'|] eqn:G; [|discriminate S].
      destruct (grun_ev x) eqn:R.
      * (* steps of a run and of the environment *)
        assert (S' : b' = BS st' (match x with GSetup => match g_pc st' with GIdle => Out | _ => ph end | _ => ph end)).
        { destruct x; try discriminate R; injection S as <-; reflexivity. }
        subst b'. cbn [b_st b_phase]. clear S.
        destruct ph.
        -- destruct IH as [[I1 I2] I3]. destruct x; try discriminate R; cbn [gstep] in G; rewrite ?I1 in G; try discriminate G.
           ++ injection G as <-. destruct A as [_ A]. split; [split; [exact I1|exact I2]|]. exact (hr_edit h st f t (A eq_refl) I3).
           ++ injection G as <-. split; [split; [exact I1|exact I2]|]. exact (hr_same h _ st _ eq_refl eq_refl eq_refl eq_refl I3).
        -- destruct IH as [I1 (ev1 & I2)]. pose proof (ghistory_snoc Forward bd u8 m0 ev1 h st x st' I2 A G) as I2'.
           assert (NS : x <> GSetup -> g_pc st' <> GIdle) by (intros NS; rewrite (pc_run u8 st x st' R G NS); exact I1).
           destruct x; try discriminate R; try (split; [apply NS; discriminate|eexists; exact I2']).
           destruct (g_pc st') eqn:P'; [|split; [discriminate|eexists; exact I2']|split; [discriminate|eexists; exact I2']].
           cbn [gstep] in G. destruct (g_pc st); try discriminate G. injection G as <-. unfold gsetup in *.
           destruct (negb (g_ok st)); [|discriminate P']. split; [split; reflexivity|]. eexists _, _, _. split; [exact I2'|]. repeat split.
        -- destruct IH as [[I1 I2] I3]. destruct x; try discriminate R; cbn [gstep] in G; rewrite ?I1 in G; try discriminate G.
           ++ injection G as <-. destruct A as [A0 A]. split; [split; [exact I1|exact I2]|]. destruct I3 as [J1 J2 J3 (X & e1 & hs & J4 & J5 & J6 & J7)].
              constructor; [exact (hr_edit h st f t (A eq_refl) J1)|exact J2|exact J3|].
              exists X, (e1 ++ [GEdit f t]), (gtrack hs (gwith_ok (sw X st) false) (GEdit f t)). split; [|split; [|split; [exact J6|exact J7]]].
              ** apply (ghistory_snoc Forward bd u8 m0 e1 hs (gwith_ok (sw X st) false) (GEdit f t)); [exact J4| |reflexivity].
                 split; [exact A0|]. intros _. unfold fresh. rewrite J5. exact (A eq_refl).
              ** cbn [gtrack gh_next]. rewrite J5. reflexivity.
           ++ injection G as <-. split; [split; [exact I1|exact I2]|]. destruct I3 as [J1 J2 J3 (X & e1 & hs & J4 & J5 & J6 & J7)].
              constructor; [exact (hr_same h _ st _ eq_refl eq_refl eq_refl eq_refl J1)|exact J2|exact J3|].
              exists X, e1, hs. split; [exact J4|]. split; [exact J5|]. split; [exact J6|exact J7].
        -- destruct IH as (I1 & I2 & (X & I3) & I4).
           assert (ND : NoDup (map fst (g_tasks st))).
           { destruct I3 as (e1 & hs & I3 & _). pose proof (history_inv _ _ _ _ _ _ _ L I3) as V. pose proof (gv_tasks _ _ _ _ _ V) as K.
             unfold sw in K. gsp. rewrite K. destruct (g_pc st) eqn:P; [constructor|constructor|].
             apply gobj_ok_NoDup. apply (proj1 (gv_cfg _ _ _ _ _ V ltac:(unfold sw; gsp; congruence))). }
           pose proof (hs_step X h st st' x R A G I3) as I3'.
           destruct (match x with GSetup => true | _ => false end) eqn:Sx.
           { destruct x; try discriminate Sx. cbn [gstep] in G. destruct (g_pc st) eqn:P; try discriminate G. injection G as <-.
             assert (HH : HR h st).
             { apply I4. unfold gdirty. rewrite (I2 eq_refl). destruct I3 as (e1 & hs & I3 & _). pose proof (history_inv _ _ _ _ _ _ _ L I3) as V.
               pose proof (gv_tasks _ _ _ _ _ V) as K. unfold sw in K. gsp. rewrite P in K. destruct (g_tasks st); [reflexivity|discriminate K]. }
             cbn [gtrack]. unfold gsetup in *. destruct (negb (g_ok st)).
             - gsp. split; [split; reflexivity|]. exact (hr_same h h st _ eq_refl eq_refl eq_refl eq_refl HH).
             - gsp. split; [discriminate|]. split; [discriminate|]. split; [exists X; exact I3'|]. intros _. exact (hr_same h h st _ eq_refl eq_refl eq_refl eq_refl HH). }
           assert (NS : x <> GSetup) by (intros ->; discriminate Sx).
           assert (Eph : match x with GSetup => match g_pc st' with GIdle => Out | _ => Rep end | _ => Rep end = Rep) by (destruct x; try reflexivity; discriminate Sx).
           rewrite Eph. pose proof (pc_run u8 st x st' R G NS) as P'. split; [congruence|]. split; [|split; [exists X; exact I3'|]].
           ++ intros Z. rewrite P' in Z. destruct x; try discriminate R; cbn [gstep] in G; try (injection G as <-; exact (I2 Z)); try congruence.
              ** rewrite Z in G. discriminate G.
              ** rewrite Z in G. discriminate G.
           ++ intros D. destruct (clean_back u8 st x st' ND R NS G D) as (D1 & D2 & D3). specialize (I4 D1).
              destruct x; try discriminate R; try congruence.
              ** cbn [gstep] in G. injection G as <-. destruct A as [_ A]. exact (hr_edit h st f t (A eq_refl) I4).
              ** exact (hr_same h _ st _ eq_refl eq_refl D3 D2 I4).
              ** exact (hr_same h _ st _ eq_refl eq_refl D3 D2 I4).
              ** exfalso. cbn [gstep] in G. destruct (g_pc st); try discriminate G. destruct (assoc id (g_tasks st)) as [[|i|]|]; try discriminate G.
                 injection G as G. assert (LL : length (g_log st') = length (g_log st)) by (rewrite D2; reflexivity).
                 rewrite <- G in LL. unfold gcallback in LL. destruct ok; gsp; rewrite app_length in LL; cbn in LL; lia.
      * destruct x; try discriminate R.
        -- (* GCrash *)
           injection S as <-. cbn [b_st b_phase gtrack]. destruct ph.
           ++ destruct IH as [[I1 I2] _]. cbn [gstep] in G. rewrite I1 in G. discriminate G.
           ++ destruct IH as [I1 (e1 & I2)]. pose proof (ghistory_snoc Forward bd u8 m0 e1 h st GCrash st' I2 A G) as I2'.
              cbn [gstep] in G. destruct (g_pc st); try discriminate G; injection G as <-; (split; [split; reflexivity|]);
                eexists _, _, _; (split; [exact I2'|]); repeat split.
           ++ destruct IH as [[I1 I2] _]. cbn [gstep] in G. rewrite I1 in G. discriminate G.
           ++ destruct IH as (I1 & I2 & I3 & I4). specialize (I4 CR). cbn [gstep] in G. destruct (g_pc st); try discriminate G; injection G as <-;
                (split; [split; reflexivity|]); exact (hr_same h h st _ eq_refl eq_refl eq_refl eq_refl I4).
        -- (* GDropStore *)
           injection S as <-. cbn [b_st b_phase gtrack]. cbn [gadmissible] in A. cbn [gstep] in G. injection G as <-.
           assert (DR : HR h st -> HR (GH (gh_next h) None) (gwith_disk st (set_gstore (g_disk st) None))).
           { intros (e1 & h1 & s & K1 & K2 & K3 & K4 & K5 & K6 & K7).
             exists (e1 ++ [GDropStore]), (gtrack h1 s GDropStore), (gwith_disk s (set_gstore (g_disk s) None)). split.
             - apply (ghistory_snoc Forward bd u8 m0 e1 h1 s GDropStore); [exact K1|exact K6|reflexivity].
             - gsp. cbn [gtrack gh_next gh_taint]. rewrite K4. auto 10. }
           destruct ph.
           ++ destruct IH as [[I1 I2] I3]. split; [split; [exact I1|exact I2]|exact (DR I3)].
           ++ exfalso. exact (proj1 IH A).
           ++ destruct IH as [[I1 I2] [J1 J2 J3 J4]]. split; [split; [exact I1|exact I2]|]. constructor; [exact (DR J1)|exact J2|exact J3|exact J4].
           ++ exfalso. exact (proj1 IH A).
        -- (* GStart *)
           destruct ph; try discriminate S. injection S as <-. cbn [b_st b_phase gtrack]. destruct IH as [[I1 I2] (e1 & h1 & s & K1 & K2 & K3 & K4 & K5 & K6 & K7)].
           cbn [gstep] in G. rewrite I1 in G. unfold gstart in G. destruct (gobj_ok o) eqn:Go; [|discriminate G]. injection G as <-. gsp. split; [discriminate|].
           exists (e1 ++ [GStart o]). assert (Eh : h1 = h) by (destruct h1, h; cbn in *; congruence). subst h1.
           apply (ghistory_snoc Forward bd u8 m0 e1 h s (GStart o)); [exact K1|exact A|].
           cbn [gstep]. rewrite K6. unfold gstart. rewrite Go, K4, K5. reflexivity.
        -- (* GFinish *)
           injection S as <-. cbn [b_st b_phase]. destruct (finish_keeps _ _ _ _ G) as (P & _).
           destruct ph.
           ++ destruct IH as [[I1 I2] _]. congruence.
           ++ destruct IH as [I1 (e1 & I2)]. pose proof (ghistory_snoc Forward bd u8 m0 e1 h st (GFinish w) st' I2 A G) as I2'.
              destruct (finish_sw (gd_store (g_disk st)) st st' w G) as (s & _ & _ & _ & _ & _ & _ & _ & _ & _ & AR & _).
              assert (HH : HR (gtrack h st (GFinish w)) st').
              { eexists _, _, _. split; [exact I2'|]. repeat split; apply AR. }
              destruct (g_ok st'); [|split; [exact AR|exact HH]]. split; [exact AR|].
              apply (rest_of h h (gd_store (g_disk st)) e1 st st' w); [rewrite sw_self; exact I2|reflexivity|exact G|exact HH].
           ++ destruct IH as [[I1 I2] _]. congruence.
           ++ destruct IH as (I1 & I2 & (X & e1 & hs & I3 & I3n) & I4).
              destruct (finish_sw X st st' w G) as (s & S1 & S2 & S3 & S4 & S5 & S6 & S7 & S8 & S9 & AR & S11 & S12 & S13).
              assert (HH : HR (gtrack h st (GFinish w)) st').
              { destruct (gdirty st) eqn:D.
                - specialize (CR D). cbn [b_st] in CR. specialize (S12 CR). subst s.
                  exists (e1 ++ [GFinish w]), (gtrack hs (sw X st) (GFinish w)), st'. split; [|split; [exact I3n|]].
                  + apply (ghistory_snoc Forward bd u8 m0 e1 hs (sw X st) (GFinish w)); [exact I3|left; reflexivity|exact S1].
                  + split; [exact (finish_taint h hs X st w CR)|]. repeat split; apply AR.
                - destruct (S13 eq_refl) as [D1 D2]. apply (hr_same h _ st); [reflexivity| |exact D1|exact D2|exact (I4 eq_refl)].
                  cbn [gtrack gh_taint]. unfold writes_gstore. rewrite D. reflexivity. }
              destruct (g_ok st'); [|split; [exact AR|exact HH]]. split; [exact AR|].
              exact (rest_of h hs X e1 st st' w I3 I3n G HH).
        -- (* GCrashFinish *)
           injection S as <-. cbn [b_st b_phase gtrack]. destruct ph.
           ++ destruct IH as [[I1 I2] _]. cbn [gstep] in G. rewrite I1 in G. discriminate G.
           ++ destruct IH as [I1 (e1 & I2)]. pose proof (ghistory_snoc Forward bd u8 m0 e1 h st (GCrashFinish n) st' I2 A G) as I2'.
              cbn [gstep] in G. destruct (g_pc st); try discriminate G. destruct (_ && _); [|discriminate G].
              destruct (bind (final_text st) (short n)) as [t'|]; [|discriminate G]. injection G as <-. split; [split; reflexivity|].
              eexists _, _, _. split; [exact I2'|]. repeat split.
           ++ destruct IH as [[I1 I2] _]. cbn [gstep] in G. rewrite I1 in G. discriminate G.
           ++ destruct IH as (I1 & I2 & (X & e1 & hs & I3 & I3n) & I4).
              assert (G' : gstep u8 (sw X st) (GCrashFinish n) = Some st').
              { cbn [gstep] in *. change (g_pc (sw X st)) with (g_pc st). destruct (g_pc st); try discriminate G.
                change (g_tasks (sw X st)) with (g_tasks st). change (gdirty (sw X st)) with (gdirty st). destruct (_ && _); [|discriminate G].
                change (final_text (sw X st)) with (final_text st). destruct (bind (final_text st) (short n)) as [t'|]; [|discriminate G].
                rewrite <- G. reflexivity. }
              pose proof (ghistory_snoc Forward bd u8 m0 e1 hs (sw X st) (GCrashFinish n) st' I3 Logic.I G') as I2'.
              assert (AR : at_rest st').
              { cbn [gstep] in G. destruct (g_pc st); try discriminate G. destruct (_ && _); [|discriminate G].
                destruct (bind (final_text st) (short n)) as [t'|]; [|discriminate G]. injection G as <-. split; reflexivity. }
              split; [exact AR|]. eexists _, _, _. split; [exact I2'|]. split; [exact I3n|]. split; [reflexivity|]. repeat split; apply AR.
    + (* BAgain *)
      destruct ph; try discriminate S. destruct (g_ok st) eqn:O; [|discriminate S]. injection S as <-. cbn [b_st b_phase btrack]. gsp.
      destruct IH as [[I1 I2] [J1 J2 J3 (X & e1 & hs & J4 & J5 & J6 & J7)]].
      split; [discriminate|]. split; [reflexivity|]. split.
      * exists X, (e1 ++ [GStart (g_cfg st)]), hs. split; [|exact J5].
        apply (ghistory_snoc Forward bd u8 m0 e1 hs (gwith_ok (sw X st) false) (GStart (g_cfg st))); [exact J4| |].
        -- split; [exact J3|exact J6].
        -- cbn [gstep]. unfold sw. gsp. rewrite I1. unfold gstart. rewrite J2. unfold gstored. gsp. rewrite J7. reflexivity.
      * intros _. exact (hr_same h h st _ eq_refl eq_refl eq_refl eq_refl J1).
    + destruct ph; try discriminate S. injection S as <-. cbn [b_st b_phase btrack]. destruct IH as [I1 I2]. split; [exact I1|exact (o_real _ _ I2)].
Qed.

Theorem gen_again_current (evs : list bevent) (w : wres) (h : ghist) (b : bstate) :
  bsession Forward bd u8 m0 bcareful (evs ++ [BOnce (GFinish w)]) h b -> g_ok (b_st b) = true ->
  forall id g, In (id, g) (go_ids (g_cfg (b_st b))) -> id_current bd (gd_mt (g_disk (b_st b))) (g_disk (b_st b)) id g.
Proof using L.
  intros H O id g Hi. inversion H as [K|evs1 h1 b1 ev b' H1 A CR S K Eh Eb]; [destruct evs; discriminate K|].
  apply app_inj_tail in K as [-> ->]. subst b'. pose proof (careful_BInv _ _ _ H1) as V. destruct b1 as [st ph].
  cbn [bstep b_st b_phase] in S. destruct (gstep u8 st (GFinish w)) as [st'|] eqn:G; [|discriminate S]. injection S as <-. cbn [b_st b_phase] in *.
  cbn [badmissible b_st] in A. destruct (finish_keeps _ _ _ _ G) as (P & _). unfold BInv in V. cbn [b_st b_phase] in V. destruct ph.
  - destruct V as [[V _] _]. congruence.
  - destruct V as [_ (e1 & V)]. exact (run_current Forward bd u8 m0 e1 w _ st' L (ghistory_snoc Forward bd u8 m0 e1 h1 st (GFinish w) st' V A G) O id g Hi).
  - destruct V as [[V _] _]. congruence.
  - destruct V as (_ & _ & (X & e1 & hs & I3 & I3n) & _).
    destruct (finish_sw X st st' w G) as (s & S1 & S2 & S3 & S4 & S5 & _).
    pose proof (ghistory_snoc Forward bd u8 m0 e1 hs (sw X st) (GFinish w) s I3 (or_introl eq_refl) S1) as I4.
    assert (C := run_current Forward bd u8 m0 e1 w _ s L I4 ltac:(congruence) id g ltac:(rewrite S5; exact Hi)).
    unfold id_current in *. rewrite S3, S4 in C. exact C.
Qed.
End Again.
