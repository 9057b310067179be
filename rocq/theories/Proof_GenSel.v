(** Generator: which ids run, and what happens to failed and skipped ones. *)
From Verif Require Import Prelude Proof_Prelude Model_Path Model_Json Model_Schema Spec_Json Proof_Dec
  Proof_Schema Model_Command Model_Target Spec_Target Proof_TargetBase Model_Gen Spec_Gen Proof_Gen Proof_GenInv
  Proof_GenMain Proof_GenRuns.

Lemma unchanged_iff (mt : times) (g : gid) (i cur : idinfo) :
  convert mt g = Some cur -> (is_changed (gi_handler g) i cur = Some false <-> id_unchanged mt i g).
Proof.
  intros C. destruct (convert_spec _ _ _ C) as (C1 & C2 & C3 & C4). rewrite is_changed_false. unfold id_unchanged.
  change (recorded_now mt (inputs_of g) (ii_inputs i)) with (Hashed mt (inputs_of g) (ii_inputs i)).
  rewrite (Hashed_eq_iff mt (inputs_of g) (ii_inputs i) (ii_inputs cur) C1), C2, C3. unfold blob_of.
  destruct (gi_handler g) as [h|].
  - split.
    + intros (A & B & D). specialize (D h eq_refl). apply check_changed_false in D as (D1 & D2 & D3). auto.
    + intros (A & B & D1 & D2). split; [exact A|]. split; [exact B|]. intros h' [= <-]. apply check_changed_false. auto.
  - split.
    + intros (A & B & _). auto.
    + intros (A & B & _). split; [exact A|]. split; [exact B|]. discriminate.
Qed.
Lemma unchanged_cong (mt mt' : times) (g : gid) (i : idinfo) :
  (forall f, In f (inputs_of g) -> mt' f = mt f) -> id_unchanged mt i g -> id_unchanged mt' i g.
Proof.
  intros E (A & B & C). split; [|split; assumption]. unfold recorded_now in *.
  revert A. generalize (ii_inputs i). generalize (inputs_of g) E. clear. intros l E r A.
  induction A as [|f x l r [A1 (t & A2 & A3)] A IH]; constructor.
  - split; [exact A1|]. exists t. rewrite E; [auto|left; reflexivity].
  - apply IH. intros f' F. apply E. right. exact F.
Qed.

(** [needs]: not recorded as it is now. *)
Definition needs (load : option gschema) (mt : times) (id : string) (g : gid) : Prop :=
  ~ exists i, assoc id (loaded_ids load) = Some i /\ id_unchanged mt i g.

(** [triggers]: the comparison asks for the callback. *)
Definition triggers (load : option gschema) (mt : times) (id : string) (g : gid) : Prop :=
  exists cur, convert mt g = Some cur /\
    (assoc id (loaded_ids load) = None \/
     exists i, assoc id (loaded_ids load) = Some i /\ is_changed (gi_handler g) i cur = Some true).
Lemma triggers_needs load mt id g : triggers load mt id g -> needs load mt id g.
Proof.
  intros (cur & C & [A|(i & A & B)]) (i' & A' & U); [congruence|]. assert (i' = i) as -> by congruence.
  apply (unchanged_iff mt g i cur C) in U. congruence.
Qed.
Record sel (o : gobj) (load : option gschema) (mt : times) (log : list gcall) (evs : list gevent) (st : gstate) : Prop := {
  sl_log : exists l, g_log st = log ++ l /\ map gc_id l = called evs /\ Forall (given o) l;
  sl_cur : forall id g i, assoc id (go_ids o) = Some g -> assoc id (g_tasks st) = Some (TCall i) -> convert mt g = Some i;
  sl_pc : g_pc st = GTasks;
  sl_cfg : g_cfg st = o;
  sl_load : g_load st = load;
  sl_mt : forall id g f, In (id, g) (go_ids o) -> In f (inputs_of g) -> gd_mt (g_disk st) f = mt f;
  sl_keys : map fst (g_tasks st) = map fst (go_ids o);
  sl_nodup : NoDup (called evs);
  sl_called : forall id, In id (called evs) -> In id (map fst (go_ids o));
  sl_build : g_dirty st = compute_build load o;
  sl_task : forall id g t, assoc id (go_ids o) = Some g -> assoc id (g_tasks st) = Some t ->
    match t with
    | TWait => ~ In id (called evs)
    | TCall _ => ~ In id (called evs) /\ triggers load mt id g
    | TEnd true b => (exists w, In (GCall id b w) evs) /\ triggers load mt id g /\ (b = false -> g_ok st = false)
    | TEnd false true => ~ In id (called evs) /\ ~ needs load mt id g
    | TEnd false false => g_ok st = false
    end }.

Lemma called_app a b : called (a ++ b) = called a ++ called b.
Proof. unfold called. apply flat_map_app. Qed.
Lemma called_In evs id b w : In (GCall id b w) evs -> In id (called evs).
Proof. intros H. apply in_flat_map. exists (GCall id b w). split; [exact H|left; reflexivity]. Qed.

Lemma sel_enter u8 o load mt log evs st id st' :
  gobj_ok o = true -> sel o load mt log evs st -> gstep u8 st (GEnter id) = Some st' ->
  sel o load mt log (evs ++ [GEnter id]) st'.
Proof.
  intros Go [SL SC S1 S2 S3 S4 S5 S6 S7 S8 S9] H. cbn [gstep] in H. rewrite S1 in H.
  destruct (assoc id (g_tasks st)) as [[]|] eqn:W; try discriminate. rewrite S2 in H.
  destruct (assoc id (go_ids o)) as [g|] eqn:G; try discriminate. injection H as <-.
  assert (Cl : called (evs ++ [GEnter id]) = called evs) by (rewrite called_app; cbn; apply app_nil_r).
  assert (Cv : convert (gd_mt (g_disk st)) g = convert mt g).
  { apply convert_cong. intros f Hf. exact (S4 id g f (assoc_In _ _ _ G) Hf). }
  assert (Nc : ~ In id (called evs)) by exact (S9 id g TWait G W).
  assert (Gen : forall t ok, (ok = g_ok st \/ ok = false) ->
    match t with
    | TWait => True
    | TCall i => triggers load mt id g /\ convert mt g = Some i
    | TEnd true b => False
    | TEnd false true => ~ needs load mt id g
    | TEnd false false => ok = false
    end -> sel o load mt log (evs ++ [GEnter id]) (gwith_ok (set_task st id t) ok)).
  { intros t ok Hok Ht. constructor; gsp; try rewrite Cl; try assumption.
    - intros id' g' i' G' T'. rewrite assoc_set_task in T'. destruct (String.eqb id' id) eqn:E; [|exact (SC id' g' i' G' T')].
      apply String.eqb_eq in E as ->. rewrite W in T'. injection T' as ->. assert (g' = g) as -> by congruence. apply Ht.
    - rewrite keys_set_task. exact S5.
    - intros id' g' t' G' T'. rewrite assoc_set_task in T'. destruct (String.eqb id' id) eqn:E.
      + apply String.eqb_eq in E as ->. rewrite W in T'. injection T' as <-. assert (g' = g) as -> by congruence.
        destruct t as [|i|[] []]; cbn beta iota in *; try contradiction; try (split; [exact Nc|apply Ht]); auto.
      + specialize (S9 id' g' t' G' T'). destruct t' as [|i|[] []]; try exact S9.
        * destruct S9 as ((w & A) & B & C). split; [exists w; apply in_app_iff; left; exact A|]. split; [exact B|]. discriminate.
        * destruct S9 as ((w & A) & B & C). split; [exists w; apply in_app_iff; left; exact A|]. split; [exact B|].
          intros _. specialize (C eq_refl). destruct Hok as [-> | ->]; [exact C|reflexivity].
        * destruct Hok as [-> | ->]; [exact S9|reflexivity]. }
  assert (Same : forall t, set_task st id t = gwith_ok (set_task st id t) (g_ok st)) by (intros t; destruct st; reflexivity).
  unfold genter. destruct (g_ok st) eqn:Ok; cbn [negb].
  - rewrite Cv, S3. destruct (convert mt g) as [cur|] eqn:C.
    + destruct (assoc id (loaded_ids load)) as [prev|] eqn:A.
      * destruct (is_changed (gi_handler g) prev cur) as [[]|] eqn:I.
        -- rewrite Same. apply Gen; [auto|]. split; [|reflexivity]. exists cur. split; [exact C|]. right. eauto.
        -- rewrite Same. apply Gen; [auto|]. intros N. apply N. exists prev. split; [exact A|].
           apply (unchanged_iff mt g prev cur C). exact I.
        -- apply Gen; auto.
      * rewrite Same. apply Gen; [auto|]. split; [|reflexivity]. exists cur. split; [exact C|]. left. exact A.
    + apply Gen; auto.
  - rewrite Same. apply Gen; auto.
Qed.

Lemma sel_call u8 o load mt log evs st id b w st' :
  gobj_ok o = true -> sel o load mt log evs st -> subtask o (GCall id b w) -> gstep u8 st (GCall id b w) = Some st' ->
  sel o load mt log (evs ++ [GCall id b w]) st'.
Proof.
  intros Go [SL SC S1 S2 S3 S4 S5 S6 S7 S8 S9] U H. cbn [gstep] in H. rewrite S1 in H.
  destruct (assoc id (g_tasks st)) as [[|i|]|] eqn:W; try discriminate. injection H as <-.
  assert (K : exists g, assoc id (go_ids o) = Some g). { apply assoc_key. rewrite <- S5. apply assoc_key. eauto. }
  destruct K as (g & G). destruct (S9 id g _ G W) as (Nc & Nd).
  assert (Cl : called (evs ++ [GCall id b w]) = called evs ++ [id]) by (rewrite called_app; reflexivity).
  cbn [subtask] in U. unfold gcallback.
  set (d := set_made _ _ _). set (a := GA _ _ _ _ _).
  set (st1 := glogged _ _).
  assert (X : sel o load mt log (evs ++ [GCall id b w]) (gwith_ok st1 (if b then g_ok st else false))).
  { constructor; subst st1 d; gsp; try rewrite Cl; try assumption.
    - destruct SL as (l & L1 & L2 & L3). exists (l ++ [GC id a b]). rewrite L1, app_assoc. split; [reflexivity|].
      rewrite map_app, L2. split; [reflexivity|]. apply Forall_app. split; [exact L3|]. constructor; [|constructor].
      destruct (convert_spec _ _ _ (SC id g i G W)) as (C1 & C2 & C3 & C4).
      exists g. unfold a. cbn [gc_id gc_art ga_args ga_inputs ga_outputs ga_blob]. rewrite S2. split; [exact G|]. split; [reflexivity|].
      split; [exact (Hashed_paths _ _ _ C1)|]. split; [exact C2|exact C3].
    - intros id' g' i' G' T'. rewrite assoc_set_task in T'. destruct (String.eqb id' id) eqn:E; [|exact (SC id' g' i' G' T')].
      apply String.eqb_eq in E as ->. rewrite W in T'. discriminate.
    - intros id' g' f I Hf. rewrite write_all_same; [exact (S4 id' g' f I Hf)|]. intros t Ht. exact (U f t id' g' Ht I Hf).
    - rewrite keys_set_task. exact S5.
    - apply (Permutation_NoDup (l := id :: called evs)); [apply Permutation_cons_append|]. constructor; assumption.
    - intros id' I. apply in_app_iff in I as [I|[<-|[]]]; [exact (S7 id' I)|]. apply assoc_key. eauto.
    - intros id' g' t' G' T'. rewrite assoc_set_task in T'. destruct (String.eqb id' id) eqn:E.
      + apply String.eqb_eq in E as ->. rewrite W in T'. injection T' as <-. assert (g' = g) as -> by congruence.
        split; [exists w; apply in_app_iff; right; left; reflexivity|]. split; [exact Nd|]. intros ->. reflexivity.
      + assert (Ne : id' <> id) by (intros ->; rewrite String.eqb_refl in E; discriminate).
        assert (NI : forall P : Prop, ~ In id' (called evs) -> ~ In id' (called evs ++ [id])).
        { intros _ A B. apply in_app_iff in B as [B|[B|[]]]; [exact (A B)|congruence]. }
        specialize (S9 id' g' t' G' T'). destruct t' as [|j|[] []]; cbn beta iota in *.
        * apply NI; [exact True|exact S9].
        * split; [apply NI; [exact True|apply S9]|apply S9].
        * destruct S9 as ((w0 & A) & B & C). split; [exists w0; apply in_app_iff; left; exact A|]. split; [exact B|]. discriminate.
        * destruct S9 as ((w0 & A) & B & C). split; [exists w0; apply in_app_iff; left; exact A|]. split; [exact B|].
          intros _. rewrite (C eq_refl). destruct b; reflexivity.
        * split; [apply NI; [exact True|apply S9]|apply S9].
        * rewrite S9. destruct b; reflexivity. }
  destruct b; [|exact X]. replace st1 with (gwith_ok st1 (g_ok st)); [exact X|]. reflexivity.
Qed.

Lemma sel_fail o load mt log evs st :
  sel o load mt log evs st -> sel o load mt log (evs ++ [GFail]) (gwith_ok st false).
Proof.
  intros [SL SC S1 S2 S3 S4 S5 S6 S7 S8 S9].
  assert (Cl : called (evs ++ [GFail]) = called evs) by (rewrite called_app; cbn; apply app_nil_r).
  constructor; gsp; try rewrite Cl; try assumption. intros id g t G T. specialize (S9 id g t G T).
  destruct t as [|i|[] []]; try exact S9; try reflexivity;
    destruct S9 as ((w & A) & B & C); (split; [exists w; apply in_app_iff; left; exact A|]); split; auto.
Qed.

Lemma sel_exec u8 o load mt log evs : forall evs0 st st',
  gobj_ok o = true -> sel o load mt log evs0 st -> Forall (subtask o) evs -> gexec u8 st evs = Some st' ->
  sel o load mt log (evs0 ++ evs) st'.
Proof.
  induction evs as [|ev evs IH]; intros evs0 st st' Go S F H; cbn [gexec] in H.
  - injection H as <-. rewrite app_nil_r. exact S.
  - apply Forall_cons_iff in F as [F1 F2]. destruct (gstep u8 st ev) as [st1|] eqn:E; [|discriminate].
    replace (evs0 ++ ev :: evs) with ((evs0 ++ [ev]) ++ evs) by (rewrite <- app_assoc; reflexivity).
    apply (IH _ st1 st' Go); [|exact F2|exact H].
    destruct ev as [f t| | | |o'| |id|id ok w|w|n]; try contradiction.
    + cbn [gstep] in E. injection E as <-. apply sel_fail. exact S.
    + exact (sel_enter _ _ _ _ _ _ _ _ _ Go S E).
    + exact (sel_call _ _ _ _ _ _ _ _ _ _ _ Go S F1 E).
Qed.

Lemma sel_start u8 st o st1 :
  g_pc st = GIdle -> gexec u8 st [GStart o; GSetup] = Some st1 ->
  gobj_ok o = true /\ sel o (gstored u8 (g_disk st)) (gd_mt (g_disk st)) (g_log st) [] st1 /\ g_disk st1 = g_disk st.
Proof.
  intros P. cbn [gexec gstep]. rewrite P. unfold gstart. destruct (gobj_ok o) eqn:Go; [|discriminate]. cbn [g_pc].
  unfold gsetup. gsp. cbn [negb]. intros [= <-]. split; [reflexivity|]. split; [|reflexivity].
  constructor; gsp; auto; try reflexivity.
  - exists []. rewrite app_nil_r. auto.
  - intros id g i _ T. apply assoc_In in T. apply in_map_iff in T as (y & Y & _). discriminate.
  - rewrite map_map. reflexivity.
  - constructor.
  - intros id [].
  - intros id g t _ T. apply assoc_In in T. apply in_map_iff in T as (y & Y & _). injection Y as _ <-. intros [].
Qed.

Lemma start_setup u8 st o evs st1 :
  g_pc st = GIdle -> Forall (subtask o) evs -> gexec u8 st (GStart o :: GSetup :: evs) = Some st1 ->
  gobj_ok o = true /\ sel o (gstored u8 (g_disk st)) (gd_mt (g_disk st)) (g_log st) evs st1.
Proof.
  intros P F H. change (GStart o :: GSetup :: evs) with ([GStart o; GSetup] ++ evs) in H. rewrite gexec_app in H.
  destruct (gexec u8 st [GStart o; GSetup]) as [st0|] eqn:E; [|discriminate].
  destruct (sel_start _ _ _ _ P E) as (Go & S & _). split; [exact Go|].
  exact (sel_exec u8 o _ _ _ evs [] st0 st1 Go S F H).
Qed.

Lemma needs_up_to_date u8 d id g : needs (gstored u8 d) (gd_mt d) id g <-> ~ up_to_date u8 d id g.
Proof.
  unfold needs, up_to_date. split; intros H K; apply H.
  - destruct K as (s & i & A & B & C). rewrite A. eauto.
  - destruct K as (i & A & B). destruct (gstored u8 d) as [s|] eqn:E; [|discriminate]. exists s, i. auto.
Qed.

(** C42 *)
Lemma ids_exact u8 st o evs w st2 :
  g_pc st = GIdle -> Forall (subtask o) evs ->
  gexec u8 st (GStart o :: GSetup :: evs ++ [GFinish w]) = Some st2 -> g_ok st2 = true ->
  NoDup (called evs) /\
  (forall id, In id (called evs) <-> exists g, In (id, g) (go_ids o) /\ ~ up_to_date u8 (g_disk st) id g) /\
  exists l, g_log st2 = g_log st ++ l /\ map gc_id l = called evs /\ Forall (given o) l.
Proof.
  intros P F H O. replace (GStart o :: GSetup :: evs ++ [GFinish w]) with ((GStart o :: GSetup :: evs) ++ [GFinish w]) in H by reflexivity.
  rewrite gexec_app in H. destruct (gexec u8 st (GStart o :: GSetup :: evs)) as [st1|] eqn:E; [|discriminate].
  cbn [gexec] in H. destruct (gstep u8 st1 (GFinish w)) as [st2'|] eqn:S; [|discriminate]. injection H as ->.
  destruct (start_setup _ _ _ _ _ P F E) as (Go & [SL SC S1 S2 S3 S4 S5 S6 S7 S8 S9]).
  destruct (finish_keeps _ _ _ _ S) as (_ & En & _ & _ & _ & _ & Lg & _ & O1). specialize (O1 O).
  split; [exact S6|]. split; [|rewrite Lg; exact SL]. intros id.
  assert (T : forall g, assoc id (go_ids o) = Some g -> (In id (called evs) <-> needs (gstored u8 (g_disk st)) (gd_mt (g_disk st)) id g)).
  { intros g G. assert (K : exists t, assoc id (g_tasks st1) = Some t). { apply assoc_key. rewrite S5. apply assoc_key. eauto. }
    destruct K as (t & K). specialize (S9 id g t G K). rewrite forallb_forall in En.
    specialize (En _ (assoc_In _ _ _ K)). cbn [snd] in En. destruct t as [|i|[] []]; try discriminate.
    - destruct S9 as ((w0 & A) & B & _). split; [intros _; exact (triggers_needs _ _ _ _ B)|intros _; exact (called_In _ _ _ _ A)].
    - destruct S9 as (_ & _ & C). rewrite (C eq_refl) in O1. discriminate.
    - destruct S9 as (A & B). tauto.
    - congruence. }
  split.
  - intros I. assert (K := S7 id I). apply assoc_key in K as (g & G). exists g. split; [exact (assoc_In _ _ _ G)|].
    apply needs_up_to_date. apply T; assumption.
  - intros (g & I & N). assert (G := assoc_NoDup_In _ _ _ (gobj_ok_NoDup _ Go) I). apply (T g G). apply needs_up_to_date. exact N.
Qed.

Lemma store_kept u8 st o evs st1 :
  g_pc st = GIdle -> Forall (subtask o) evs -> gexec u8 st (GStart o :: GSetup :: evs) = Some st1 ->
  gd_store (g_disk st1) = gd_store (g_disk st).
Proof.
  intros P F E. change (GStart o :: GSetup :: evs) with ([GStart o; GSetup] ++ evs) in E. rewrite gexec_app in E.
  destruct (gexec u8 st [GStart o; GSetup]) as [st0|] eqn:E0; [|discriminate].
  destruct (sel_start _ _ _ _ P E0) as (_ & _ & D). rewrite <- D. clear -E F. revert st0 E.
  induction F as [|ev evs Fe F IH]; intros st0 E; cbn [gexec] in E; [injection E as <-; reflexivity|].
  destruct (gstep u8 st0 ev) as [sta|] eqn:Sa; [|discriminate]. rewrite (IH _ E). clear -Sa Fe.
  destruct ev as [f t| | | |o'| |id|id ok w|w|n]; try contradiction; cbn [gstep] in Sa.
  - injection Sa as <-. reflexivity.
  - destruct (g_pc st0), (assoc id (g_tasks st0)) as [[]|], (assoc id (go_ids (g_cfg st0))) as [g|]; try discriminate.
    injection Sa as <-. unfold genter. destruct (negb (g_ok st0)); [reflexivity|].
    destruct (convert _ g) as [cur|]; [|reflexivity]. destruct (assoc id _) as [pr|]; [|reflexivity].
    destruct (is_changed _ pr cur) as [[]|]; reflexivity.
  - destruct (g_pc st0), (assoc id (g_tasks st0)) as [[]|]; try discriminate. injection Sa as <-. destruct ok; reflexivity.
Qed.

Lemma ids_forgotten u8 st o evs st2 :
  g_pc st = GIdle -> Forall (subtask o) evs ->
  gexec u8 st (GStart o :: GSetup :: evs ++ [GFinish WOk]) = Some st2 -> g_ok st2 = true ->
  exists s, gstored u8 (g_disk st2) = Some s /\
    forall id, In id (map fst (gs_ids s)) <-> In id (map fst (go_ids o)).
Proof.
  intros P F H O. replace (GStart o :: GSetup :: evs ++ [GFinish WOk]) with ((GStart o :: GSetup :: evs) ++ [GFinish WOk]) in H by reflexivity.
  rewrite gexec_app in H. destruct (gexec u8 st (GStart o :: GSetup :: evs)) as [st1|] eqn:E; [|discriminate].
  cbn [gexec] in H. destruct (gstep u8 st1 (GFinish WOk)) as [st2'|] eqn:S; [|discriminate]. injection H as ->.
  assert (Kp := store_kept _ _ _ _ _ P F E).
  destruct (start_setup _ _ _ _ _ P F E) as (Go & [SL SC S1 S2 S3 S4 S5 S6 S7 S8 S9]).
  destruct (finish_keeps _ _ _ _ S) as (_ & En & Fi & _ & _ & _ & _ & _ & O1). specialize (O1 O).
  unfold gfinish in Fi. destruct (gdirty st1) eqn:D.
  - destruct (final_text st1) as [t|] eqn:T; [|injection Fi as <-; discriminate]. injection Fi as <-.
    assert (Go1 : gobj_ok (g_cfg st1) = true) by congruence.
    destruct (final_text_rt u8 st1 t Go1 T) as (l & L1 & L2). rewrite S2 in L1.
    destruct (final_ids_spec _ _ _ _ L1) as (K1 & K2 & K3 & K4).
    exists (GS "" l). gsp. unfold gstored. gsp. cbn [bind gs_ids]. split; [exact L2|]. intros id. split; [apply K1|].
    intros I. apply assoc_key in I as (g & G).
    assert (K : exists t, assoc id (g_tasks st1) = Some t). { apply assoc_key. rewrite S5. apply assoc_key. eauto. }
    destruct K as (tk & K). specialize (S9 id g tk G K). rewrite forallb_forall in En.
    specialize (En _ (assoc_In _ _ _ K)). cbn [snd] in En.
    assert (Sc : succeeded tk = true).
    { destruct tk as [|i|[] []]; try discriminate; try reflexivity; [|congruence].
      destruct S9 as (_ & _ & C). rewrite (C eq_refl) in O1. discriminate. }
    destruct (K4 id g tk (assoc_In _ _ _ G) K Sc) as (i & I & _). apply in_map_iff. exists (id, i). auto.
  - injection Fi as <-. gsp. unfold gdirty in D. apply orb_false_iff in D as [D _]. rewrite S8 in D.
    destruct (gstored u8 (g_disk st)) as [s|] eqn:Es; [|discriminate]. exists s. split.
    + unfold gstored. rewrite Kp. exact Es.
    + apply compute_build_false. exact D.
Qed.

(** C43 *)
Lemma skipped_unrecorded u8 st o evs st1 w st2 id g :
  g_pc st = GIdle -> Forall (subtask o) evs -> gexec u8 st (GStart o :: GSetup :: evs) = Some st1 ->
  writes_gstore st1 WOk = true -> w = WOk -> gstep u8 st1 (GFinish w) = Some st2 ->
  In (id, g) (go_ids o) -> ~ up_to_date u8 (g_disk st) id g -> (forall x, ~ In (GCall id true x) evs) ->
  exists s, gstored u8 (g_disk st2) = Some s /\ assoc id (gs_ids s) = None.
Proof.
  intros P F E W -> S I N C. destruct (start_setup _ _ _ _ _ P F E) as (Go & [SL SC S1 S2 S3 S4 S5 S6 S7 S8 S9]).
  assert (G := assoc_NoDup_In _ _ _ (gobj_ok_NoDup _ Go) I).
  destruct (finish_keeps _ _ _ _ S) as (_ & En & Fi & _ & _ & _ & _ & _ & _).
  unfold writes_gstore in W. apply andb_true_iff in W as [W1 W2]. apply andb_true_iff in W1 as [W1 _].
  unfold gfinish in Fi. rewrite W1 in Fi. destruct (final_text st1) as [t|] eqn:T; [|discriminate]. injection Fi as <-.
  assert (Go1 : gobj_ok (g_cfg st1) = true) by congruence.
  destruct (final_text_rt u8 st1 t Go1 T) as (l & L1 & L2). rewrite S2 in L1.
  destruct (final_ids_spec _ _ _ _ L1) as (K1 & K2 & K3 & K4).
  exists (GS "" l). gsp. unfold gstored. gsp. cbn [bind gs_ids]. split; [exact L2|].
  destruct (assoc id l) as [i|] eqn:A; [|reflexivity]. exfalso. apply assoc_In in A.
  destruct (K3 id i A) as (g' & tk & I' & Tk & Sc & _). specialize (S9 id g tk G Tk).
  destruct tk as [|j|[] []]; try discriminate.
  - destruct S9 as ((x & X) & _). exact (C x X).
  - destruct S9 as (_ & X). apply X. apply needs_up_to_date. exact N.
Qed.

Lemma still_outdated u8 st o evs st2 id g :
  g_pc st = GIdle -> Forall (subtask o) evs -> gexec u8 st (GStart o :: GSetup :: evs ++ [GFinish WOk]) = Some st2 ->
  In (id, g) (go_ids o) -> ~ up_to_date u8 (g_disk st) id g -> (forall x, ~ In (GCall id true x) evs) ->
  ~ up_to_date u8 (g_disk st2) id g.
Proof.
  intros P F H I N C. replace (GStart o :: GSetup :: evs ++ [GFinish WOk]) with ((GStart o :: GSetup :: evs) ++ [GFinish WOk]) in H by reflexivity.
  rewrite gexec_app in H. destruct (gexec u8 st (GStart o :: GSetup :: evs)) as [st1|] eqn:E; [|discriminate].
  cbn [gexec] in H. destruct (gstep u8 st1 (GFinish WOk)) as [st2'|] eqn:S; [|discriminate]. injection H as ->.
  destruct (writes_gstore st1 WOk) eqn:W.
  - destruct (skipped_unrecorded _ _ _ _ _ _ _ _ _ P F E W eq_refl S I N C) as (s & X1 & X2). intros (s' & i & Y1 & Y2 & _). congruence.
  - assert (K : gd_store (g_disk st2) = gd_store (g_disk st1)).
    { destruct (finish_keeps _ _ _ _ S) as (_ & _ & Fi & _). unfold writes_gstore in W. unfold gfinish in Fi.
      destruct (gdirty st1); [|injection Fi as <-; reflexivity]. cbn [andb] in W.
      destruct (final_text st1); [discriminate|]. injection Fi as <-. reflexivity. }
    destruct (start_setup _ _ _ _ _ P F E) as (Go & [SL SC S1 S2 S3 S4 S5 S6 S7 S8 S9]).
    destruct (finish_keeps _ _ _ _ S) as (_ & _ & _ & Em & _).
    intros (s & i & Y1 & Y2 & Y3). apply N. exists s, i. split; [|split; [exact Y2|]].
    + unfold gstored in *. rewrite <- (store_kept _ _ _ _ _ P F E), <- K. exact Y1.
    + apply (unchanged_cong (gd_mt (g_disk st2))); [|exact Y3]. intros f Hf. rewrite Em. symmetry. exact (S4 id g f I Hf).
Qed.

Lemma made_none_step u8 st ev st' id :
  gstep u8 st ev = Some st' -> gd_made (g_disk st) id = None -> (forall w, ev <> GCall id true w) ->
  gd_made (g_disk st') id = None.
Proof.
  intros H N C. destruct ev as [f t| | | |o'| |i|i ok w|w|n]; cbn [gstep] in H.
  - injection H as <-. exact N.
  - injection H as <-. exact N.
  - destruct (g_pc st); try discriminate; injection H as <-; exact N.
  - injection H as <-. exact N.
  - destruct (g_pc st); try discriminate. unfold gstart in H. destruct (gobj_ok o'); [|discriminate]. injection H as <-. exact N.
  - destruct (g_pc st); try discriminate. injection H as <-. unfold gsetup. destruct (negb (g_ok st)); exact N.
  - destruct (g_pc st), (assoc i (g_tasks st)) as [[]|], (assoc i (go_ids (g_cfg st))) as [g|]; try discriminate.
    injection H as <-. unfold genter. destruct (negb (g_ok st)); [exact N|].
    destruct (convert _ g) as [cur|]; [|exact N]. destruct (assoc i _) as [pr|]; [|exact N].
    destruct (is_changed _ pr cur) as [[]|]; exact N.
  - destruct (g_pc st), (assoc i (g_tasks st)) as [[]|]; try discriminate. injection H as <-. unfold gcallback.
    destruct ok; gsp; unfold upd; destruct (String.eqb id i) eqn:E; try exact N; [|reflexivity].
    apply String.eqb_eq in E as ->. exfalso. exact (C w eq_refl).
  - destruct (finish_keeps u8 st w st' H) as (_ & _ & _ & _ & M & _). rewrite M. exact N.
  - destruct (g_pc st); try discriminate. destruct (forallb _ _ && gdirty st); [|discriminate].
    destruct (bind (final_text st) (short n)); [|discriminate]. injection H as <-. exact N.
Qed.
Lemma history_made_none rg bd u8 m0 evs1 evs2 h st id x :
  ghistory rg bd u8 m0 (evs1 ++ GCall id false x :: evs2) h st ->
  (forall w, ~ In (GCall id true w) evs2) -> gd_made (g_disk st) id = None.
Proof.
  revert h st. induction evs2 as [|ev evs2 IH] using rev_ind; intros h st H N.
  - apply history_last in H as (h0 & st0 & _ & _ & S & _). cbn [gstep] in S.
    destruct (g_pc st0), (assoc id (g_tasks st0)) as [[]|]; try discriminate. injection S as <-. unfold gcallback. gsp.
    unfold upd. rewrite String.eqb_refl. reflexivity.
  - replace (evs1 ++ GCall id false x :: evs2 ++ [ev]) with ((evs1 ++ GCall id false x :: evs2) ++ [ev]) in H
      by (rewrite <- app_assoc; reflexivity).
    apply history_last in H as (h0 & st0 & H & _ & S & _).
    apply (made_none_step _ _ _ _ _ S).
    + apply (IH h0 st0 H). intros w I. apply (N w). apply in_app_iff. left. exact I.
    + intros w ->. apply (N w). apply in_app_iff. right. left. reflexivity.
Qed.
Lemma failed_runs_again rg bd u8 m0 evs1 id x evs2 w h st :
  lawful bd -> ghistory rg bd u8 m0 (evs1 ++ GCall id false x :: evs2 ++ [GFinish w]) h st -> g_ok st = true ->
  In id (map fst (go_ids (g_cfg st))) -> exists y, In (GCall id true y) evs2.
Proof.
  intros L H O I.
  assert (D : (exists y, In (GCall id true y) evs2) \/ forall y, ~ In (GCall id true y) evs2).
  { clear. induction evs2 as [|ev evs2 IH]; [right; intros y []|].
    destruct IH as [(y & Y)|IH]; [left; exists y; right; exact Y|].
    assert (Dec : (exists y, ev = GCall id true y) \/ forall y, ev <> GCall id true y).
    { destruct ev as [f t| | | |o'| |i|i ok w|w|n]; try (right; discriminate).
      destruct (string_dec i id) as [->|Ne]; [|right; congruence]. destruct ok; [left; eauto|right; discriminate]. }
    destruct Dec as [(y & ->)|Dec]; [left; exists y; left; reflexivity|].
    right. intros y [K|K]; [exact (Dec y K)|exact (IH y K)]. }
  destruct D as [D|D]; [exact D|]. exfalso.
  assert (M : gd_made (g_disk st) id = None).
  { apply (history_made_none rg bd u8 m0 evs1 (evs2 ++ [GFinish w]) h st id x H).
    intros y K. apply in_app_iff in K as [K|[K|[]]]; [exact (D y K)|discriminate]. }
  apply in_map_iff in I as ([k g] & Ek & I). cbn [fst] in Ek. subst k.
  replace (evs1 ++ GCall id false x :: evs2 ++ [GFinish w]) with ((evs1 ++ GCall id false x :: evs2) ++ [GFinish w]) in H
    by (rewrite <- app_assoc; reflexivity).
  destruct (run_current _ _ _ _ _ _ _ _ L H O id g I) as (a & A & _). congruence.
Qed.

Lemma recorded_is_generated rg bd u8 m0 evs h st s id i :
  lawful bd -> ghistory rg bd u8 m0 evs h st -> gh_taint h = None ->
  gstored u8 (g_disk st) = Some s -> assoc id (gs_ids s) = Some i -> id_recorded bd (g_disk st) id i.
Proof.
  intros L H T S A. assert (V := history_inv _ _ _ _ _ _ _ L H).
  destruct (gv_store _ _ _ _ _ V s id i S A) as ([(a & B1 & B2 & B3 & B4 & B5)|(c & g & B & _)] & _); [|congruence].
  exists a. split; [exact B1|]. split; [|split; [exact B3|exact B4]]. rewrite B2.
  apply (Hashed_of (ga_snap a) (ii_inputs i)). exact B5.
Qed.

(** Patterns *)
Lemma made_args rg bd u8 m0 args evs h st :
  ghistory rg bd u8 m0 evs h st -> Forall (same_args args) evs ->
  (g_pc st <> GIdle -> go_args (g_cfg st) = args) /\
  (forall id a, gd_made (g_disk st) id = Some a -> ga_args a = args).
Proof.
  intros H. induction H as [|evs h st ev st' H IH A S]; intros F.
  - split; [intros X; elim X; reflexivity|discriminate].
  - apply Forall_app in F as [F1 F2]. apply Forall_cons_iff in F2 as [F2 _]. destruct (IH F1) as (X & Y). clear IH F1 H.
    destruct ev as [f t| | | |o'| |i|i ok w|w|n]; cbn [gstep same_args] in *.
    + injection S as <-. gsp. auto.
    + injection S as <-. gsp. auto.
    + destruct (g_pc st); try discriminate; injection S as <-; gsp; split; auto; congruence.
    + injection S as <-. gsp. auto.
    + destruct (g_pc st); try discriminate. unfold gstart in S. destruct (gobj_ok o'); [|discriminate]. injection S as <-. gsp. auto.
    + destruct (g_pc st) eqn:P; try discriminate. injection S as <-. unfold gsetup. destruct (negb (g_ok st)); gsp; split; auto; try congruence.
      intros _. apply X. congruence.
    + destruct (g_pc st) eqn:P, (assoc i (g_tasks st)) as [[]|], (assoc i (go_ids (g_cfg st))) as [g|]; try discriminate.
      injection S as <-. unfold genter. assert (X' : go_args (g_cfg st) = args) by (apply X; congruence).
      destruct (negb (g_ok st)); [gsp; auto|]. destruct (convert _ g) as [cur|]; [|gsp; auto].
      destruct (assoc i _) as [pr|]; [|gsp; auto]. destruct (is_changed _ pr cur) as [[]|]; gsp; auto.
    + destruct (g_pc st) eqn:P, (assoc i (g_tasks st)) as [[]|]; try discriminate. injection S as <-. unfold gcallback.
      assert (X' : go_args (g_cfg st) = args) by (apply X; congruence).
      destruct ok; gsp; (split; [auto|]); intros id a; unfold upd; destruct (String.eqb id i); try (apply Y);
        try discriminate. intros [= <-]. exact X'.
    + destruct (finish_keeps u8 st w st' S) as (_ & _ & _ & _ & M & _ & _ & P' & _). rewrite M. split; [congruence|exact Y].
    + destruct (g_pc st); try discriminate. destruct (forallb _ _ && gdirty st); [|discriminate].
      destruct (bind (final_text st) (short n)); [|discriminate]. injection S as <-. gsp. split; [congruence|exact Y].
Qed.
