(** Generator: a stored blob the handler rejects; handlers that come and go. *)
From Verif Require Import Prelude Proof_Prelude Model_Path Model_Json Model_Schema Spec_Json Proof_Dec
  Proof_Schema Model_Command Model_Target Spec_Target Proof_TargetBase Model_Gen Spec_Gen Proof_Gen Proof_GenInv
  Proof_GenMain Proof_GenRuns Proof_GenSel.

Lemma rejected_throws (mt : times) (i : idinfo) (g : gid) (cur : idinfo) :
  id_rejected mt i g -> convert mt g = Some cur -> is_changed (gi_handler g) i cur = None.
Proof.
  intros (A & B & h & H & C) K. destruct (convert_spec _ _ _ K) as (K1 & K2 & K3 & _).
  change (Hashed mt (inputs_of g) (ii_inputs i)) in A.
  assert (E : ii_inputs i = ii_inputs cur) by (apply (Hashed_eq_iff mt (inputs_of g) (ii_inputs i) (ii_inputs cur) K1); exact A).
  unfold is_changed. rewrite E, B, K2.
  replace (infolist_eqb (ii_inputs cur) (ii_inputs cur)) with true by (symmetry; apply infolist_eqb_eq; reflexivity).
  replace (str_list_eqb (outputs_of g) (outputs_of g)) with true by (symmetry; apply str_list_eqb_eq; reflexivity).
  cbn [negb orb]. rewrite H. unfold check_changed. rewrite K3. unfold blob_of. rewrite H.
  destruct C as [C|C]; rewrite C; [reflexivity|]. destruct (bh_verify h (ii_blob i)); [|reflexivity].
  destruct (bh_verify h (bh_data h)); reflexivity.
Qed.
Lemma rejected_cong (mt mt' : times) (i : idinfo) (g : gid) :
  (forall f, In f (inputs_of g) -> mt' f = mt f) -> id_rejected mt i g -> id_rejected mt' i g.
Proof.
  intros E (A & B & C). split; [|split; assumption].
  change (Hashed mt' (inputs_of g) (ii_inputs i)). change (Hashed mt (inputs_of g) (ii_inputs i)) in A.
  revert A. generalize (ii_inputs i). generalize (inputs_of g) E. clear. intros l E r A.
  induction A as [|f x l r [A1 (t & A2 & A3)] A IH]; constructor.
  - split; [exact A1|]. exists t. rewrite E; [auto|left; reflexivity].
  - apply IH. intros f' F. apply E. right. exact F.
Qed.

(** ** One run *)
Lemma rejected_run u8 st o evs w st2 s id g i :
  g_pc st = GIdle -> Forall (subtask o) evs ->
  gexec u8 st (GStart o :: GSetup :: evs ++ [GFinish w]) = Some st2 ->
  gstored u8 (g_disk st) = Some s -> assoc id (gs_ids s) = Some i -> In (id, g) (go_ids o) ->
  id_rejected (gd_mt (g_disk st)) i g ->
  g_ok st2 = false /\ ~ In id (called evs).
Proof.
  intros P F H Es A I R. replace (GStart o :: GSetup :: evs ++ [GFinish w]) with ((GStart o :: GSetup :: evs) ++ [GFinish w]) in H by reflexivity.
  rewrite gexec_app in H. destruct (gexec u8 st (GStart o :: GSetup :: evs)) as [st1|] eqn:E; [|discriminate].
  cbn [gexec] in H. destruct (gstep u8 st1 (GFinish w)) as [st2'|] eqn:S; [|discriminate]. injection H as ->.
  destruct (start_setup _ _ _ _ _ P F E) as (Go & [SL SC S1 S2 S3 S4 S5 S6 S7 S8 S9]).
  assert (G := assoc_NoDup_In _ _ _ (gobj_ok_NoDup _ Go) I).
  destruct (finish_keeps _ _ _ _ S) as (_ & En & _ & _ & _ & _ & _ & _ & O1).
  assert (K : exists t, assoc id (g_tasks st1) = Some t). { apply assoc_key. rewrite S5. apply assoc_key. eauto. }
  destruct K as (t & K). assert (T := S9 id g t G K). rewrite forallb_forall in En.
  specialize (En _ (assoc_In _ _ _ K)). cbn [snd] in En.
  assert (NT : ~ triggers (gstored u8 (g_disk st)) (gd_mt (g_disk st)) id g).
  { intros (cur & C & [X|(i' & X & Y)]); rewrite Es in X; cbn [loaded_ids] in X; [congruence|].
    assert (i' = i) as -> by congruence. rewrite (rejected_throws _ _ _ _ R C) in Y. discriminate. }
  assert (Nd : needs (gstored u8 (g_disk st)) (gd_mt (g_disk st)) id g).
  { intros (i' & X & U). rewrite Es in X; cbn [loaded_ids] in X. assert (i' = i) as -> by congruence.
    destruct U as (_ & _ & U). destruct R as (_ & _ & h & Hh & R). rewrite Hh in U. destruct U as (U1 & U2).
    destruct R; congruence. }
  destruct t as [|j|[] []]; try discriminate; try (destruct T as (_ & T & _); contradiction).
  - destruct T as (_ & T). contradiction.
  - split.
    + destruct (g_ok st2); [|reflexivity]. rewrite (O1 eq_refl) in T. discriminate.
    + intros C. apply in_flat_map in C as (ev & C1 & C2). destruct ev as [f t| | | |o'| |k|k ok w'|w'|n]; try contradiction.
      destruct C2 as [->|[]]. assert (X : forall evs0 sta stb, sel o (gstored u8 (g_disk st)) (gd_mt (g_disk st)) (g_log st) evs0 sta ->
        Forall (subtask o) evs -> gexec u8 sta evs = Some stb -> In (GCall id ok w') evs -> False); [|].
      { clear -NT G Go. induction evs as [|ev evs IH]; intros evs0 sta stb Se Fo Ex Ic; [destruct Ic|].
        cbn [gexec] in Ex. destruct (gstep u8 sta ev) as [stc|] eqn:Sc; [|discriminate]. apply Forall_cons_iff in Fo as [F1 F2].
        destruct Ic as [->|Ic].
        - cbn [gstep] in Sc. destruct Se as [SL SC S1 S2 S3 S4 S5 S6 S7 S8 S9]. rewrite S1 in Sc.
          destruct (assoc id (g_tasks sta)) as [[|j|]|] eqn:K; try discriminate. destruct (S9 id g _ G K) as (_ & X). contradiction.
        - apply (IH (evs0 ++ [ev]) stc stb); try assumption.
          apply (sel_exec u8 o _ _ _ [ev] evs0 sta stc Go Se); [constructor; [exact F1|constructor]|]. cbn [gexec]. rewrite Sc. reflexivity. }
      change (GStart o :: GSetup :: evs) with ([GStart o; GSetup] ++ evs) in E. rewrite gexec_app in E.
      destruct (gexec u8 st [GStart o; GSetup]) as [st0|] eqn:E0; [|discriminate].
      destruct (sel_start _ _ _ _ P E0) as (_ & Se & _). exact (X [] st0 st1 Se F E C1).
Qed.

(** ** For ever *)
Definition blocked (u8 : string -> N) (o : gobj) (bad : string) (d : gdisk) : Prop :=
  exists s, gstored u8 d = Some s /\ compute_build (Some s) o = false /\
    (forall id g, assoc id (go_ids o) = Some g ->
      exists i, assoc id (gs_ids s) = Some i /\ (id_unchanged (gd_mt d) i g \/ id_rejected (gd_mt d) i g)) /\
    exists g i, assoc bad (go_ids o) = Some g /\ assoc bad (gs_ids s) = Some i /\ id_rejected (gd_mt d) i g.

Record jammed (u8 : string -> N) (o : gobj) (bad : string) (st : gstate) : Prop := {
  jm_blocked : blocked u8 o bad (g_disk st);
  jm_cfg : g_pc st <> GIdle -> g_cfg st = o /\ g_load st = gstored u8 (g_disk st);
  jm_dirty : g_dirty st = false;
  jm_calm : calm (g_tasks st);
  jm_has : g_pc st = GTasks -> In bad (map fst (g_tasks st));
  jm_bad : forall t, assoc bad (g_tasks st) = Some t -> t = TWait \/ g_ok st = false }.

Lemma calm_clean st : g_dirty st = false -> calm (g_tasks st) -> gdirty st = false.
Proof.
  intros D T. unfold gdirty. rewrite D. cbn [orb]. destruct (existsb _ _) eqn:E; [|reflexivity].
  apply existsb_exists in E as ([id t] & I & S). unfold calm in T. rewrite Forall_forall in T. specialize (T _ I).
  cbn [snd] in *. destruct T as [->|(b & ->)]; discriminate.
Qed.

Lemma blocked_edit u8 o bad d f t :
  blocked u8 o bad d -> (forall id g, In (id, g) (go_ids o) -> ~ In f (inputs_of g)) ->
  blocked u8 o bad (set_gmt d (upd (gd_mt d) f t)).
Proof.
  intros (s & S1 & S2 & S3 & g0 & i0 & B1 & B2 & B3) N.
  assert (Same : forall id g, assoc id (go_ids o) = Some g -> forall f', In f' (inputs_of g) -> upd (gd_mt d) f t f' = gd_mt d f').
  { intros id g G f' Hf. unfold upd. destruct (String.eqb f' f) eqn:E; [|reflexivity]. apply String.eqb_eq in E as ->.
    exfalso. exact (N id g (assoc_In _ _ _ G) Hf). }
  exists s. split; [exact S1|]. split; [exact S2|]. gsp. split.
  - intros id g G. destruct (S3 id g G) as (i & A & [B|B]); exists i; (split; [exact A|]).
    + left. apply (unchanged_cong (gd_mt d)); [exact (Same id g G)|exact B].
    + right. apply (rejected_cong (gd_mt d)); [exact (Same id g G)|exact B].
  - exists g0, i0. split; [exact B1|]. split; [exact B2|]. apply (rejected_cong (gd_mt d)); [exact (Same bad g0 B1)|exact B3].
Qed.

Lemma jammed_step u8 o bad st ev st' :
  jammed u8 o bad st -> gundisturbed o ev -> gstep u8 st ev = Some st' ->
  jammed u8 o bad st' /\ g_log st' = g_log st /\ gd_store (g_disk st') = gd_store (g_disk st) /\
  gd_made (g_disk st') = gd_made (g_disk st) /\ (forall w, ev = GFinish w -> g_ok st' = false).
Proof.
  intros [R1 R2 R3 R4 R5 R6] U H. assert (D := calm_clean _ R3 R4).
  destruct ev as [f t| | | |o'| |id|id ok w|w|n]; cbn [gstep gundisturbed] in *.
  - injection H as <-. gsp. split; [|repeat split; auto; discriminate]. constructor; gsp; try assumption. apply blocked_edit; assumption.
  - injection H as <-. gsp. split; [|repeat split; auto; discriminate]. constructor; gsp; try assumption. auto.
  - destruct (g_pc st); [discriminate| |]; injection H as <-; gsp; (split; [|repeat split; auto; discriminate]); constructor; gsp; try assumption;
      try reflexivity; try congruence; try (constructor; fail); discriminate.
  - contradiction.
  - destruct (g_pc st); try discriminate. subst o'. unfold gstart in H. destruct (gobj_ok o); [|discriminate].
    injection H as <-. gsp. split; [|repeat split; auto; discriminate]. constructor; gsp; try assumption; auto; try (constructor; fail); discriminate.
  - destruct (g_pc st) eqn:P; try discriminate. injection H as <-. unfold gsetup. destruct (g_ok st); cbn [negb]; gsp.
    + split; [|repeat split; auto; discriminate]. destruct R2 as (C1 & C2); [congruence|]. constructor; gsp; auto.
      * destruct R1 as (s & S1 & S2 & _). rewrite C1, C2, S1. exact S2.
      * apply Forall_forall. intros x X. apply in_map_iff in X as (y & <- & _). left. reflexivity.
      * intros _. rewrite map_map. cbn [fst]. rewrite C1. destruct R1 as (s & _ & _ & _ & g & i & B & _). apply assoc_key. eauto.
      * intros t T. left. apply assoc_In in T. apply in_map_iff in T as (y & Y & _). injection Y as _ <-. reflexivity.
    + split; [|repeat split; auto; discriminate]. constructor; gsp; auto; try congruence; try (constructor; fail); discriminate.
  - destruct (g_pc st) eqn:P; try discriminate. destruct (assoc id (g_tasks st)) as [[]|] eqn:W; try discriminate.
    destruct (assoc id (go_ids (g_cfg st))) as [g|] eqn:G; try discriminate. injection H as <-.
    destruct R2 as (C1 & C2); [congruence|]. rewrite C1 in G. destruct R1 as (s & S1 & S2 & S3 & g0 & i0 & B1 & B2 & B3).
    assert (X : forall t ok, (t = TWait \/ exists b, t = TEnd false b) -> (id = bad -> ok = false) -> (g_ok st = false -> ok = false) ->
      jammed u8 o bad (gwith_ok (set_task st id t) ok)).
    { intros t ok Ht Hid Hok. constructor; gsp; try assumption.
      - exists s. split; [exact S1|]. split; [exact S2|]. split; [exact S3|]. exists g0, i0. auto.
      - intros _. split; [exact C1|exact C2].
      - apply calm_set; assumption.
      - intros _. rewrite keys_set_task. exact (R5 eq_refl).
      - intros t' T'. rewrite assoc_set_task in T'. destruct (String.eqb bad id) eqn:E.
        + apply String.eqb_eq in E. right. apply Hid. symmetry. exact E.
        + destruct (R6 t' T') as [->|K]; auto. }
    assert (Same : forall t, set_task st id t = gwith_ok (set_task st id t) (g_ok st)) by (intros t; destruct st; reflexivity).
    assert (Y : forall t ok, g_log (gwith_ok (set_task st id t) ok) = g_log st /\
      gd_store (g_disk (gwith_ok (set_task st id t) ok)) = gd_store (g_disk st) /\
      gd_made (g_disk (gwith_ok (set_task st id t) ok)) = gd_made (g_disk st) /\ (forall w, GEnter id = GFinish w -> ok = false))
      by (intros t ok; gsp; repeat split; discriminate).
    unfold genter. destruct (g_ok st) eqn:Ok; cbn [negb].
    + destruct (convert (gd_mt (g_disk st)) g) as [cur|] eqn:C; [|split; [apply X; eauto|apply Y]].
      rewrite C2, S1. cbn [loaded_ids]. destruct (S3 id g G) as (i & A & B). rewrite A.
      destruct (is_changed (gi_handler g) i cur) as [b|] eqn:K; [|split; [apply X; eauto|apply Y]].
      destruct B as [B|B]; [|rewrite (rejected_throws _ _ _ _ B C) in K; discriminate].
      apply (unchanged_iff _ g i cur C) in B. rewrite B in K. injection K as <-. rewrite Same. split; [|apply Y].
      apply X; [eauto| |discriminate]. intros ->. assert (i0 = i) as -> by congruence. assert (g0 = g) as -> by congruence.
      rewrite (rejected_throws _ _ _ _ B3 C) in B. discriminate.
    + rewrite Same. split; [|apply Y]. apply X; eauto.
  - destruct (g_pc st); try discriminate. destruct (assoc id (g_tasks st)) as [[| |]|] eqn:W; try discriminate.
    exfalso. destruct (calm_assoc _ _ _ R4 W) as [K|(b & K)]; discriminate.
  - destruct (g_pc st) eqn:P; try discriminate. destruct (forallb _ _) eqn:En; [|discriminate]. unfold gfinish in H. rewrite D in H.
    destruct w; try discriminate. injection H as <-. gsp. split; [|repeat split; auto].
    + constructor; gsp; try assumption; try reflexivity; try congruence; try (constructor; fail); discriminate.
    + intros w _. specialize (R5 eq_refl). apply assoc_key in R5 as (t & T). rewrite forallb_forall in En.
      specialize (En _ (assoc_In _ _ _ T)). destruct (R6 t T) as [->|K]; [discriminate|exact K].
  - destruct (g_pc st); try discriminate. rewrite D, andb_false_r in H. discriminate.
Qed.

Lemma jammed_exec u8 o bad evs : forall st st',
  jammed u8 o bad st -> Forall (gundisturbed o) evs -> gexec u8 st evs = Some st' ->
  jammed u8 o bad st' /\ g_log st' = g_log st /\ gd_store (g_disk st') = gd_store (g_disk st) /\
  gd_made (g_disk st') = gd_made (g_disk st).
Proof.
  induction evs as [|ev evs IH]; intros st st' R F H; cbn [gexec] in H.
  - injection H as <-. auto.
  - apply Forall_cons_iff in F as [F1 F2]. destruct (gstep u8 st ev) as [st1|] eqn:S; [|discriminate].
    destruct (jammed_step _ _ _ _ _ _ R F1 S) as (R' & A & B & C & _). destruct (IH _ _ R' F2 H) as (R'' & A' & B' & C').
    split; [exact R''|]. split; [congruence|]. split; congruence.
Qed.

(** A program all of whose ids are as recorded except for rejected blobs fails in
    every run and invokes nothing. *)
Lemma jammed_for_ever u8 o st s evs st2 :
  g_pc st = GIdle -> g_dirty st = false -> g_tasks st = [] ->
  gstored u8 (g_disk st) = Some s -> (forall id, In id (map fst (gs_ids s)) <-> In id (map fst (go_ids o))) ->
  NoDup (map fst (go_ids o)) ->
  (forall id g, In (id, g) (go_ids o) -> exists i, assoc id (gs_ids s) = Some i /\ id_rejected (gd_mt (g_disk st)) i g) ->
  go_ids o <> [] ->
  Forall (gundisturbed o) evs -> gexec u8 st evs = Some st2 ->
  g_log st2 = g_log st /\ gd_store (g_disk st2) = gd_store (g_disk st) /\
  (forall w st3, gstep u8 st2 (GFinish w) = Some st3 -> g_ok st3 = false).
Proof.
  intros P D T Es K ND R Ne F X. destruct (go_ids o) as [|[bad g] r] eqn:Eo; [elim Ne; reflexivity|]. clear Ne.
  assert (J : jammed u8 o bad st).
  { constructor; try assumption; try congruence.
    - exists s. split; [exact Es|]. split; [apply compute_build_false; rewrite Eo; exact K|]. split.
      + intros id g' G. rewrite Eo in G. destruct (R id g' (assoc_In _ _ _ G)) as (i & A & B). eauto.
      + destruct (R bad g (or_introl eq_refl)) as (i & A & B). exists g, i. split; [|auto]. rewrite Eo. cbn [assoc].
        rewrite String.eqb_refl. reflexivity.
    - rewrite T. constructor.
    - rewrite T. discriminate. }
  destruct (jammed_exec _ _ _ _ _ _ J F X) as (J2 & A & B & _). split; [exact A|]. split; [exact B|].
  intros w st3 S. destruct (jammed_step u8 o bad st2 (GFinish w) st3 J2 Logic.I S) as (_ & _ & _ & _ & Y). exact (Y w eq_refl).
Qed.

Lemma unhandled_not_called u8 st o evs w st2 s id g i :
  g_pc st = GIdle -> Forall (subtask o) evs ->
  gexec u8 st (GStart o :: GSetup :: evs ++ [GFinish w]) = Some st2 -> g_ok st2 = true ->
  gstored u8 (g_disk st) = Some s -> assoc id (gs_ids s) = Some i -> In (id, g) (go_ids o) -> gi_handler g = None ->
  recorded_now (gd_mt (g_disk st)) (inputs_of g) (ii_inputs i) -> ii_outputs i = outputs_of g ->
  ~ In id (called evs).
Proof.
  intros P F H O Es A I N R1 R2 C. destruct (ids_exact _ _ _ _ _ _ P F H O) as (ND & X & _).
  apply X in C as (g' & I' & C). apply C.
  assert (Go : gobj_ok o = true).
  { cbn [gexec gstep] in H. rewrite P in H. unfold gstart in H. destruct (gobj_ok o); [reflexivity|discriminate]. }
  assert (g' = g) as ->.
  { apply (assoc_NoDup_In _ _ _ (gobj_ok_NoDup _ Go)) in I. apply (assoc_NoDup_In _ _ _ (gobj_ok_NoDup _ Go)) in I'. congruence. }
  exists s, i. split; [exact Es|]. split; [exact A|]. split; [exact R1|]. split; [exact R2|]. rewrite N. exact Logic.I.
Qed.
