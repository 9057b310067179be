(** Runs of generators end, and succeed if nothing goes wrong. *)
From Verif Require Import Prelude Proof_Prelude Model_Path Model_Json Model_Schema Spec_Json Proof_Dec Proof_Schema Model_Command
  Model_Target Spec_Target Proof_TargetBase Proof_TargetLive Model_Gen Spec_Gen Proof_Gen Proof_GenInv Proof_GenMain Spec_GenLive.

(** ** Storable *)

Lemma final_ids_some (mt : times) (tasks : list (string * gtask)) (ids : list (string * gid)) :
  (forall id g, In (id, g) ids -> exists i, convert mt g = Some i) -> exists l, final_ids mt ids tasks = Some l.
Proof.
  induction ids as [|[id g] ids IH]; intros H; [eexists; reflexivity|]. cbn [final_ids].
  destruct IH as (l & E); [intros k g' Hk; exact (H k g' (or_intror Hk))|].
  destruct (assoc id tasks) as [t|]; [|rewrite E; eauto]. destruct (succeeded t); [|rewrite E; eauto].
  destruct (H id g (or_introl eq_refl)) as (i & ->). rewrite E. eauto.
Qed.
Lemma text_storable (st : gstate) (o : gobj) :
  g_cfg st = o -> inputs_there (gd_mt (g_disk st)) o -> accepts_own o -> gstorable o -> exists t, final_text st = Some t.
Proof.
  intros E Ex Ow Us. unfold final_text. rewrite E.
  destruct (final_ids_some (gd_mt (g_disk st)) (g_tasks st) (go_ids o)) as (l & F).
  { intros id g I. apply convert_some; [exact (fun f => Ex id g f I)|exact (fun h => Ow id g h I)]. }
  rewrite F. apply gen_store_text_iff. cbn [gen_strings gs_name gs_ids]. constructor; [exists []; split; [constructor|reflexivity]|].
  destruct (final_ids_spec _ _ _ _ F) as (_ & _ & C & _). unfold gstorable in Us. rewrite Forall_forall in *.
  intros s Hs. apply in_flat_map in Hs as ([id i] & Hi & Hs). destruct (C id i Hi) as (g & t & Hg & _ & _ & K).
  destruct (convert_spec _ _ _ K) as (K1 & K2 & _). assert (Sub : forall s, In s (id_texts (id, g)) -> valid_utf8 s).
  { intros s' H. apply Us. apply in_flat_map. exists (id, g). auto. }
  unfold id_texts in Sub. cbn [fst snd] in Sub. unfold id_strings in Hs. cbn [fst snd] in Hs. destruct Hs as [<-|Hs]; [apply Sub; left; reflexivity|].
  apply in_app_iff in Hs as [Hs|Hs].
  - unfold info_strings in Hs. apply in_flat_map in Hs as (x & Hx & [<-|[<-|[]]]).
    + apply Sub. right. apply in_app_iff. left. rewrite <- (Hashed_paths _ _ _ K1). unfold il_paths. apply in_map. exact Hx.
    + destruct (Hashed_In _ _ _ _ K1 Hx) as (v & _ & ->). apply dec_utf8.
  - apply Sub. right. apply in_app_iff. right. rewrite <- K2. exact Hs.
Qed.

(** ** Good steps *)

Lemma write_all_there (o : gobj) (w : list (string * option N)) : forall m,
  (forall f t, In (f, t) w -> t <> None \/ forall id g, In (id, g) (go_ids o) -> ~ In f (inputs_of g)) ->
  inputs_there m o -> inputs_there (write_all m w) o.
Proof.
  induction w as [|[f t] w IH]; intros m H M; [exact M|]. unfold write_all in *. cbn [fold_left fst snd]. apply IH.
  - intros f' t' I. apply H. right. exact I.
  - intros id g f' Hg Hf. unfold upd. destruct (String.eqb_spec f' f) as [->|]; [|exact (M id g f' Hg Hf)].
    destruct (H f t (or_introl eq_refl)) as [K|K]; [exact K|]. destruct (K id g Hg Hf).
Qed.

Lemma ggood_step u8 o st ev st' :
  gstep u8 st ev = Some st' -> ggood o ev -> g_cfg st = o -> accepts_stored (g_load st) o -> accepts_own o -> gstorable o ->
  g_ok st = true -> inputs_there (gd_mt (g_disk st)) o ->
  g_cfg st' = o /\ g_load st' = g_load st /\ g_ok st' = true /\ inputs_there (gd_mt (g_disk st')) o.
Proof.
  intros S G E Ac Ow Us Ok Ex. destruct ev as [f t| | | |o'| |id|id ok w|w|n]; cbn [gstep ggood] in *; try contradiction.
  - injection S as <-. gsp. repeat split; try assumption. apply (write_all_there o [(f, t)]); [|exact Ex].
    intros f' t' [K|[]]. apply pair_equal_spec in K as [<- <-]. exact G.
  - injection S as <-. gsp. auto.
  - destruct (g_pc st); try discriminate. injection S as <-. unfold gsetup. rewrite Ok. cbn [negb]. gsp. auto.
  - destruct (g_pc st); try discriminate. destruct (assoc id (g_tasks st)) as [[]|]; try discriminate.
    destruct (assoc id (go_ids (g_cfg st))) as [g|] eqn:Eg; [|discriminate]. injection S as <-. rewrite E in Eg. apply assoc_In in Eg.
    unfold genter. rewrite Ok. cbn [negb].
    destruct (convert_some (gd_mt (g_disk st)) g) as (cur & K); [exact (fun f => Ex id g f Eg)|exact (fun h => Ow id g h Eg)|]. rewrite K.
    destruct (assoc id (loaded_ids (g_load st))) as [prev|] eqn:Ep; [|gsp; auto].
    assert (B : exists b, is_changed (gi_handler g) prev cur = Some b).
    { unfold is_changed. destruct (_ || _); [eauto|]. destruct (gi_handler g) as [h|] eqn:Eh; [|eauto].
      destruct (g_load st) as [s|] eqn:El; [|discriminate]. destruct (Ac s id prev g h eq_refl Ep Eg Eh) as [A1 A2].
      destruct (convert_spec _ _ _ K) as (_ & _ & Kb & _). unfold blob_of in Kb. rewrite Eh in Kb.
      unfold check_changed. rewrite A1, Kb, (Ow id g h Eg Eh). cbn [negb]. destruct (bh_equal h (ii_blob prev) (bh_data h)); [eauto|congruence]. }
    destruct B as ([|] & ->); gsp; auto.
  - destruct (g_pc st); try discriminate. destruct (assoc id (g_tasks st)) as [[]|]; try discriminate. injection S as <-.
    destruct G as [-> G]. unfold gcallback. gsp. repeat split; try assumption. apply write_all_there; assumption.
  - destruct w; try contradiction. destruct (g_pc st); try discriminate. destruct (forallb _ _); [|discriminate]. unfold gfinish in S.
    destruct (text_storable st o E Ex Ow Us) as (t & T). rewrite T in S. destruct (gdirty st); injection S as <-; gsp; auto.
Qed.

Theorem good_run_ok u8 st0 o run st :
  gexec u8 st0 (GStart o :: run) = Some st -> Forall (ggood o) run ->
  inputs_there (gd_mt (g_disk st0)) o -> accepts_own o -> accepts_stored (gstored u8 (g_disk st0)) o -> gstorable o ->
  g_ok st = true /\ inputs_there (gd_mt (g_disk st)) o.
Proof.
  intros X G Ex Ow Ac Us. cbn [gexec] in X. destruct (gstep u8 st0 (GStart o)) as [st1|] eqn:S; [|discriminate].
  cbn [gstep] in S. destruct (g_pc st0); try discriminate. unfold gstart in S. destruct (gobj_ok o); [|discriminate].
  assert (H : g_cfg st1 = o /\ g_load st1 = gstored u8 (g_disk st0) /\ g_ok st1 = true /\ inputs_there (gd_mt (g_disk st1)) o)
    by (injection S as <-; gsp; auto).
  clear S. revert st1 X H. induction G as [|ev run G1 G2 IH]; intros st1 X (A & B & C & D); cbn [gexec] in X.
  - injection X as <-. auto.
  - destruct (gstep u8 st1 ev) as [st2|] eqn:S; [|discriminate]. apply (IH st2 X).
    destruct (ggood_step _ _ _ _ _ S G1 A) as (A' & B' & C' & D'); try assumption; [rewrite B; exact Ac|].
    rewrite B' , B. auto.
Qed.

(** ** Never stuck *)

Lemma some_pending (l : list (string * gtask)) : NoDup (map fst l) -> forallb (fun x => ended (snd x)) l = false ->
  exists id t, assoc id l = Some t /\ ended t = false.
Proof.
  intros Nd. induction l as [|[id t] l IH]; cbn [forallb snd]; [discriminate|]. intros F.
  destruct (ended t) eqn:E.
  - cbn [andb] in F. cbn [map fst] in Nd. apply NoDup_cons_iff in Nd as [N1 N2]. destruct (IH N2 F) as (id' & t' & A & B).
    exists id', t'. split; [|exact B]. cbn [assoc]. destruct (String.eqb_spec id' id) as [->|]; [|exact A].
    exfalso. apply N1. apply (in_map fst _ _ (assoc_In _ _ _ A)).
  - exists id, t. split; [|exact E]. cbn [assoc]. rewrite String.eqb_refl. reflexivity.
Qed.
Definition KeyInv (st : gstate) : Prop :=
  map fst (g_tasks st) = match g_pc st with GTasks => map fst (go_ids (g_cfg st)) | _ => [] end /\
  (g_pc st <> GIdle -> gobj_ok (g_cfg st) = true).
Lemma KeyInv_of rg bd u8 h st : GInv rg bd u8 h st -> KeyInv st.
Proof. intros V. split; [exact (gv_tasks _ _ _ _ _ V)|]. intros P. exact (proj1 (gv_cfg _ _ _ _ _ V P)). Qed.
Lemma KeyInv_own u8 st ev st' : gown ev -> gstep u8 st ev = Some st' -> KeyInv st -> KeyInv st'.
Proof.
  intros O S [A B]. unfold KeyInv in *. destruct ev as [f t| | | |o'| |id|id ok w|w|n]; cbn [gown gstep] in *; try contradiction.
  - destruct (g_pc st) eqn:P; try discriminate. injection S as <-. unfold gsetup. destruct (negb _); gsp; [split; [reflexivity|congruence]|].
    split; [rewrite map_map; reflexivity|]. intros _. apply B. discriminate.
  - destruct (g_pc st) eqn:P; try discriminate. destruct (assoc id (g_tasks st)) as [[]|]; try discriminate.
    destruct (assoc id (go_ids _)) as [g|]; [|discriminate]. injection S as <-. unfold genter.
    destruct (negb _); [|destruct (convert _ _); [destruct (assoc id (loaded_ids _)); [destruct (is_changed _ _ _) as [[]|]|]|]];
      gsp; rewrite P, keys_set_task; auto.
  - destruct (g_pc st) eqn:P; try discriminate. destruct (assoc id (g_tasks st)) as [[]|]; try discriminate. injection S as <-.
    unfold gcallback. destruct ok; gsp; rewrite P, keys_set_task; auto.
  - destruct (g_pc st); try discriminate. destruct (forallb _ _); [|discriminate]. unfold gfinish in S.
    destruct (gdirty st); [destruct (final_text st) as [t|]|]; destruct w as [| |n rep]; try discriminate;
      try (injection S as <-; gsp; split; [reflexivity|congruence]).
    destruct (short n t); [|discriminate]. injection S as <-. destruct rep; gsp; (split; [reflexivity|congruence]).
Qed.
Lemma never_stuck_inv u8 st : KeyInv st -> g_pc st <> GIdle ->
  exists ev st', gown ev /\ ggood (g_cfg st) ev /\ (forall i b w, ev = GCall i b w -> w = []) /\ gstep u8 st ev = Some st'.
Proof.
  intros [T Go] P. specialize (Go P). destruct (g_pc st) eqn:Pc; [congruence| |].
  - exists GSetup. eexists. repeat split; [discriminate|]. cbn [gstep]. rewrite Pc. reflexivity.
  - destruct (forallb (fun x => ended (snd x)) (g_tasks st)) eqn:F.
    + exists (GFinish WOk). cbn [gstep]. rewrite Pc, F. unfold gfinish.
      destruct (gdirty st); [destruct (final_text st)|]; eexists; repeat split; discriminate.
    + destruct (some_pending (g_tasks st)) as (id & t & A & B); [rewrite T; apply gobj_ok_NoDup; exact Go|exact F|].
      destruct t as [|i|]; [| |discriminate].
      * assert (K : exists g, assoc id (go_ids (g_cfg st)) = Some g) by (apply assoc_key; rewrite <- T; apply assoc_key; eauto).
        destruct K as (g & K). exists (GEnter id). eexists. repeat split; [discriminate|]. cbn [gstep]. rewrite Pc, A, K. reflexivity.
      * exists (GCall id true []). eexists. split; [exact Logic.I|]. split; [split; [reflexivity|intros f t []]|]. split; [congruence|].
        cbn [gstep]. rewrite Pc, A. reflexivity.
Qed.
Theorem gen_never_stuck rg bd u8 m0 evs h st : lawful bd -> ghistory rg bd u8 m0 evs h st -> g_pc st <> GIdle ->
  exists ev st', gown ev /\ ggood (g_cfg st) ev /\ gstep u8 st ev = Some st'.
Proof.
  intros L H P. destruct (never_stuck_inv u8 _ (KeyInv_of _ _ _ _ _ (history_inv _ _ _ _ _ _ _ L H)) P) as (ev & st' & A & B & _ & C). eauto.
Qed.

(** ** Bounded *)

Definition task_left (t : gtask) : nat := match t with TWait => 2 | TCall _ => 1 | TEnd _ _ => 0 end.
Definition gleft (st : gstate) : nat :=
  match g_pc st with
  | GIdle => 0
  | GBuilt => 2 + 2 * length (go_ids (g_cfg st))
  | GTasks => 1 + list_sum (map (fun x => task_left (snd x)) (g_tasks st))
  end.
Lemma set_left (id : string) (t : gtask) (l : list (string * gtask)) (t0 : gtask) :
  assoc id l = Some t0 -> task_left t < task_left t0 -> (forall t', In (id, t') l -> task_left t <= task_left t') ->
  list_sum (map (fun x => task_left (snd x)) (map (fun x => if String.eqb (fst x) id then (id, t) else x) l)) <
  list_sum (map (fun x => task_left (snd x)) l).
Proof.
  induction l as [|[k v] l IH]; cbn [assoc map fst snd]; [discriminate|]. intros A L M.
  assert (Le : list_sum (map (fun x => task_left (snd x)) (map (fun x => if String.eqb (fst x) id then (id, t) else x) l)) <=
               list_sum (map (fun x => task_left (snd x)) l)).
  { assert (M' : forall t', In (id, t') l -> task_left t <= task_left t') by (intros t' I; apply M; right; exact I). clear - M'.
    induction l as [|[k v] l IH]; [apply le_n|]. cbn [map fst snd list_sum fold_right]. unfold list_sum in *.
    assert (IH' := IH (fun t' I => M' t' (or_intror I))).
    destruct (String.eqb_spec k id) as [->|]; cbn [snd]; [|lia]. pose proof (M' v (or_introl eq_refl)). lia. }
  unfold list_sum in *. cbn [fold_right]. rewrite (String.eqb_sym k id).
  destruct (String.eqb_spec id k) as [->|N]; cbn [snd].
  - injection A as ->. lia.
  - assert (IH' := IH A L (fun t' I => M t' (or_intror I))). lia.
Qed.
Lemma waiting_left (o : list (string * gid)) :
  list_sum (map (fun x => task_left (snd x)) (map (fun x : string * gid => (fst x, TWait)) o)) = 2 * length o.
Proof. induction o as [|x o IH]; [reflexivity|]. cbn [map snd length list_sum fold_right task_left]. unfold list_sum in IH. lia. Qed.

Lemma gown_decreases u8 st ev st' : NoDup (map fst (g_tasks st)) -> gown ev -> gstep u8 st ev = Some st' -> gleft st' < gleft st.
Proof.
  intros Nd O S. assert (Un : forall id t, assoc id (g_tasks st) = Some t -> forall t', In (id, t') (g_tasks st) -> t' = t).
  { intros id t A t' I. apply (assoc_NoDup_In _ _ _ Nd) in I. congruence. }
  assert (St : forall id t t0, assoc id (g_tasks st) = Some t0 -> task_left t < task_left t0 ->
    list_sum (map (fun x => task_left (snd x)) (map (fun x => if String.eqb (fst x) id then (id, t) else x) (g_tasks st))) <
    list_sum (map (fun x => task_left (snd x)) (g_tasks st))).
  { intros id t t0 A L. apply (set_left id t _ t0 A L). intros t' I. rewrite (Un id t0 A t' I). lia. }
  unfold gleft. destruct ev as [f t| | | |o'| |id|id ok w|w|n]; cbn [gown gstep] in *; try contradiction.
  - destruct (g_pc st); try discriminate. injection S as <-. unfold gsetup. destruct (g_ok st); cbn [negb]; gsp; [|lia].
    rewrite waiting_left. lia.
  - destruct (g_pc st) eqn:P; try discriminate. destruct (assoc id (g_tasks st)) as [[]|] eqn:A; try discriminate.
    destruct (assoc id (go_ids (g_cfg st))) as [g|]; [|discriminate]. injection S as <-. unfold genter.
    assert (B := fun t => St id t TWait A).
    destruct (g_ok st); cbn [negb]; [|gsp; rewrite P; apply -> Nat.succ_lt_mono; apply B; cbn; lia].
    destruct (convert _ _) as [cur|]; [|gsp; rewrite P; apply -> Nat.succ_lt_mono; apply B; cbn; lia].
    destruct (assoc id (loaded_ids _)) as [prev|]; [|gsp; rewrite P; apply -> Nat.succ_lt_mono; apply B; cbn; lia].
    destruct (is_changed _ _ _) as [[|]|]; gsp; rewrite P; apply -> Nat.succ_lt_mono; apply B; cbn; lia.
  - destruct (g_pc st) eqn:P; try discriminate. destruct (assoc id (g_tasks st)) as [[]|] eqn:A; try discriminate. injection S as <-.
    assert (B := fun t => St id t _ A). unfold gcallback. destruct ok; gsp; rewrite P; apply -> Nat.succ_lt_mono; apply B; cbn; lia.
  - destruct (g_pc st) eqn:P; try discriminate. destruct (forallb _ _); [|discriminate]. unfold gfinish in S.
    destruct (gdirty st); [destruct (final_text st) as [t|]|]; destruct w as [| |n rep]; try discriminate;
      try (injection S as <-; gsp; lia).
    destruct (short n t); [|discriminate]. injection S as <-. destruct rep; gsp; lia.
Qed.
Lemma gleft_start u8 st o st' : gstep u8 st (GStart o) = Some st' -> gleft st' = 2 + 2 * length (go_ids o).
Proof.
  cbn [gstep]. destruct (g_pc st); try discriminate. unfold gstart. destruct (gobj_ok o); [|discriminate]. intros [= <-]. reflexivity.
Qed.
Lemma gleft_other u8 st ev st' : ~ gown ev -> (forall o, ev <> GStart o) -> gstep u8 st ev = Some st' -> gleft st' <= gleft st.
Proof.
  intros O Ns S. unfold gleft. destruct ev as [f t| | | |o'| |id|id ok w|w|n]; cbn [gown gstep] in *; try (destruct O; exact Logic.I).
  - injection S as <-. gsp. lia.
  - injection S as <-. gsp. lia.
  - destruct (g_pc st); try discriminate; injection S as <-; gsp; lia.
  - injection S as <-. gsp. lia.
  - destruct (Ns o' eq_refl).
  - destruct (g_pc st); try discriminate. destruct (_ && _); [|discriminate]. destruct (bind _ _); [|discriminate]. injection S as <-. gsp. lia.
Qed.

Lemma tasks_NoDup rg bd u8 h st : GInv rg bd u8 h st -> NoDup (map fst (g_tasks st)).
Proof.
  intros V. rewrite (gv_tasks _ _ _ _ _ V). destruct (g_pc st) eqn:P; try constructor. apply gobj_ok_NoDup.
  apply (gv_cfg _ _ _ _ _ V). congruence.
Qed.

Lemma gownb_iff ev : gownb ev = true <-> gown ev.
Proof. destruct ev; cbn; split; try discriminate; try contradiction; auto. Qed.

Theorem gen_bounded rg bd u8 m0 pre o run h st : lawful bd ->
  ghistory rg bd u8 m0 (pre ++ GStart o :: run) h st -> (forall o', ~ In (GStart o') run) ->
  length (filter gownb run) + gleft st <= 2 + 2 * length (go_ids o).
Proof.
  intros L. revert h st. induction run as [|ev run IH] using rev_ind; intros h st H N.
  - apply history_last in H as (h0 & st0 & _ & _ & S & _). rewrite (gleft_start _ _ _ _ S). cbn. lia.
  - replace (pre ++ GStart o :: run ++ [ev]) with ((pre ++ GStart o :: run) ++ [ev]) in H by (rewrite <- app_assoc; reflexivity).
    apply history_last in H as (h0 & st0 & H & _ & S & _).
    assert (A := IH h0 st0 H (fun o' I => N o' (in_or_app _ _ _ (or_introl I)))).
    rewrite filter_app, app_length. cbn [filter]. destruct (gownb ev) eqn:O; cbn [length].
    + apply gownb_iff in O. pose proof (gown_decreases _ _ _ _ (tasks_NoDup _ _ _ _ _ (history_inv _ _ _ _ _ _ _ L H)) O S). lia.
    + assert (K : gleft st <= gleft st0); [|lia]. apply (gleft_other u8 st0 ev st); [|intros o' ->; apply (N o'); apply in_or_app; right; left; reflexivity|exact S].
      intros K. apply gownb_iff in K. congruence.
Qed.

Lemma own_cfg u8 st ev st' : gown ev -> gstep u8 st ev = Some st' -> g_cfg st' = g_cfg st.
Proof.
  intros O S. destruct ev as [f t| | | |o'| |id|id ok w|w|n]; cbn [gown gstep] in *; try contradiction.
  - destruct (g_pc st); try discriminate. injection S as <-. unfold gsetup. destruct (negb _); reflexivity.
  - destruct (g_pc st); try discriminate. destruct (assoc id (g_tasks st)) as [[]|]; try discriminate.
    destruct (assoc id (go_ids _)) as [g|]; [|discriminate]. injection S as <-. unfold genter.
    destruct (negb _); [|destruct (convert _ _); [destruct (assoc id (loaded_ids _)); [destruct (is_changed _ _ _) as [[]|]|]|]]; reflexivity.
  - destruct (g_pc st); try discriminate. destruct (assoc id (g_tasks st)) as [[]|]; try discriminate. injection S as <-.
    unfold gcallback. destruct ok; reflexivity.
  - destruct (g_pc st); try discriminate. destruct (forallb _ _); [|discriminate]. unfold gfinish in S.
    destruct (gdirty st); [destruct (final_text st) as [t|]|]; destruct w as [| |n rep]; try discriminate; try (injection S as <-; reflexivity).
    destruct (short n t); [|discriminate]. injection S as <-. destruct rep; reflexivity.
Qed.
Lemma KeyInv_NoDup st : KeyInv st -> NoDup (map fst (g_tasks st)).
Proof. intros [A B]. rewrite A. destruct (g_pc st) eqn:P; try constructor. apply gobj_ok_NoDup, B. discriminate. Qed.
Lemma completes_inv u8 : forall n st, gleft st <= n -> KeyInv st ->
  exists more st', Forall (fun ev => gown ev /\ ggood (g_cfg st) ev) more /\ gexec u8 st more = Some st' /\ g_pc st' = GIdle.
Proof.
  induction n as [|n IH]; intros st Le K.
  - exists [], st. split; [constructor|]. split; [reflexivity|]. unfold gleft in Le. destruct (g_pc st); [reflexivity|lia|lia].
  - destruct (g_pc st) eqn:P; [exists [], st; repeat split; [constructor|exact P]| |].
    all: destruct (never_stuck_inv u8 st K) as (ev & st1 & A & B & _ & S); [congruence|];
      pose proof (gown_decreases _ _ _ _ (KeyInv_NoDup _ K) A S) as D;
      destruct (IH st1) as (more & st' & M1 & M2 & M3); [lia|exact (KeyInv_own _ _ _ _ A S K)|];
      exists (ev :: more), st'; split; [constructor; [auto|rewrite (own_cfg _ _ _ _ A S) in M1; exact M1]|]; split; [cbn [gexec]; rewrite S; exact M2|exact M3].
Qed.
Theorem gen_completes rg bd u8 m0 evs h st : lawful bd -> ghistory rg bd u8 m0 evs h st ->
  exists more st', Forall (fun ev => gown ev /\ ggood (g_cfg st) ev) more /\ gexec u8 st more = Some st' /\ g_pc st' = GIdle.
Proof. intros L H. exact (completes_inv u8 _ st (le_n _) (KeyInv_of _ _ _ _ _ (history_inv _ _ _ _ _ _ _ L H))). Qed.

(** ** What makes runs fail *)

Definition starts_none (run : list gevent) : Prop := forall o', ~ In (GStart o') run.
Lemma run_cfg rg bd u8 m0 pre o run : forall h st, ghistory rg bd u8 m0 (pre ++ GStart o :: run) h st -> starts_none run -> g_cfg st = o.
Proof.
  induction run as [|ev run IH] using rev_ind; intros h st H N.
  - apply history_last in H as (h0 & st0 & _ & _ & S & _). cbn [gstep] in S. destruct (g_pc st0); try discriminate. unfold gstart in S.
    destruct (gobj_ok o); [|discriminate]. injection S as <-. reflexivity.
  - replace (pre ++ GStart o :: run ++ [ev]) with ((pre ++ GStart o :: run) ++ [ev]) in H by (rewrite <- app_assoc; reflexivity).
    apply history_last in H as (h0 & st0 & H & _ & S & _).
    rewrite <- (IH h0 st0 H (fun o' I => N o' (in_or_app _ _ _ (or_introl I)))).
    destruct ev as [f t| | | |o'| |id|id ok w|w|n]; cbn [gstep] in S.
    + injection S as <-. reflexivity.
    + injection S as <-. reflexivity.
    + destruct (g_pc st0); try discriminate; injection S as <-; reflexivity.
    + injection S as <-. reflexivity.
    + destruct (N o'). apply in_or_app. right. left. reflexivity.
    + destruct (g_pc st0); try discriminate. injection S as <-. unfold gsetup. destruct (negb _); reflexivity.
    + destruct (g_pc st0); try discriminate. destruct (assoc id (g_tasks st0)) as [[]|]; try discriminate.
      destruct (assoc id (go_ids _)); [|discriminate]. injection S as <-. unfold genter. destruct (negb _); [reflexivity|].
      destruct (convert _ _); [|reflexivity]. destruct (assoc id (loaded_ids _)); [|reflexivity]. destruct (is_changed _ _ _) as [[]|]; reflexivity.
    + destruct (g_pc st0); try discriminate. destruct (assoc id (g_tasks st0)) as [[]|]; try discriminate. injection S as <-.
      unfold gcallback. destruct ok; reflexivity.
    + assert (K := finish_keeps u8 st0 w st S). apply K.
    + destruct (g_pc st0); try discriminate. destruct (_ && _); [|discriminate]. destruct (bind _ _); [|discriminate]. injection S as <-. reflexivity.
Qed.

(** Inputs of ids that have been looked at (without failure) exist. *)
Definition SeenInv (st : gstate) : Prop :=
  forall id g t f, assoc id (go_ids (g_cfg st)) = Some g -> assoc id (g_tasks st) = Some t ->
    t <> TWait -> (forall b, t <> TEnd b false) -> In f (inputs_of g) -> gd_mt (g_disk st) f <> None.
Lemma write_all_other (w : list (string * option N)) : forall m f, (forall t, ~ In (f, t) w) -> write_all m w f = m f.
Proof.
  induction w as [|[k v] w IH]; intros m f N; [reflexivity|]. unfold write_all in *. cbn [fold_left fst snd].
  rewrite IH by (intros t I; apply (N t); right; exact I). unfold upd. destruct (String.eqb_spec f k) as [->|]; [|reflexivity].
  destruct (N v). left. reflexivity.
Qed.
Lemma seen_step rg bd u8 h st ev st' : GInv rg bd u8 h st -> SeenInv st -> gadmissible rg bd h st ev -> gstep u8 st ev = Some st' -> SeenInv st'.
Proof.
  intros V I A S. unfold SeenInv in *.
  assert (No : g_tasks st' = [] -> forall id g t f, assoc id (go_ids (g_cfg st')) = Some g -> assoc id (g_tasks st') = Some t ->
    t <> TWait -> (forall b, t <> TEnd b false) -> In f (inputs_of g) -> gd_mt (g_disk st') f <> None)
    by (intros -> id g t f _ K; discriminate).
  destruct ev as [f0 t0| | | |o'| |id0|id0 ok w|w|n]; cbn [gstep gadmissible] in *.
  - injection S as <-. gsp. intros id g t f G T W E F. unfold upd. destruct (String.eqb_spec f f0) as [->|]; [|exact (I id g t f G T W E F)].
    destruct W. exact (proj1 A id g t G F T).
  - injection S as <-. gsp. exact I.
  - destruct (g_pc st); try discriminate; injection S as <-; gsp; apply No; reflexivity.
  - injection S as <-. gsp. exact I.
  - destruct (g_pc st); try discriminate. unfold gstart in S. destruct (gobj_ok o'); [|discriminate]. injection S as <-. gsp. apply No; reflexivity.
  - destruct (g_pc st); try discriminate. injection S as <-. unfold gsetup in *. destruct (negb _); gsp; [apply No; reflexivity|].
    intros id g t f G T W. apply assoc_In, in_map_iff in T as (x & T & _). apply pair_equal_spec in T as [_ <-]. congruence.
  - destruct (g_pc st) eqn:P; try discriminate. destruct (assoc id0 (g_tasks st)) as [[]|] eqn:T0; try discriminate.
    destruct (assoc id0 (go_ids (g_cfg st))) as [g0|] eqn:G0; [|discriminate]. injection S as <-.
    assert (K : forall b t1, (forall b', t1 <> TEnd b' false) -> convert (gd_mt (g_disk st)) g0 <> None ->
      forall id g t f, assoc id (go_ids (g_cfg (gwith_ok (set_task st id0 t1) b))) = Some g ->
      assoc id (g_tasks (gwith_ok (set_task st id0 t1) b)) = Some t -> t <> TWait -> (forall b, t <> TEnd b false) -> In f (inputs_of g) ->
      gd_mt (g_disk (gwith_ok (set_task st id0 t1) b)) f <> None).
    { intros b t1 _ C id g t f G T W E F. gsp. rewrite assoc_set_task, T0 in T. destruct (String.eqb_spec id id0) as [->|].
      - rewrite G0 in G. injection G as <-. destruct (convert (gd_mt (g_disk st)) g0) as [i|] eqn:Cv; [|congruence].
        destruct (convert_spec _ _ _ Cv) as (Hh & _). destruct (Hashed_ex _ _ _ _ Hh F) as (x & _ & _ & (v & Hv & _)). congruence.
      - exact (I id g t f G T W E F). }
    assert (Kf : forall b b', forall id g t f, assoc id (go_ids (g_cfg (gwith_ok (set_task st id0 (TEnd b' false)) b))) = Some g ->
      assoc id (g_tasks (gwith_ok (set_task st id0 (TEnd b' false)) b)) = Some t -> t <> TWait -> (forall b, t <> TEnd b false) -> In f (inputs_of g) ->
      gd_mt (g_disk (gwith_ok (set_task st id0 (TEnd b' false)) b)) f <> None).
    { intros b b' id g t f G T W E F. gsp. rewrite assoc_set_task, T0 in T. destruct (String.eqb_spec id id0) as [->|].
      - injection T as <-. destruct (E b' eq_refl).
      - exact (I id g t f G T W E F). }
    unfold genter. destruct (g_ok st) eqn:Ok; cbn [negb]; [|exact (Kf (g_ok st) false)].
    destruct (convert (gd_mt (g_disk st)) g0) as [cur|] eqn:Cv; [|exact (Kf false false)].
    destruct (assoc id0 (loaded_ids (g_load st))) as [prev|].
    + destruct (is_changed _ _ _) as [[|]|].
      * refine (K (g_ok st) (TCall cur) _ _); discriminate.
      * refine (K (g_ok st) (TEnd false true) _ _); discriminate.
      * exact (Kf false false).
    + refine (K (g_ok st) (TCall cur) _ _); discriminate.
  - destruct (g_pc st) eqn:P; try discriminate. destruct (assoc id0 (g_tasks st)) as [[|i0|]|] eqn:T0; try discriminate. injection S as <-.
    assert (T := gv_tasks _ _ _ _ _ V). rewrite P in T.
    assert (Kp : forall id g t f, assoc id (go_ids (g_cfg st)) = Some g ->
      assoc id (map (fun x => if String.eqb (fst x) id0 then (id0, TEnd true ok) else x) (g_tasks st)) = Some t ->
      t <> TWait -> (forall b, t <> TEnd b false) -> In f (inputs_of g) -> write_all (gd_mt (g_disk st)) w f <> None).
    { intros id g t f G T1 W E F. rewrite assoc_set_task, T0 in T1.
      assert (Old : exists t', assoc id (g_tasks st) = Some t' /\ t' <> TWait /\ forall b, t' <> TEnd b false).
      { destruct (String.eqb_spec id id0) as [->|]; [|eauto]. exists (TCall i0). repeat split; [exact T0|discriminate|discriminate]. }
      destruct Old as (t' & T2 & W2 & E2). rewrite write_all_other; [exact (I id g t' f G T2 W2 E2 F)|].
      intros v K. destruct (A f v K) as [U _]. exact (W2 (U id g t' G F T2)). }
    unfold gcallback. destruct ok; gsp; exact Kp.
  - destruct (g_pc st); try discriminate. destruct (forallb _ _); [|discriminate]. unfold gfinish in S.
    destruct (gdirty st); [destruct (final_text st) as [t|]|]; destruct w as [| |n rep]; try discriminate; try (injection S as <-; gsp; apply No; reflexivity).
    destruct (short n t); [|discriminate]. injection S as <-. destruct rep; gsp; apply No; reflexivity.
  - destruct (g_pc st); try discriminate. destruct (_ && _); [|discriminate]. destruct (bind _ _); [|discriminate]. injection S as <-. gsp.
    apply No; reflexivity.
Qed.
Lemma seen_history rg bd u8 m0 evs h st : lawful bd -> ghistory rg bd u8 m0 evs h st -> SeenInv st.
Proof.
  intros L H. induction H as [|evs h st ev st' H IH A S]; [intros id g t f _ K; discriminate|].
  exact (seen_step _ _ _ _ _ _ _ (history_inv _ _ _ _ _ _ _ L H) IH A S).
Qed.
Theorem success_inputs rg bd u8 m0 evs w h st : lawful bd -> ghistory rg bd u8 m0 (evs ++ [GFinish w]) h st -> g_ok st = true ->
  inputs_there (gd_mt (g_disk st)) (g_cfg st).
Proof.
  intros L H O id g f I F. apply history_last in H as (h0 & st0 & H & A & S & ->).
  pose proof (history_inv _ _ _ _ _ _ _ L H) as V.
  destruct (finish_keeps _ _ _ _ S) as (P & E & _ & E1 & _ & E3 & _ & _ & E4). rewrite E3 in I. rewrite E1.
  assert (NI : g_pc st0 <> GIdle) by congruence. destruct (gv_cfg _ _ _ _ _ V NI) as (Go & _ & _).
  pose proof (assoc_NoDup_In _ _ _ (gobj_ok_NoDup _ Go) I) as G.
  destruct (all_ended _ _ _ _ _ _ _ V P E (E4 O) G) as (b & T & _).
  refine (seen_history _ _ _ _ _ _ _ L H id g (TEnd b true) f G T _ _ F); discriminate.
Qed.

(** The id whose callback was invoked in the run counts as run. *)
Lemma called_stays rg bd u8 m0 pre o id ok wr a b : forall h st, lawful bd ->
  ghistory rg bd u8 m0 (pre ++ GStart o :: a ++ GCall id ok wr :: b) h st -> starts_none b ->
  g_pc st <> GBuilt /\ (g_pc st = GTasks -> exists r, assoc id (g_tasks st) = Some (TEnd true r)).
Proof.
  induction b as [|ev b IH] using rev_ind; intros h st L H N.
  - replace (pre ++ GStart o :: a ++ [GCall id ok wr]) with ((pre ++ GStart o :: a) ++ [GCall id ok wr]) in H by (rewrite <- app_assoc; reflexivity).
    apply history_last in H as (h0 & st0 & H & _ & S & _). cbn [gstep] in S. destruct (g_pc st0) eqn:P; try discriminate.
    destruct (assoc id (g_tasks st0)) as [[]|] eqn:T; try discriminate. injection S as <-. unfold gcallback.
    destruct ok; gsp; rewrite P; (split; [discriminate|]); intros _; rewrite assoc_set_task, String.eqb_refl, T; eauto.
  - replace (pre ++ GStart o :: a ++ GCall id ok wr :: b ++ [ev]) with ((pre ++ GStart o :: a ++ GCall id ok wr :: b) ++ [ev]) in H
      by (rewrite <- !app_assoc; cbn [app]; rewrite <- app_assoc; reflexivity).
    apply history_last in H as (h0 & st0 & H & _ & S & _).
    destruct (IH h0 st0 L H (fun o' I => N o' (in_or_app _ _ _ (or_introl I)))) as [A1 A2].
    assert (Set1 : forall k t, g_pc st0 = GTasks -> assoc k (g_tasks st0) <> None -> (forall r, assoc k (g_tasks st0) <> Some (TEnd true r)) ->
      exists r, assoc id (map (fun x => if String.eqb (fst x) k then (k, t) else x) (g_tasks st0)) = Some (TEnd true r)).
    { intros k t P _ Nk. destruct (A2 P) as (r & R). rewrite assoc_set_task. destruct (String.eqb_spec id k) as [->|]; [destruct (Nk r R)|eauto]. }
    destruct ev as [f0 t0| | | |o'| |k|k ok' w|w|n]; cbn [gstep] in S.
    + injection S as <-. gsp. auto.
    + injection S as <-. gsp. auto.
    + destruct (g_pc st0); try discriminate; injection S as <-; gsp; split; discriminate.
    + injection S as <-. gsp. auto.
    + destruct (N o'). apply in_or_app. right. left. reflexivity.
    + destruct (g_pc st0); try discriminate. destruct A1. reflexivity.
    + destruct (g_pc st0) eqn:P; try discriminate. destruct (assoc k (g_tasks st0)) as [[]|] eqn:T; try discriminate.
      destruct (assoc k (go_ids _)) as [g|]; [|discriminate]. injection S as <-.
      assert (B := fun t => Set1 k t eq_refl ltac:(congruence) ltac:(congruence)).
      unfold genter. destruct (negb _); [gsp; rewrite P; split; [discriminate|auto]|].
      destruct (convert _ _); [|gsp; rewrite P; split; [discriminate|auto]].
      destruct (assoc k (loaded_ids _)); [destruct (is_changed _ _ _) as [[]|]|]; gsp; rewrite P; (split; [discriminate|auto]).
    + destruct (g_pc st0) eqn:P; try discriminate. destruct (assoc k (g_tasks st0)) as [[]|] eqn:T; try discriminate. injection S as <-.
      assert (B := fun t => Set1 k t eq_refl ltac:(congruence) ltac:(congruence)). unfold gcallback. destruct ok'; gsp; rewrite P; (split; [discriminate|auto]).
    + destruct (finish_keeps u8 _ _ _ S) as (_ & _ & _ & _ & _ & _ & _ & P & _). rewrite P. split; discriminate.
    + destruct (g_pc st0); try discriminate. destruct (_ && _); [|discriminate]. destruct (bind _ _); [|discriminate]. injection S as <-. gsp. split; discriminate.
Qed.
Theorem not_utf8_fails rg bd u8 m0 pre o a id ok wr b w h st : lawful bd ->
  ghistory rg bd u8 m0 ((pre ++ GStart o :: a ++ GCall id ok wr :: b) ++ [GFinish w]) h st ->
  (forall o', ~ In (GStart o') (a ++ GCall id ok wr :: b)) -> ~ gstorable o -> g_ok st = false.
Proof.
  intros L H N Us. apply history_last in H as (h0 & st0 & H & _ & S & _).
  pose proof (history_inv _ _ _ _ _ _ _ L H) as V.
  destruct (finish_keeps _ _ _ _ S) as (P & E & Fn & E1 & _ & E3 & _ & _ & E4).
  destruct (g_ok st) eqn:O; [|reflexivity]. exfalso. specialize (E4 eq_refl).
  assert (Ec := run_cfg _ _ _ _ _ _ _ _ _ H N).
  destruct (called_stays _ _ _ _ _ _ _ _ _ _ _ _ _ L H (fun o1 I => N o1 (in_or_app _ _ (GStart o1) (or_intror (in_cons _ _ b I))))) as [_ C].
  destruct (C P) as (r & R). assert (D : gdirty st0 = true).
  { unfold gdirty. apply orb_true_iff. right. apply existsb_exists. exists (id, TEnd true r). split; [exact (assoc_In _ _ _ R)|reflexivity]. }
  unfold gfinish in Fn. rewrite D in Fn. destruct (final_text st0) as [t|] eqn:T.
  - apply Us. unfold final_text in T. destruct (final_ids _ _ _) as [l|] eqn:Fi; [|discriminate].
    assert (U : Forall valid_utf8 (gen_strings (GS "" l))) by (apply gen_store_text_iff; eauto).
    assert (NI : g_pc st0 <> GIdle) by congruence. destruct (gv_cfg _ _ _ _ _ V NI) as (Go & _ & _). rewrite Ec in Go, Fi.
    destruct (final_ids_spec _ _ _ _ Fi) as (_ & _ & _ & Dx). unfold gstorable. rewrite Forall_forall in *. intros s Hs.
    apply in_flat_map in Hs as ([k g] & Hk & Hs). pose proof (assoc_NoDup_In _ _ _ (gobj_ok_NoDup _ Go) Hk) as G. rewrite <- Ec in G.
    destruct (all_ended _ _ _ _ _ _ _ V P E E4 G) as (b0 & T0 & _). destruct (Dx k g _ Hk T0 eq_refl) as (i & Hi & Cv).
    destruct (convert_spec _ _ _ Cv) as (K1 & K2 & _). apply U. cbn [gen_strings gs_name gs_ids]. right. apply in_flat_map. exists (k, i). split; [exact Hi|].
    unfold id_strings. cbn [fst snd]. unfold id_texts in Hs. cbn [fst snd] in Hs. destruct Hs as [<-|Hs]; [left; reflexivity|right].
    rewrite K2. apply in_app_iff in Hs as [Hs|Hs]; apply in_app_iff; [left|right; exact Hs].
    rewrite <- (Hashed_paths _ _ _ K1) in Hs. unfold il_paths in Hs. apply in_map_iff in Hs as (x & <- & Hx).
    unfold info_strings. apply in_flat_map. exists x. split; [exact Hx|left; reflexivity].
  - destruct w; try discriminate. injection Fn as <-. discriminate.
Qed.

(** ** Checking the conditions by computation *)

Lemma inputs_thereb m o : forallb (fun x => forallb (fun f => match m f with Some _ => true | None => false end) (inputs_of (snd x))) (go_ids o) = true ->
  inputs_there m o.
Proof.
  intros H id g f I F. rewrite forallb_forall in H. specialize (H _ I). rewrite forallb_forall in H. specialize (H _ F). destruct (m f); discriminate.
Qed.
Definition ascii_only (s : string) : bool := forallb (fun c => N.ltb (Ascii.N_of_ascii c) 128) (list_ascii_of_string s).
Lemma ascii_utf8 s : ascii_only s = true -> valid_utf8 s.
Proof.
  unfold ascii_only. induction s as [|c s IH]; cbn [list_ascii_of_string forallb]; [exists []; split; [constructor|reflexivity]|].
  intros H. apply andb_true_iff in H as [H1 H2]. destruct (IH H2) as (l & F & ->). exists (Ascii.N_of_ascii c :: l).
  apply N.ltb_lt in H1. split; [constructor; [left; lia|exact F]|]. cbn [encode_all]. unfold encode_utf8. apply N.ltb_lt in H1. rewrite H1.
  unfold chr. rewrite Ascii.ascii_N_embedding. reflexivity.
Qed.
Lemma gstorableb o : forallb ascii_only (flat_map id_texts (go_ids o)) = true -> gstorable o.
Proof. intros H. unfold gstorable. rewrite Forall_forall. intros s I. rewrite forallb_forall in H. exact (ascii_utf8 s (H s I)). Qed.
