(** Programs with targets and generators: the invariant of one generator. *)
From Verif Require Import Prelude Proof_Prelude Model_Path Model_Schema Model_Command Model_ToolchainConfig Model_Target
  Spec_Target Model_Gen Spec_Gen Proof_GenMain Model_Reg Spec_Reg Proof_Reg Proof_RegRun
  Model_Project Spec_Project Proof_Project Model_Full Spec_Full.

(** ** Delivery *)
Section Delivery.
Context (u8 : string -> N).
Lemma gdeliver_ids F ev l : forall l', gdeliver u8 F ev l = Some l' -> map fst l' = map fst l.
Proof.
  induction l as [|[j g] l IH]; intros l' H; cbn [gdeliver] in H; [injection H as <-; reflexivity|].
  destruct (gexec u8 g _); [|discriminate]. destruct (gdeliver u8 F ev l); [|discriminate]. injection H as <-. cbn [map fst].
  rewrite (IH _ eq_refl). reflexivity.
Qed.
Lemma gdeliver_In F ev l : forall l' j g', gdeliver u8 F ev l = Some l' -> In (j, g') l' ->
  exists g, In (j, g) l /\ gexec u8 g (gdelivered u8 F ev j g) = Some g'.
Proof.
  induction l as [|[i g0] l IH]; intros l' j g' H Hi; cbn [gdeliver] in H; [injection H as <-; destruct Hi|].
  destruct (gexec u8 g0 _) as [s1|] eqn:E; [|discriminate]. destruct (gdeliver u8 F ev l) as [r|]; [|discriminate].
  injection H as <-. destruct Hi as [Hi|Hi].
  - injection Hi as <- <-. exists g0. split; [left; reflexivity|exact E].
  - destruct (IH r j g' eq_refl Hi) as (g & A & B). exists g. split; [right; exact A|exact B].
Qed.
Lemma gdeliver_In' F ev l : forall l' j g, gdeliver u8 F ev l = Some l' -> In (j, g) l ->
  exists g', In (j, g') l' /\ gexec u8 g (gdelivered u8 F ev j g) = Some g'.
Proof.
  induction l as [|[i g0] l IH]; intros l' j g H Hi; cbn [gdeliver] in H; [destruct Hi|].
  destruct (gexec u8 g0 _) as [s1|] eqn:E; [|discriminate]. destruct (gdeliver u8 F ev l) as [r|]; [|discriminate].
  injection H as <-. destruct Hi as [Hi|Hi].
  - injection Hi as <- <-. exists s1. split; [left; reflexivity|exact E].
  - destruct (IH r j g eq_refl Hi) as (g' & A & B). exists g'. split; [right; exact A|exact B].
Qed.
End Delivery.

(** ** One generator in the program *)
Section Generator.
Context (rg : regime) (bd : string -> discipline) (u8 : string -> N).
Hypothesis Law : forall j, lawful (bd j).

Record JInv (objs : list (string * gobj)) (run : option (nat * reg * xstate)) (ok ed : bool)
    (j : string) (g : gstate) (h : ghist) : Prop := {
  ji_hist : exists m0 evs, ghistory rg (bd j) u8 m0 evs h g;
  ji_tasks : g_pc g <> GTasks -> g_tasks g = [];
  ji_unbuilt : assoc j objs = None -> g_pc g = GIdle;
  ji_cfg : forall o, assoc j objs = Some o -> g_cfg g = o;
  ji_reg : forall o, assoc j objs = Some o -> run = None -> g_pc g = GBuilt /\ g_ok g = true;
  ji_early : forall o w r x, assoc j objs = Some o -> run = Some (w, r, x) -> ~ In j (starts (x_log x)) -> g_pc g = GBuilt;
  ji_late : forall o w r x, assoc j objs = Some o -> run = Some (w, r, x) -> In j (finishes (x_log x)) -> g_pc g = GIdle;
  ji_ok : forall o w r x, assoc j objs = Some o -> run = Some (w, r, x) -> ok = true -> g_ok g = true;
  ji_done : forall o w r x, assoc j objs = Some o -> run = Some (w, r, x) -> ed = false -> g_pc g = GIdle -> g_ok g = true ->
    forall k gi, In (k, gi) (go_ids o) -> id_current (bd j) (gd_mt (g_disk g)) (g_disk g) k gi }.


(** A write that comes before the generator looks at its inputs, or does not matter. *)
Definition gharmless (objs : list (string * gobj)) (j : string) (g : gstate) (f : string) : Prop :=
  assoc j objs = None \/ g_pc g = GBuilt \/ (forall k gi, In (k, gi) (go_ids (g_cfg g)) -> ~ In f (inputs_of gi)).
Lemma gharmless_unread objs run ok ed j g h f : JInv objs run ok ed j g h -> gharmless objs j g f -> unread g f.
Proof.
  intros I H k gi t Ha Hf Ht. destruct H as [H|[H|H]].
  - rewrite (ji_tasks _ _ _ _ _ _ _ I) in Ht; [discriminate|]. rewrite (ji_unbuilt _ _ _ _ _ _ _ I H). discriminate.
  - rewrite (ji_tasks _ _ _ _ _ _ _ I) in Ht; [discriminate|]. rewrite H. discriminate.
  - destruct (H k gi (assoc_In _ _ _ Ha) Hf).
Qed.
Lemma id_current_upd b d f t k gi : ~ In f (inputs_of gi) -> id_current b (gd_mt d) d k gi ->
  id_current b (gd_mt (set_gmt d (upd (gd_mt d) f t))) (set_gmt d (upd (gd_mt d) f t)) k gi.
Proof.
  intros N (a & A1 & A2 & A3 & A4 & A5). exists a. cbn [gd_mt gd_made set_gmt]. repeat split; try assumption.
  intros x Hx. rewrite (A5 x Hx). unfold upd. destruct (String.eqb_spec x f) as [->|]; [contradiction|reflexivity].
Qed.

Definition gedit (g : gstate) (f : string) (t : option N) : gstate :=
  gwith_disk g (set_gmt (g_disk g) (upd (gd_mt (g_disk g)) f t)).
Lemma gharmless_edit objs run ok ed j g h f t :
  JInv objs run ok ed j g h -> gharmless objs j g f -> (rg = Forward -> fresh h f t) ->
  JInv objs run ok ed j (gedit g f t) (gtrack h g (GEdit f t)).
Proof.
  intros I H L. pose proof (gharmless_unread _ _ _ _ _ _ _ _ I H) as Un.
  destruct I as [I1 I2 I3 I4 I5 I6 I7 I8 I9]. constructor; unfold gedit; cbn [g_pc g_cfg g_ok g_tasks g_disk gwith_disk]; try assumption.
  - destruct I1 as (m0 & evs & I1). exists m0, (evs ++ [GEdit f t]). apply (ghistory_snoc _ _ _ _ _ _ _ (GEdit f t) _ I1 (conj Un L)). reflexivity.
  - intros o w r x Ho Hr E P O k gi Hk. apply id_current_upd; [|exact (I9 o w r x Ho Hr E P O k gi Hk)].
    destruct H as [H|[H|H]]; [congruence|congruence|]. rewrite (I4 o Ho) in H. exact (H k gi Hk).
Qed.
Lemma guser_edit objs run ok ed j g h f t :
  JInv objs run ok ed j g h -> gadmissible rg (bd j) h g (GEdit f t) ->
  JInv objs run ok true j (gedit g f t) (gtrack h g (GEdit f t)).
Proof.
  intros I A. destruct I as [I1 I2 I3 I4 I5 I6 I7 I8 I9]. constructor; unfold gedit; cbn [g_pc g_cfg g_ok g_tasks g_disk gwith_disk]; try assumption; try discriminate.
  destruct I1 as (m0 & evs & I1). exists m0, (evs ++ [GEdit f t]). apply (ghistory_snoc _ _ _ _ _ _ _ (GEdit f t) _ I1 A). reflexivity.
Qed.

(** Several files are written by another builder. *)
Lemma gexec_app' g a b : gexec u8 g (a ++ b) = match gexec u8 g a with Some g' => gexec u8 g' b | None => None end.
Proof. revert g. induction a as [|ev a IH]; intros g; cbn [gexec app]; [reflexivity|]. destruct (gstep u8 g ev); [apply IH|reflexivity]. Qed.
Lemma gtracks_app h g a b g1 : gexec u8 g a = Some g1 -> gtracks u8 h g (a ++ b) = gtracks u8 (gtracks u8 h g a) g1 b.
Proof.
  revert h g. induction a as [|ev a IH]; intros h g X; cbn [gexec app gtracks] in *; [injection X as <-; reflexivity|].
  destruct (gstep u8 g ev); [apply IH; exact X|discriminate].
Qed.
Definition edits (w : list (string * option N)) : list gevent := map (fun x => GEdit (fst x) (snd x)) w.
Lemma fresh_other h g f t f' t' : f' <> f -> fresh h f' t' -> fresh (gtrack h g (GEdit f t)) f' t'.
Proof.
  intros N H v E. cbn [gtrack gh_next]. unfold next_after. cbn [fst snd]. destruct t; [|exact (H v E)].
  unfold upd. destruct (String.eqb_spec f' f); [contradiction|exact (H v E)].
Qed.
Lemma gharmless_edits objs run ok ed j w : forall g h, NoDup (map fst w) ->
  JInv objs run ok ed j g h -> (forall f t, In (f, t) w -> gharmless objs j g f) ->
  (rg = Forward -> forall f t, In (f, t) w -> fresh h f t) ->
  exists g', gexec u8 g (edits w) = Some g' /\ JInv objs run ok ed j g' (gtracks u8 h g (edits w)) /\
    grunning g' = grunning g.
Proof.
  induction w as [|[f t] w IH]; intros g h N I Hm L; cbn [edits map gexec gtracks fst snd].
  - exists g. auto.
  - cbn [map fst] in N. inversion N as [|? ? N1 N2]; subst. cbn [gstep]. change (gwith_disk g _) with (gedit g f t).
    pose proof (gharmless_edit _ _ _ _ _ _ _ f t I (Hm f t (or_introl eq_refl)) (fun E => L E f t (or_introl eq_refl))) as I'.
    destruct (IH (gedit g f t) _ N2 I') as (g' & A & B & C).
    + intros f' t' H'. exact (Hm f' t' (or_intror H')).
    + intros E f' t' H'. apply fresh_other; [|exact (L E f' t' (or_intror H'))]. intros ->. apply N1. apply (in_map fst _ _ H').
    + exists g'. split; [exact A|]. split; [exact B|exact C].
Qed.

(** Another builder failed. *)
Lemma gfail_JInv objs run ok ed j g h failed g' : JInv objs run ok ed j g h -> run <> None ->
  gexec u8 g (gfail_others failed g) = Some g' ->
  JInv objs run (ok && negb failed) ed j g' (gtracks u8 h g (gfail_others failed g)).
Proof.
  intros I Hr X. unfold gfail_others in *. destruct failed; cbn [andb negb] in *.
  - rewrite andb_false_r. destruct I as [I1 I2 I3 I4 I5 I6 I7 I8 I9].
    destruct (grunning g) eqn:Ru; cbn [gexec gstep gtracks] in *; injection X as <-.
    + constructor; cbn [g_pc g_cfg g_ok g_tasks g_disk gwith_ok]; try assumption; try discriminate.
      * destruct I1 as (m0 & evs & I1). exists m0, (evs ++ [GFail]). apply (ghistory_snoc _ _ _ _ _ _ _ GFail _ I1 Logic.I). reflexivity.
      * intros o _ K. contradiction.
    + constructor; try assumption. discriminate.
  - rewrite andb_true_r. cbn [gexec gtracks] in *. injection X as <-. exact I.
Qed.

(** A step of its own. *)
Lemma generate_step g x g' : in_generate x = true -> gstep u8 g x = Some g' ->
  g_cfg g' = g_cfg g /\ g_pc g <> GIdle /\ (g_pc g' = GIdle -> g_ok g' = true -> exists w, x = GFinish w) /\
  (g_pc g' <> GTasks -> g_tasks g' = []) /\ (g_ok g' = true -> g_ok g = true).
Proof.
  intros F S. destruct x; try discriminate; cbn [gstep] in S; destruct (g_pc g) eqn:P; try discriminate.
  - injection S as <-. unfold gsetup. destruct (g_ok g) eqn:O; cbn [negb].
    + cbn [g_cfg g_pc g_ok g_tasks]. repeat split; try congruence.
    + cbn [gidle g_cfg g_pc g_ok g_tasks]. repeat split; try congruence.
  - destruct (assoc id (g_tasks g)) as [[| |]|]; try discriminate. destruct (assoc id (go_ids _)) as [gi|]; [|discriminate]. injection S as <-.
    assert (K : g_cfg (genter g id gi) = g_cfg g /\ g_pc (genter g id gi) = GTasks /\ (g_ok (genter g id gi) = true -> g_ok g = true)).
    { unfold genter. destruct (g_ok g) eqn:O; cbn [negb]; [|repeat split; cbn [set_task g_pc g_ok]; congruence].
      destruct (convert _ _); [|repeat split; cbn [set_task gwith_ok g_pc]; congruence].
      destruct (assoc id (loaded_ids _)); [destruct (is_changed _ _ _) as [[|]|]|]; repeat split; cbn [set_task gwith_ok g_pc]; congruence. }
    destruct K as (K1 & K2 & K3). rewrite K2. repeat split; try assumption; congruence.
  - destruct (assoc id (g_tasks g)) as [[| |]|]; try discriminate. injection S as <-. unfold gcallback.
    destruct ok; cbn [glogged set_task gwith_disk gwith_ok g_cfg g_pc g_ok]; rewrite ?P; repeat split; congruence.
  - destruct (forallb _ _); [|discriminate]. unfold gfinish in S.
    assert (K : forall y z, g_cfg (gwith_disk (gidle g) z) = g_cfg g /\ g_pc (gwith_disk (gidle g) z) = GIdle /\ g_tasks (gwith_disk (gidle g) z) = [] /\
      g_ok (gwith_disk (gidle g) z) = g_ok g /\ g_cfg (gwith_ok y false) = g_cfg y) by (intros; repeat split; reflexivity).
    destruct (gdirty g); [destruct (final_text g) as [t|]|]; destruct w as [| |n rep]; try discriminate;
      try (injection S as <-; cbn [gidle gwith_disk gwith_ok g_cfg g_pc g_ok g_tasks]; repeat split; try congruence; eexists; reflexivity).
    destruct (short n t); [|discriminate]. injection S as <-.
    destruct rep; cbn [gidle gwith_disk gwith_ok g_cfg g_pc g_ok g_tasks]; repeat split; try congruence; eexists; reflexivity.
Qed.
Lemma gown_step objs w r x ok ed j g h o ev g' :
  JInv objs (Some (w, r, x)) ok ed j g h -> assoc j objs = Some o ->
  XInv w (rg_built r) (rg_edges r) x -> In j (x_running x) ->
  in_generate ev = true -> gadmissible rg (bd j) h g ev -> gstep u8 g ev = Some g' ->
  JInv objs (Some (w, r, x)) (ok && g_ok g') ed j g' (gtrack h g ev).
Proof.
  intros I Ho X Ru F A S. destruct (generate_step _ _ _ F S) as (Sc & Sn & Si & St & So).
  pose proof (running_started _ _ _ _ _ X Ru) as Rs. pose proof (running_not_finished _ _ _ _ _ X Ru) as Rf.
  destruct I as [I1 I2 I3 I4 I5 I6 I7 I8 I9]. destruct I1 as (m0 & evs & I1).
  pose proof (ghistory_snoc _ _ _ _ _ _ _ _ _ I1 A S) as Hh. constructor; try assumption.
  - exists m0, (evs ++ [ev]). exact Hh.
  - congruence.
  - rewrite Sc. exact I4.
  - discriminate.
  - intros o' w' r' x' _ [= <- <- <-] K. contradiction.
  - intros o' w' r' x' _ [= <- <- <-] K. contradiction.
  - intros o' w' r' x' _ _ K. apply andb_true_iff in K as [_ K]. exact K.
  - intros o' w' r' x' Ho' _ _ P O k gi Hk. destruct (Si P O) as (wr & ->). rewrite <- (I4 o' Ho'), <- Sc in Hk.
    exact (run_current _ _ _ _ _ _ _ _ (Law j) Hh O k gi Hk).
Qed.
End Generator.
