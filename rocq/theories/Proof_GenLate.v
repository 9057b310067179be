(** Late calls of generators. *)
From Verif Require Import Prelude Proof_Prelude Model_Path Model_Json Model_Schema Model_Command Model_Target Spec_Target
  Model_Gen Spec_Gen Model_FileGen Spec_FileGen Proof_Gen Proof_GenMain Proof_FileGen Model_GenLate Spec_GenLate.

Lemma kind_kept cs : forall b b1, bdo_all b cs = AOk b1 -> gb_kind b1 = gb_kind b.
Proof.
  induction cs as [|c cs IH]; intros b b1 H; cbn [bdo_all] in H; [injection H as <-; reflexivity|].
  destruct (bdo b c) as [b'| |] eqn:E; try discriminate H. rewrite (IH _ _ H). clear H IH. unfold bdo, on_file in E.
  destruct c, (gb_kind b) eqn:K; try discriminate E;
    try (destruct (fdo (gb_file b) _); try discriminate E; injection E as <-; exact K);
    try (destruct (add_id_info _ _ _ _ _); try discriminate E; injection E as <-; exact K); injection E as <-; reflexivity.
Qed.
Lemma run_is_gexec u8 b run : (forall o, ~ In (GStart o) run) -> forall st k, kexec u8 (KS st b) (map KEv run) = Some k -> gexec u8 st run = Some (k_st k) /\ k_obj k = b.
Proof.
  induction run as [|ev run IH]; intros NS st k H; cbn [map kexec] in H; [injection H as <-; split; reflexivity|].
  assert (S : exists st', gstep u8 st ev = Some st' /\ kexec u8 (KS st' b) (map KEv run) = Some k).
  { destruct ev; try (exfalso; exact (NS _ (or_introl eq_refl))); unfold kstep in H; cbn [k_st k_obj] in H;
      match type of H with context [gstep ?a ?b ?c] => destruct (gstep a b c) as [st'|]; [|discriminate H] end; exists st'; (split; [reflexivity|exact H]). }
  destruct S as (st' & S & H'). cbn [gexec]. rewrite S. exact (IH (fun o I => NS o (or_intror I)) st' k H').
Qed.
(** The run of a process with accepted late calls is that of the object after them. *)
Lemma late_cfg u8 st b0 b cs o b1 run k : bbuild b = AOk o -> bdo_all (with_base b o) cs = AOk b1 -> (forall o, ~ In (GStart o) run) ->
  kexec u8 (KS st b0) (late_process b cs run) = Some k -> gexec u8 st (GStart (gb_base b1) :: run) = Some (k_st k) /\ k_obj k = b1.
Proof.
  intros B C NS H. unfold late_process in H. cbn [kexec kstep k_st k_obj] in H. rewrite B in H. destruct (g_pc st) eqn:P; try discriminate H.
  unfold gstart in H. destruct (gobj_ok o); [|discriminate H]. cbn [k_st k_obj g_pc] in H. rewrite C in H.
  destruct (gobj_ok (gb_base b1)) eqn:G; [|discriminate H]. unfold gwith_cfg in H. cbn [g_disk g_pc g_load g_dirty g_tasks g_ok g_log] in H.
  cbn [gexec gstep]. rewrite P. unfold gstart. rewrite G. exact (run_is_gexec u8 b1 run NS _ k H).
Qed.
Lemma with_base_id b : with_base b (gb_base b) = b. Proof. destruct b as [k [o i u c] t]. reflexivity. Qed.

Theorem custom_counts u8 st b0 b cs b1 run k : gb_kind b = KCustom -> bdo_all b cs = AOk b1 -> (forall o, ~ In (GStart o) run) ->
  kexec u8 (KS st b0) (late_process b cs run) = Some k -> exists o1, bbuild b1 = AOk o1 /\ gexec u8 st (GStart o1 :: run) = Some (k_st k).
Proof.
  intros K C NS H. assert (B : bbuild b = AOk (gb_base b)) by (unfold bbuild; rewrite K; reflexivity).
  exists (gb_base b1). split; [unfold bbuild; rewrite (kind_kept cs b b1 C), K; reflexivity|].
  apply (late_cfg u8 st b0 b cs (gb_base b) b1 run k B); [rewrite with_base_id; exact C|exact NS|exact H].
Qed.
Lemma gexecuted rg bd u8 m0 evs h st : ghistory rg bd u8 m0 evs h st -> gexec u8 (ginit m0) evs = Some st.
Proof.
  intros H. induction H as [|evs h st ev st' _ IH _ S]; [reflexivity|].
  assert (A : forall a s s1, gexec u8 s a = Some s1 -> gexec u8 s (a ++ [ev]) = gstep u8 s1 ev).
  { induction a as [|x a J]; intros s s1 Q; cbn [gexec app] in *; [injection Q as <-; destruct (gstep u8 s ev); reflexivity|]. destruct (gstep u8 s x); [exact (J _ _ Q)|discriminate Q]. }
  rewrite (A _ _ _ IH). exact S.
Qed.
Lemma gexec_app u8 a : forall st b, gexec u8 st (a ++ b) = match gexec u8 st a with Some s => gexec u8 s b | None => None end.
Proof. induction a as [|x a IH]; intros st b; cbn [gexec app]; [reflexivity|]. destruct (gstep u8 st x); [apply IH|reflexivity]. Qed.
Lemma same_end rg bd u8 m0 evs h st o run h' st' k : ghistory rg bd u8 m0 evs h st -> ghistory rg bd u8 m0 (evs ++ GStart o :: run) h' st' ->
  gexec u8 st (GStart o :: run) = Some k -> st' = k.
Proof. intros A B C. apply gexecuted in A. apply gexecuted in B. rewrite gexec_app, A, C in B. injection B as B. symmetry. exact B. Qed.
Lemma start_cfg u8 o run : (forall o, ~ In (GStart o) run) -> forall st st', gexec u8 st (GStart o :: run) = Some st' -> g_cfg st' = o.
Proof.
  intros NS st st' H. cbn [gexec gstep] in H. destruct (g_pc st); try discriminate H. unfold gstart in H. destruct (gobj_ok o); [|discriminate H].
  match type of H with gexec _ ?s _ = _ => assert (C : g_cfg s = o) by reflexivity; revert C H; generalize s end. clear st.
  induction run as [|ev run IH]; intros s C H; cbn [gexec] in H; [injection H as <-; exact C|].
  destruct (gstep u8 s ev) as [s1|] eqn:S; [|discriminate H]. refine (IH (fun o I => NS o (or_intror I)) s1 _ H). rewrite <- C.
  destruct ev; cbn [gstep] in S.
  - injection S as <-. reflexivity.
  - injection S as <-. reflexivity.
  - destruct (g_pc s); try discriminate S; injection S as <-; reflexivity.
  - injection S as <-. reflexivity.
  - exfalso. exact (NS _ (or_introl eq_refl)).
  - destruct (g_pc s); try discriminate S. injection S as <-. unfold gsetup. destruct (negb (g_ok s)); reflexivity.
  - destruct (g_pc s); try discriminate S. destruct (assoc id (g_tasks s)) as [[]|]; try discriminate S. destruct (assoc id (go_ids (g_cfg s))); [|discriminate S].
    injection S as <-. unfold genter. destruct (negb (g_ok s)); [reflexivity|]. destruct (convert _ _); [|reflexivity].
    destruct (assoc id (loaded_ids (g_load s))); [|reflexivity]. destruct (is_changed _ _ _) as [[]|]; reflexivity.
  - destruct (g_pc s); try discriminate S. destruct (assoc id (g_tasks s)) as [[]|]; try discriminate S. injection S as <-. unfold gcallback. destruct ok; reflexivity.
  - destruct (g_pc s); try discriminate S. destruct (forallb _ _); [|discriminate S]. unfold gfinish in S. destruct (gdirty s).
    + destruct (final_text s).
      * destruct w; [injection S as <-; reflexivity|injection S as <-; reflexivity|]. destruct (short n s0); [|discriminate S]. injection S as <-. destruct reported_ok; reflexivity.
      * destruct w; try discriminate S. injection S as <-. reflexivity.
    + destruct w; try discriminate S. injection S as <-. reflexivity.
  - destruct (g_pc s); try discriminate S. destruct (_ && _); [|discriminate S]. destruct (bind _ _); [|discriminate S]. injection S as <-. reflexivity.
Qed.
Lemma nostart_snoc run w : (forall o : gobj, ~ In (GStart o) run) -> forall o : gobj, ~ In (GStart o) (run ++ [GFinish w]).
Proof. intros NS o I. apply in_app_or in I as [I|[I|[]]]; [exact (NS o I)|discriminate I]. Qed.
Theorem custom_current rg bd u8 m0 evs h st b0 b cs b1 o1 run w h' st' k : lawful bd ->
  gb_kind b = KCustom -> bdo_all b cs = AOk b1 -> bbuild b1 = AOk o1 -> (forall o, ~ In (GStart o) run) ->
  ghistory rg bd u8 m0 evs h st -> ghistory rg bd u8 m0 (evs ++ GStart o1 :: run ++ [GFinish w]) h' st' ->
  kexec u8 (KS st b0) (late_process b cs (run ++ [GFinish w])) = Some k -> g_ok (k_st k) = true ->
  forall id g, In (id, g) (go_ids o1) -> id_current bd (gd_mt (g_disk (k_st k))) (g_disk (k_st k)) id g.
Proof.
  intros L K C B1 NS H H' X OK. destruct (custom_counts u8 st b0 b cs b1 _ k K C (nostart_snoc run w NS) X) as (o2 & B2 & E).
  rewrite B1 in B2. injection B2 as <-. pose proof (same_end _ _ _ _ _ _ _ _ _ _ _ _ H H' E) as ->.
  pose proof (start_cfg u8 o1 _ (nostart_snoc run w NS) _ _ E) as CC. rewrite <- CC.
  replace (evs ++ GStart o1 :: run ++ [GFinish w]) with ((evs ++ GStart o1 :: run) ++ [GFinish w]) in H' by (rewrite <- app_assoc; reflexivity).
  exact (run_current rg bd u8 m0 _ w h' (k_st k) L H' OK).
Qed.
Theorem refused_ends u8 st b0 b cs o k0 : bbuild b = AOk o -> bdo_all (with_base b o) cs = AFatal ->
  kexec u8 (KS st b0) [KBuild b] = Some k0 ->
  exists k, kexec u8 (KS st b0) [KBuild b; KCalls cs] = Some k /\
  g_pc (k_st k) = GIdle /\ g_ok (k_st k) = false /\ g_disk (k_st k) = g_disk st /\ g_log (k_st k) = g_log st.
Proof.
  intros B C H. cbn [kexec kstep k_st k_obj] in *. rewrite B in *. destruct (g_pc st); try discriminate H. unfold gstart in *. destruct (gobj_ok o); [|discriminate H].
  cbn [k_st k_obj g_pc] in *. rewrite C. eexists. split; [reflexivity|]. repeat split.
Qed.
Theorem refused_build u8 st b0 b : bbuild b = AFatal ->
  (g_pc st = GIdle -> exists k, kexec u8 (KS st b0) [KBuild b] = Some k /\
    g_pc (k_st k) = GIdle /\ g_ok (k_st k) = false /\ g_disk (k_st k) = g_disk st /\ g_log (k_st k) = g_log st) /\
  (g_pc st <> GIdle -> kexec u8 (KS st b0) [KBuild b] = None).
Proof.
  intros B. cbn [kexec kstep k_st k_obj]. rewrite B. split.
  - intros ->. eexists. split; [reflexivity|]. repeat split.
  - intros N. destruct (g_pc st); try reflexivity. congruence.
Qed.

(** ** The derived classes *)
Lemma derived_ids cs : forall b b1, derived (gb_kind b) -> bdo_all b cs = AOk b1 -> go_ids (gb_base b1) = go_ids (gb_base b) /\
  (no_pattern cs -> gb_base b1 = gb_base b).
Proof.
  induction cs as [|c cs IH]; intros b b1 D H; cbn [bdo_all] in H; [injection H as <-; split; reflexivity|].
  destruct (bdo b c) as [b'| |] eqn:E; try discriminate H.
  assert (K : gb_kind b' = gb_kind b) by (apply (kind_kept [c]); cbn [bdo_all]; rewrite E; reflexivity).
  assert (Q : go_ids (gb_base b') = go_ids (gb_base b) /\ (no_pattern [c] -> gb_base b' = gb_base b)).
  { unfold bdo, on_file in E. destruct c.
    - cbn [fdo] in E. unfold add_pattern in E. unfold gb_base at 1 2 3 4. destruct (construct _ _ _); try discriminate E. injection E as <-. split; [reflexivity|].
      intros N. exfalso. exact (N _ _ (or_introl eq_refl)).
    - destruct (gb_kind b); try discriminate E. exfalso. exact (D eq_refl).
    - destruct (gb_kind b); try discriminate E. injection E as <-. split; reflexivity.
    - destruct (gb_kind b); try discriminate E. injection E as <-. split; reflexivity.
    - destruct (gb_kind b); try discriminate E. cbn [fdo] in E. destruct (construct _ _ _); try discriminate E. injection E as <-. split; reflexivity.
    - destruct (gb_kind b); try discriminate E. injection E as <-. split; reflexivity. }
  rewrite <- K in D. destruct (IH b' b1 D H) as [A B]. destruct Q as [Q1 Q2]. split; [rewrite A; exact Q1|].
  intros N. rewrite B, Q2; [reflexivity| |]; intros k p I; apply (N k p); [destruct I as [->|[]]; left; reflexivity|right; exact I].
Qed.
Theorem derived_lost u8 st b0 b cs o b1 run k : derived (gb_kind b) -> bbuild b = AOk o -> bdo_all (with_base b o) cs = AOk b1 -> no_pattern cs ->
  (forall o, ~ In (GStart o) run) -> kexec u8 (KS st b0) (late_process b cs run) = Some k -> gexec u8 st (GStart o :: run) = Some (k_st k).
Proof.
  intros D B C N NS H. destruct (late_cfg u8 st b0 b cs o b1 run k B C NS H) as [E _].
  rewrite (proj2 (derived_ids cs (with_base b o) b1 D C) N) in E. exact E.
Qed.
(** A late pattern changes nothing but the arguments handed to the callbacks. *)
Theorem derived_pattern u8 st b0 b cs o b1 run k : derived (gb_kind b) -> bbuild b = AOk o -> bdo_all (with_base b o) cs = AOk b1 ->
  (forall o, ~ In (GStart o) run) -> kexec u8 (KS st b0) (late_process b cs run) = Some k ->
  gexec u8 st (GStart (GO (go_args (gb_base b1)) (go_ids o)) :: run) = Some (k_st k).
Proof.
  intros D B C NS H. destruct (late_cfg u8 st b0 b cs o b1 run k B C NS H) as [E _].
  pose proof (proj1 (derived_ids cs (with_base b o) b1 D C)) as Q. cbn [with_base with_file gb_base gb_file fg_base] in Q.
  change (gb_base (with_base b o)) with o in Q. rewrite <- Q. destruct (gb_base b1). exact E.
Qed.

(** ** Build() again *)
Lemma add_id_args o id i u h o' : add_id_info o id i u h = AOk o' -> go_args o' = go_args o /\ exists g, go_ids o' = go_ids o ++ [(id, g)].
Proof.
  unfold add_id_info. destruct (assoc id (go_ids o)); [discriminate|]. destruct (construct_all _ i); try discriminate. destruct (construct_all _ u); try discriminate.
  intros H. injection H as <-. split; [reflexivity|]. eexists. reflexivity.
Qed.
Lemma assoc_later {A} k (g : A) a c : assoc k (a ++ (k, g) :: c) <> None.
Proof. induction a as [|[x y] a IH]; cbn [assoc app]; [rewrite String.eqb_refl; discriminate|]. destruct (String.eqb k x); [discriminate|exact IH]. Qed.
Lemma add_id_present o id i u h : assoc id (go_ids o) <> None -> add_id_info o id i u h = AFatal.
Proof. intros H. unfold add_id_info. destruct (assoc id (go_ids o)); [reflexivity|contradiction]. Qed.
Lemma tbuild_keeps root l : forall o o', tbuild root o l = AOk o' -> go_args o' = go_args o /\ exists more, go_ids o' = go_ids o ++ more.
Proof.
  induction l as [|[i u] l IH]; intros o o' H; cbn [tbuild] in H; [injection H as <-; split; [reflexivity|exists []; rewrite app_nil_r; reflexivity]|].
  destruct (construct (go_args o) i []); try discriminate H. destruct (add_id_info _ _ _ _ _) as [x| |] eqn:E; try discriminate H.
  apply add_id_args in E as [A (g & G)]. destruct (IH x o' H) as [B (m & M)]. split; [congruence|]. rewrite G in M. rewrite <- app_assoc in M. eexists. exact M.
Qed.
Theorem build_twice b o : derived (gb_kind b) -> (gb_kind b <> KFile -> gb_templates b <> []) -> bbuild b = AOk o -> bbuild (with_base b o) = AFatal.
Proof.
  intros D T B. destruct b as [[| |root] f ts]; cbn [gb_kind] in *; [exfalso; exact (D eq_refl)| |].
  - unfold bbuild in *. cbn [gb_kind with_base with_file gb_file] in *. unfold fbuild in *. cbn [fg_base fg_in fg_out fg_commands].
    apply add_id_args in B as [_ (g & G)]. apply add_id_present. rewrite G. apply assoc_later.
  - unfold bbuild in *. cbn [gb_kind gb_base with_base with_file gb_file gb_templates fg_base] in *. destruct ts as [|[i u] ts]; [exfalso; apply T; [discriminate|reflexivity]|].
    cbn [tbuild] in *. destruct (construct (go_args (gb_base {| gb_kind := KTemplate root; gb_file := f; gb_templates := (i, u) :: ts |})) i []) as [p| |] eqn:P; try discriminate B.
    destruct (add_id_info _ _ _ _ _) as [x| |] eqn:E; try discriminate B. apply add_id_args in E as [A (g & G)]. apply tbuild_keeps in B as [A2 (m & M)].
    rewrite A2, A, P. rewrite add_id_present; [reflexivity|]. rewrite M, G, <- app_assoc. cbn [app]. apply assoc_later.
Qed.
Theorem lost_noticed rg u8 m0 evs h st b0 b cs b1 b2 o o2 run w k evs2 w2 h1 h2 st1 st2 :
  gb_kind b = KFile -> bbuild b = AOk o -> bdo_all (with_base b o) cs = AOk b1 -> no_pattern cs -> (forall o, ~ In (GStart o) run) ->
  ghistory rg file_blobs u8 m0 evs h st -> ghistory rg file_blobs u8 m0 ((evs ++ GStart o :: run) ++ [GFinish w]) h1 st1 ->
  kexec u8 (KS st b0) (late_process b cs (run ++ [GFinish w])) = Some k -> g_ok (k_st k) = true ->
  bdo_all b cs = AOk b2 -> bbuild b2 = AOk o2 ->
  ghistory rg file_blobs u8 m0 (((evs ++ GStart o :: run) ++ [GFinish w]) ++ evs2 ++ [GFinish w2]) h2 st2 -> g_ok st2 = true -> g_cfg st2 = o2 ->
  encodable (fg_commands (gb_file b)) -> encodable (fg_commands (gb_file b2)) -> fg_commands (gb_file b) <> fg_commands (gb_file b2) ->
  exists wr, In (GCall "Generate" true wr) evs2.
Proof.
  intros K B C N NS H H1 X OK C2 B2 H2 OK2 G2 E1 E2 D.
  assert (DD : derived (gb_kind b)) by (rewrite K; discriminate).
  pose proof (derived_lost u8 st b0 b cs o b1 _ k DD B C N (nostart_snoc run w NS) X) as E.
  pose proof H1 as H1'. rewrite <- app_assoc in H1'. cbn [app] in H1'. pose proof (same_end _ _ _ _ _ _ _ _ _ _ _ _ H H1' E) as ->.
  pose proof (start_cfg u8 o _ (nostart_snoc run w NS) _ _ E) as CC.
  assert (F1 : fbuild (gb_file b) = AOk (g_cfg (k_st k))) by (rewrite CC; unfold bbuild in B; rewrite K in B; exact B).
  assert (F2 : fbuild (gb_file b2) = AOk (g_cfg st2)) by (rewrite G2; unfold bbuild in B2; rewrite (kind_kept cs b b2 C2), K in B2; exact B2).
  exact (file_changed rg u8 m0 _ w h1 _ (gb_file b) evs2 w2 h2 st2 (gb_file b2) H1 OK F1 E1 H2 OK2 F2 E2 D).
Qed.
