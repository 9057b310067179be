(** The copy of a library beside the executable that uses it. *)
From Verif Require Import Prelude Proof_Prelude Model_Path Model_Json Model_Schema Spec_Json Proof_Dec
  Proof_Schema Model_Command Spec_Command Proof_Command Model_ToolchainConfig Model_Target Spec_Target
  Proof_TargetBase Proof_TargetInv Proof_TargetRun Proof_TargetStep Proof_TargetStep2 Proof_TargetMain Proof_TargetDup
  Model_Reg Spec_Reg Proof_Reg Proof_RegRun Model_Project Spec_Project Proof_Project Proof_Project2 Proof_Project3
  Model_Database Spec_Database Proof_Database Proof_Database2 Proof_Database3 Model_PostCopy Spec_PostCopy.

(** ** The executable *)

Section Exe.
Context (f : string).

Definition noted (l : infolist) (t : N) : Prop := In (PI f (dec_of_N t)) l.

Record XW (bl : option cfg) (inb : Prop) (nx : N) (st : tstate) : Prop := {
  xw_lib : forall c, bl = Some c -> In f (libs c) /\ s_cfg st = c;
  xw_now : forall t, d_mt (s_disk st) f = Some t -> (t < nx)%N;
  xw_like : s_pc st <> Idle -> like (s_cfg st) (s_user st) /\ s_load st = stored (s_disk st);
  xw_user : s_pc st <> Idle -> forall t, noted (ts_libs (s_user st)) t -> (t < nx)%N;
  xw_stored : forall l t, stored (s_disk st) = Some l -> noted (ts_libs l) t -> (t < nx)%N;
  xw_end : forall c, bl = Some c -> s_pc st = PcEnd -> s_ok st = true -> s_dirty st = false ->
    exists l t, s_load st = Some l /\ ts_target_linked l = true /\ noted (ts_libs l) t /\ d_mt (s_disk st) f = Some t;
  xw_idle : forall c, bl = Some c -> s_pc st = Idle -> s_ok st = true -> ~ inb ->
    exists l t, stored (s_disk st) = Some l /\ ts_target_linked l = true /\ noted (ts_libs l) t /\ d_mt (s_disk st) f = Some t }.

Lemma XW_weak bl (inb inb' : Prop) nx st : (inb -> inb') -> XW bl inb nx st -> XW bl inb' nx st.
Proof using Type.
  intros B [A0 A1 A2 A3 A4 A5 A6]. constructor; try assumption. intros c Hc Hp Ho K. apply (A6 c Hc Hp Ho). tauto.
Qed.
Lemma XW_edit bl inb nx nx' st g t : (nx <= nx')%N -> (g = f -> forall v, t = Some v -> (v < nx')%N) ->
  (g = f -> bl = None \/ before_checks st) ->
  XW bl inb nx st -> XW bl inb nx' (with_disk st (set_mt (s_disk st) (upd (d_mt (s_disk st)) g t))).
Proof using Type.
  intros Le V K [A0 A1 A2 A3 A4 A5 A6].
  assert (U : forall c, bl = Some c -> s_pc st = PcEnd \/ s_pc st = Idle -> upd (d_mt (s_disk st)) g t f = d_mt (s_disk st) f).
  { intros c Hc Hp. unfold upd. destruct (String.eqb_spec f g) as [E|]; [|reflexivity]. exfalso.
    destruct (K (eq_sym E)) as [Z|[Z|[Z _]]]; destruct Hp; congruence. }
  constructor; stp.
  - exact A0.
  - intros v Hv. unfold upd in Hv. destruct (String.eqb_spec f g) as [E|]; [exact (V (eq_sym E) v Hv)|]. specialize (A1 v Hv). lia.
  - exact A2.
  - intros Hp v Hv. specialize (A3 Hp v Hv). lia.
  - intros l v Hl Hv. specialize (A4 l v Hl Hv). lia.
  - intros c Hc Hp Ho Hd. rewrite (U c Hc (or_introl Hp)). exact (A5 c Hc Hp Ho Hd).
  - intros c Hc Hp Ho Hb. rewrite (U c Hc (or_intror Hp)). exact (A6 c Hc Hp Ho Hb).
Qed.
Lemma XW_fail bl inb nx st : XW bl inb nx st -> XW bl inb nx (with_ok st false).
Proof using Type. intros [A0 A1 A2 A3 A4 A5 A6]. constructor; stp; try assumption; try discriminate. Qed.
Lemma XW_fail_others bl inb nx e st b st' : XW bl inb nx st -> exec e st (fail_others b st) = Some st' -> XW bl inb nx st'.
Proof using Type.
  intros T X. unfold fail_others in X. destruct (b && running st); cbn [exec step] in X; injection X as <-; [exact (XW_fail _ _ _ _ T)|exact T].
Qed.

Lemma link_pre_noted mt c u u' b t : like c u -> link_pre mt u = (u', b) -> noted (ts_libs u') t ->
  noted (ts_libs u) t \/ mt f = Some t.
Proof using Type.
  intros L H Hn. unfold link_pre in H. destruct (hash_all mt (ts_libs u)) as [hs b1] eqn:E1.
  pose proof (nlist_like _ _ (like_libs c u L) (libs_npath c)) as Nl.
  destruct (hash_all_spec _ _ _ _ Nl E1) as (_ & _ & Q).
  assert (E : ts_libs u' = hs).
  { destruct b1; [destruct (hash_all mt (ts_link_deps (with_libs u hs))) as [ds b2]|]; injection H as <- _; reflexivity. }
  unfold noted in Hn. rewrite E in Hn. destruct (Q _ Hn) as [K|(v & K1 & K2)]; [left; exact K|right]. cbn [pi_path pi_hash] in *.
  apply dec_of_N_inj in K2. congruence.
Qed.

(** Steps before the end task do not touch the libraries of the user schema, the link check excepted. *)
Lemma taskflow_libs e st x st' : in_taskflow x = true -> step e st x = Some st' -> (forall w, x <> EvEnd w) -> x <> EvLinkCheck ->
  ts_libs (s_user st') = ts_libs (s_user st) /\ (s_pc st' = PcEnd -> s_ok st' = true -> s_dirty st' = s_dirty st /\ s_pc st = PcLinkExec).
Proof using Type.
  intros F S N NL. destruct x; try discriminate; cbn [step] in S; destruct (s_pc st) eqn:Pc; try discriminate.
  - injection S as <-. unfold pch_check. destruct (s_ok st); cbn [negb]; [|split; [reflexivity|discriminate]].
    unfold pch_pre. destruct (hash_all _ (ts_headers _)) as [a b1]. destruct b1; [destruct (hash_all _ (ts_pchs _)) as [a2 b2]; destruct b2|]; cbn [negb];
      try destruct (_ || _); (split; [reflexivity|discriminate]).
  - unfold pch_exec in S. destruct (pch_command _ _); try discriminate. injection S as <-. destruct (run_res _ _); (split; [reflexivity|discriminate]).
  - injection S as <-. unfold obj_check. destruct (s_ok st); cbn [negb]; [|split; [reflexivity|discriminate]].
    unfold obj_pre. destruct (hash_all _ (ts_sources _)) as [a b1]. destruct b1; [destruct (hash_all _ (ts_headers _)) as [a2 b2]; destruct b2; [destruct (hash_all _ (ts_compile_deps _)) as [a3 b3]; destruct b3|]|]; cbn [negb];
      try match goal with |- context [let '(_, _) := ?t in _] => destruct t as [[sel dum] d'] end; (split; [reflexivity|discriminate]).
  - unfold compile_one in S. destruct (take_pending _ _) as [[i rest]|]; try discriminate. destruct (compile_command _ _ _); try discriminate.
    injection S as <-. destruct (run_res _ _); (split; [reflexivity|discriminate]).
  - destruct (NL eq_refl).
  - unfold link_exec in S. destruct (link_command _ _ _); try discriminate. injection S as <-. destruct (run_res _ _); (split; [reflexivity|]); stp; auto; discriminate.
  - destruct (N w eq_refl).
Qed.

Lemma XW_own bl inb nx e st x st' c : bl = Some c -> in_taskflow x = true -> step e st x = Some st' ->
  (s_pc st' <> Idle -> like (s_cfg st') (s_user st') /\ s_load st' = stored (s_disk st')) ->
  (s_pc st = PcLinkExec -> s_dirty st = true) ->
  XW bl inb nx st -> XW bl (inb \/ ended st x) nx st'.
Proof using Type.
  intros Hb F S Li Dl [A0 A1 A2 A3 A4 A5 A6].
  destruct (taskflow_step _ _ _ _ F S) as (T1 & T2 & T3 & T4).
  assert (Dx : (exists w, x = EvEnd w) \/ forall w, x <> EvEnd w) by (destruct x; try (right; discriminate); left; eauto).
  destruct Dx as [[w ->]|N].
  - destruct (end_cases _ _ _ _ S) as (P1 & P2 & P3 & P4 & K). constructor; try congruence.
    + intros c' Hc. rewrite T1. exact (A0 c' Hc).
    + rewrite T4. exact A1.
    + destruct K as [[K1 K2]|[[K1 K2]|[K1 [K2 K3]]]]; rewrite K1.
      * exact A4.
      * discriminate.
      * intros l t [= <-] Hn. apply (A3 T3). exact Hn.
    + intros c' Hc _ Ho Z. rewrite T4. destruct K as [[K1 K2]|[[K1 K2]|[K1 [K2 K3]]]].
      * destruct (A5 c' Hc P1 (P4 Ho) (K2 Ho)) as (l & t & Q1 & Q). rewrite (proj2 (A2 T3)) in Q1. rewrite K1. exists l, t. auto.
      * exfalso. apply Z. right. exists w. auto.
      * exfalso. apply Z. right. exists w. auto.
  - destruct (taskflow_store _ _ _ _ F S N) as [St Ls].
    assert (Es : stored (s_disk st') = stored (s_disk st)) by (unfold stored; rewrite St; reflexivity).
    assert (NI : s_pc st' <> Idle). { intros K. destruct (T2 K) as [w Hw]. exact (N w Hw). }
    constructor; try congruence.
    + intros c' Hc. rewrite T1. exact (A0 c' Hc).
    + rewrite T4. exact A1.
    + exact Li.
    + intros _ t Hn. assert (Dl' : x = EvLinkCheck \/ x <> EvLinkCheck) by (destruct x; try (right; discriminate); left; reflexivity).
      destruct Dl' as [->|NL].
      * cbn [step] in S. destruct (s_pc st) as [| | | |[|? ?]| |] eqn:Pc; try discriminate. injection S as <-.
        destruct (A2 T3) as [Lk _]. unfold link_check in Hn.
        destruct (s_ok st); cbn [negb] in Hn; [|exact (A3 T3 t Hn)].
        destruct (link_pre (d_mt (s_disk st)) (s_user st)) as [u b] eqn:El.
        assert (Hn' : noted (ts_libs u) t) by (destruct b; exact Hn).
        destruct (link_pre_noted _ _ _ _ _ _ Lk El Hn') as [K|K]; [exact (A3 T3 t K)|exact (A1 t K)].
      * rewrite (proj1 (taskflow_libs _ _ _ _ F S N NL)) in Hn. exact (A3 T3 t Hn).
    + rewrite Es. exact A4.
    + intros c' Hc Hp Ho Hd. rewrite T4. destruct (A0 c' Hc) as [Hf Ec].
      assert (Dl' : x = EvLinkCheck \/ x <> EvLinkCheck) by (destruct x; try (right; discriminate); left; reflexivity).
      destruct Dl' as [->|NL].
      * cbn [step] in S. destruct (s_pc st) as [| | | |[|? ?]| |] eqn:Pc; try discriminate. injection S as <-.
        destruct (A2 T3) as [Lk _]. unfold link_check in *.
        destruct (s_ok st) eqn:Eo; cbn [negb] in *; [|stp; congruence].
        destruct (link_pre (d_mt (s_disk st)) (s_user st)) as [u b] eqn:El.
        destruct (link_pre_like _ _ _ _ _ Lk El) as (L' & HH & _). destruct b; cbn [negb] in *; [|discriminate]. stp.
        destruct (HH eq_refl) as [H1 H2]. destruct (s_load st) as [l|]; [|discriminate]. rewrite Hd in Hp.
        apply orb_false_iff in Hd as [Hd1 Hd2]. apply negb_false_iff in Hd2.
        apply (link_same_iff _ _ _ _ L' H1 H2) in Hd2. rewrite Ec in Hd2.
        destruct (Hashed_ex _ _ _ _ (lc_libs _ _ _ Hd2) Hf) as ([pf ph] & Hi & E1 & (t & E2 & E3)). cbn [pi_path pi_hash] in *. subst pf ph.
        exists l, t. split; [reflexivity|]. split; [exact (lc_done _ _ _ Hd2)|]. split; [exact Hi|exact E2].
      * destruct (proj2 (taskflow_libs _ _ _ _ F S N NL) Hp Ho) as [Q1 Q2]. rewrite Q1, (Dl Q2) in Hd. discriminate.
Qed.
End Exe.

Lemma XW_start f inb nx e st c ord st' : step e st (EvStart c ord) = Some st' -> forallb is_fok (all_commands e c ord) = true ->
  s_pc st = Idle -> In f (libs c) -> XW f None inb nx st -> XW f (Some c) inb nx st'.
Proof.
  intros S F Pc Hf [A0 A1 A2 A3 A4 A5 A6]. cbn [step] in S. rewrite Pc in S.
  destruct (RunI_start _ _ _ _ _ S F) as (R & P1 & P2 & P3 & P4 & P5).
  assert (P6 : s_user st' = user_of c /\ s_pc st' <> PcEnd).
  { unfold start in S. destruct (_ || _); [discriminate|]. rewrite F in S. injection S as <-. stp. split; [reflexivity|]. destruct (contains_pch c); discriminate. }
  destruct P6 as [P6 P7].
  constructor; try congruence.
  - intros c' [= <-]. auto.
  - rewrite P5. exact A1.
  - intros _. split; [exact (ri_like _ R)|exact P4].
  - intros _ t Hn. rewrite P6 in Hn. unfold noted in Hn.
    pose proof (proj1 (Forall_forall _ _) (infos_hash (c_libs c)) _ Hn) as K. cbn [pi_hash] in K. destruct (dec_nonempty t K).
  - rewrite P5. exact A4.
Qed.

Lemma TInv_Inv rg built run ok ed id e st h : TInv rg built run ok ed id e st h -> Inv rg e h st.
Proof.
  intros T. destruct (ti_hist _ _ _ _ _ _ _ _ _ T) as (d0 & evs & H). exact (history_Inv rg e (ti_temp _ _ _ _ _ _ _ _ _ T) _ _ _ _ H).
Qed.

Section Event.
Context (rg : regime) (p : project) (h : phist) (ed : bool) (PI : PInv rg p h ed) (GI : GInv p h).
Context (X L : string) (Ne : X <> L) (eX eL : tenv) (sX sL : tstate).
Context (HX : In (X, (eX, sX)) (p_targets p)) (HL : In (L, (eL, sL)) (p_targets p)).
Context (wb : list string).
Local Notation f := (out_file eL).
Local Notation nx := (h_next (h X) f).

Lemma other_out i ei si : In (i, (ei, si)) (p_targets p) -> i <> L -> out_file ei <> f.
Proof using GI HL. intros H N E. exact (N (gi_outs _ _ GI _ _ _ _ _ _ H HL E)). Qed.

Lemma bumped_at ch : (nx <= bumped ch (h_next (h X)) f)%N.
Proof using Type. apply bumped_mono. Qed.

Lemma before_pc st : before_checks st -> s_pc st <> Idle /\ s_pc st <> PcEnd.
Proof using Type. intros [H|[H _]]; split; congruence. Qed.

Lemma event_exe ev built run ok st' : padmissible rg p h ev ->
  process p ev = Some (built, run, ok) -> exec eX sX (delivered p ev X sX) = Some st' ->
  (forall i, ev = PForget i -> p_built p = []) ->
  (forall c o, ev = PBuild X c o -> In f (libs c)) ->
  XW f (assoc X (p_built p)) (In X wb) nx sX ->
  XW f (assoc X built) (In X (built_after p wb ev)) (bumped (change p ev) (h_next (h X)) f) st'.
Proof using GI HL HX Ne PI.
  intros A P Ex AF AB T. pose proof (pi_ids _ _ _ _ PI) as ND. pose proof (assoc_NoDup_In _ _ _ ND HX) as Ha.
  pose proof (pi_tgt _ _ _ _ PI _ _ _ HX) as TI. pose proof (TInv_Inv _ _ _ _ _ _ _ _ _ TI) as IV.
  assert (NO : ~ In f (tracked (s_cfg sX)) -> assoc X (p_built p) = None).
  { intros K. destruct (assoc X (p_built p)) as [c|] eqn:E; [|reflexivity]. exfalso. apply K.
    destruct (xw_lib _ _ _ _ _ T c eq_refl) as [H ->]. unfold tracked. rewrite !in_app_iff. auto. }
  destruct ev as [g t|i|i c ord|k r|i|i x t|i g t|i|i okk|l]; cbn [process delivered built_after change] in *.
  - (* PEdit *)
    injection P as <- <- <-. cbn [exec step] in Ex. injection Ex as <-.
    assert (N : g <> f) by (intros ->; apply (proj1 A); exists L, eL, sL; auto).
    apply (XW_edit f _ _ _ _ _ _ _ (bumped_at _)); [congruence|congruence|exact T].
  - (* PForget *)
    pose proof (AF i eq_refl) as Eb. destruct (mem_str i _); [|discriminate]. injection P as <- <- <-. cbn [bumped].
    destruct (String.eqb i X); cbn [exec step] in Ex; injection Ex as <-; [|exact T].
    pose proof (ti_unbuilt _ _ _ _ _ _ _ _ _ TI) as U. rewrite Eb in *. destruct T as [A0 A1 A2 A3 A4 A5 A6].
    constructor; stp; try assumption; try discriminate. intros K. destruct (K (U eq_refl)).
  - (* PBuild *)
    cbn [bumped]. destruct (p_run p); [discriminate|]. destruct (assoc i (p_targets p)) as [[e1 s1]|] eqn:Ea; [|discriminate].
    destruct (assoc i (p_built p)) eqn:Eb; [discriminate|]. destruct (forallb is_fok (all_commands e1 c ord)) eqn:Ef; [|discriminate].
    injection P as <- <- <-. destruct (String.eqb_spec i X) as [->|N].
    + rewrite Ha in Ea. injection Ea as <- <-. cbn [exec] in Ex. destruct (step eX sX (EvStart c ord)) as [s2|] eqn:S; [|discriminate]. injection Ex as <-.
      rewrite (assoc_app_none _ _ _ _ Eb), String.eqb_refl. rewrite Eb in T.
      exact (XW_start f _ _ _ _ _ _ _ S Ef (ti_unbuilt _ _ _ _ _ _ _ _ _ TI Eb) (AB c ord eq_refl) T).
    + cbn [exec] in Ex. injection Ex as <-.
      replace (assoc X (p_built p ++ [(i, c)])) with (assoc X (p_built p)); [exact T|].
      rewrite assoc_app. destruct (assoc X (p_built p)); [reflexivity|]. cbn [assoc]. destruct (String.eqb_spec X i); [congruence|reflexivity].
  - destruct (p_run p); [discriminate|]. injection P as <- <- <-. cbn [exec] in Ex. injection Ex as <-. exact T.
  - destruct (p_run p) as [[[k r] y]|]; [|discriminate]. destruct (xstep _ _ _ _ _); [|discriminate]. injection P as <- <- <-.
    cbn [exec] in Ex. injection Ex as <-. exact T.
  - (* PStep *)
    destruct (p_run p) as [[[k r] y]|] eqn:Er; [|discriminate]. destruct (assoc i (p_targets p)) as [[e1 s1]|] eqn:Ea; [|discriminate].
    destruct (assoc i (p_built p)) as [c|] eqn:Eb; [|discriminate]. destruct (mem_str i (x_running y) && in_taskflow x && _) eqn:Ec; [|discriminate].
    apply andb_true_iff in Ec as [Ec Et]. apply andb_true_iff in Ec as [Ey Fx].
    destruct (step e1 s1 x) as [s2|] eqn:S; [|discriminate]. injection P as <- <- <-.
    assert (Ba : forall j, In j wb \/ (j = i /\ ended s1 x) <-> In j (match x with EvEnd r0 => if completes s1 r0 then i :: wb else wb | _ => wb end)).
    { intros j. unfold ended. destruct x; try (split; [intros [hh|[_ (w & hh & _)]]; [exact hh|discriminate]|auto]).
      destruct (completes s1 w) eqn:Cw.
      - cbn [In]. split; [intros [hh|[-> _]]; auto|intros [->|hh]; [right; split; [reflexivity|eauto]|auto]].
      - split; [intros [hh|[_ (w' & [= <-] & hh)]]; [exact hh|congruence]|auto]. }
    pose proof (assoc_In _ _ _ Ea) as Hi1. destruct (A _ _ _ Hi1 S) as [Ad At].
    destruct (String.eqb_spec i X) as [->|N].
    + rewrite Ha in Ea. injection Ea as <- <-. cbn [app exec] in Ex. rewrite S in Ex. rewrite Eb in *.
      assert (IV2 : Inv rg eX (track eX (h X) sX x) s2).
      { destruct (ti_hist _ _ _ _ _ _ _ _ _ TI) as (d0 & evs & H).
        exact (history_Inv rg eX (ti_temp _ _ _ _ _ _ _ _ _ TI) _ _ _ _ (history_snoc _ _ _ _ _ _ _ _ H Ad S)). }
      assert (T' : XW f (Some c) (In X wb \/ ended sX x) nx s2).
      { apply (XW_own f _ _ _ eX sX x s2 c eq_refl Fx S); [| |exact T].
        - intros K. pose proof (i_run _ _ _ _ IV2 K) as RI. split; [exact (r_like _ _ _ _ RI)|exact (r_load _ _ _ _ RI)].
        - intros K. assert (K0 : s_pc sX <> Idle) by congruence. pose proof (r_stage _ _ _ _ (i_run _ _ _ _ IV K0)) as Sg. unfold Stage in Sg. rewrite K in Sg.
          exact (sl_dirty _ _ _ Sg). }
      assert (T2 : XW f (Some c) (In X (match x with EvEnd r0 => if completes sX r0 then X :: wb else wb | _ => wb end)) nx s2).
      { eapply XW_weak; [|exact T']. intros K. apply Ba. tauto. }
      pose proof (other_out _ _ _ HX Ne) as NX.
      destruct t as [t'|]; cbn [app exec step] in Ex; injection Ex as <-; [|exact T2].
      apply (XW_edit f _ _ _ _ _ _ _ (bumped_at _)); [congruence|congruence|exact T2].
    + cbn [app] in Ex.
      assert (T0 : XW f (assoc X (p_built p)) (In X (match x with EvEnd r0 => if completes s1 r0 then i :: wb else wb | _ => wb end)) nx sX).
      { eapply XW_weak; [|exact T]. intros K. apply Ba. tauto. }
      destruct t as [t'|]; cbn [app] in Ex.
      * cbn [exec step] in Ex.
        set (sm := with_disk sX (set_mt (s_disk sX) (upd (d_mt (s_disk sX)) (out_file e1) t'))) in *.
        replace (fail_others (negb (s_ok s2)) sX) with (fail_others (negb (s_ok s2)) sm) in Ex by reflexivity.
        apply (XW_fail_others f _ _ _ eX sm (negb (s_ok s2)) st'); [|exact Ex]. apply (XW_edit f _ _ nx); [apply bumped_at| | |exact T0].
        -- intros E v ->. cbn [bumped]. rewrite E. unfold upd. rewrite String.eqb_refl. lia.
        -- intros E. apply mem_str_In in Ey.
           assert (W : writes p i f) by (left; exists e1, s1; auto).
           destruct (write_harmless rg p h ed _ _ _ _ _ _ _ _ PI Er Ey W HX) as [K|[K|K]]; [left; exact K|right; exact K|left; exact (NO K)].
      * exact (XW_fail_others f _ _ _ eX _ _ _ T0 Ex).
  - (* PWrite *)
    destruct (p_run p) as [[[k r] y]|]; [|discriminate]. destruct (assoc i (p_gens p)); [|discriminate]. destruct (_ && _); [|discriminate].
    injection P as <- <- <-. cbn [exec step] in Ex. injection Ex as <-.
    assert (N : g <> f) by (intros ->; apply (proj1 A); exists L, eL, sL; auto).
    apply (XW_edit f _ _ _ _ _ _ _ (bumped_at _)); [congruence|congruence|exact T].
  - destruct (p_run p) as [[[k r] y]|]; [|discriminate]. destruct (assoc i (p_targets p)); [discriminate|]. destruct (assoc i (p_gens p)); [|discriminate].
    destruct (mem_str _ _); [|discriminate]. injection P as <- <- <-. exact (XW_fail_others f _ _ _ eX _ _ _ T Ex).
  - destruct (p_run p) as [[[k r] y]|]; [|discriminate]. destruct (xstep _ _ _ _ _); [|discriminate].
    destruct (assoc i (p_targets p)) as [[e1 s1]|] eqn:Ea.
    + cbn [exec] in Ex. injection Ex as <-. assert (built = p_built p) as ->.
      { destruct (assoc i (p_built p)); [destruct (_ && _)|destruct okk]; try discriminate; injection P as <- _ _; auto. }
      exact T.
    + destruct (implb okk (p_ok p)); [|destruct (assoc i (p_built p)); discriminate].
      assert (built = p_built p) as -> by (destruct (assoc i (p_built p)); injection P as <- _ _; auto).
      exact (XW_fail_others f _ _ _ eX _ _ _ T Ex).
  - (* PStop *)
    assert (P' : process p (PStop l) = Some (built, run, ok)) by exact P.
    injection P as <- <- <-. destruct (stop_events p _ _ _ _ _ Ex) as [Q1 Q2]. cbn [assoc bumped].
    destruct (delivered_effect _ _ _ _ _ _ _ _ _ (h X) ND P' HX Ex) as (Q3 & _). cbn [change changed] in Q3.
    destruct T as [A0 A1 A2 A3 A4 A5 A6].
    constructor; try discriminate; try (intros K; destruct (K Q1)).
    + rewrite Q3. exact A1.
    + intros l' t Hl Hn. destruct Q2 as [Q2|[_ Q2]]; [apply (A4 l' t); [congruence|exact Hn]|destruct (Q2 _ Hl)].
Qed.

(** The output of the library changes only together with its time. *)
Lemma event_lib ev built run ok sX' sL' : padmissible rg p h ev -> process p ev = Some (built, run, ok) ->
  exec eX sX (delivered p ev X sX) = Some sX' -> exec eL sL (delivered p ev L sL) = Some sL' ->
  (d_mt (s_disk sX') f = d_mt (s_disk sX) f /\ d_tgt (s_disk sL') = d_tgt (s_disk sL)) \/
  (forall t, d_mt (s_disk sX') f = Some t -> (nx <= t)%N).
Proof using GI HL HX Ne PI.
  intros A P Ex El. pose proof (pi_ids _ _ _ _ PI) as ND.
  destruct (delivered_effect _ _ _ _ _ _ _ _ _ (h X) ND P HX Ex) as (M & _ & _).
  destruct (delivered_effect _ _ _ _ _ _ _ _ _ (h L) ND P HL El) as (_ & _ & Tg).
  assert (Sm : (forall x t, ev = PStep L x t -> touches_tgt x = false) -> changed (change p ev) (d_mt (s_disk sX)) f = d_mt (s_disk sX) f ->
     (d_mt (s_disk sX') f = d_mt (s_disk sX) f /\ d_tgt (s_disk sL') = d_tgt (s_disk sL)) \/ (forall t, d_mt (s_disk sX') f = Some t -> (nx <= t)%N)).
  { intros K1 K2. left. split; [congruence|exact (proj1 (Tg K1))]. }
  destruct ev as [g t|i|i c ord|k r|i|i x t|i g t|i|i okk|l]; try (apply Sm; [discriminate|reflexivity]).
  - apply Sm; [discriminate|]. cbn [change changed]. unfold upd. destruct (String.eqb_spec f g) as [<-|]; [|reflexivity].
    exfalso. apply (proj1 A). exists L, eL, sL. auto.
  - cbn [process padmissible change] in *. destruct (p_run p) as [[[k r] y]|]; [|discriminate].
    destruct (assoc i (p_targets p)) as [[e1 s1]|] eqn:Ea; [|discriminate].
    destruct (assoc i (p_built p)); [|discriminate]. destruct (mem_str i (x_running y) && in_taskflow x && _) eqn:Ec; [|discriminate].
    apply andb_true_iff in Ec as [Ec Et]. apply andb_true_iff in Ec as [Ey Fx].
    destruct (step e1 s1 x) as [s2|] eqn:S; [|discriminate].
    pose proof (assoc_In _ _ _ Ea) as Hi. destruct (A _ _ _ Hi S) as [_ At].
    destruct (String.eqb_spec i L) as [->|N].
    + pose proof (assoc_NoDup_In _ _ _ ND HL) as Ha. rewrite Ha in Ea. injection Ea as <- <-.
      destruct t as [[v|]|]; cbn [changed] in M; rewrite M; unfold upd; rewrite ?String.eqb_refl.
      * right. intros t [= <-]. apply (At v X eq_refl). exact (in_map fst _ _ HX).
      * right. discriminate.
      * left. split; [reflexivity|]. cbn [delivered] in El. rewrite Ha, String.eqb_refl in El. cbn [app exec] in El. rewrite S in El. injection El as <-. exact (proj2 At).
    + apply Sm; [intros x0 t0 [= E _ _]; congruence|]. destruct t as [t|]; [|reflexivity]. cbn [changed]. unfold upd.
      destruct (String.eqb_spec f (out_file e1)) as [E|]; [|reflexivity]. destruct (other_out _ _ _ Hi N (eq_sym E)).
  - apply Sm; [discriminate|]. cbn [change changed]. unfold upd. destruct (String.eqb_spec f g) as [<-|]; [|reflexivity].
    exfalso. apply (proj1 A). exists L, eL, sL. auto.
Qed.
End Event.

Lemma fail_others_stored e st b st' : exec e st (fail_others b st) = Some st' -> stored (s_disk st') = stored (s_disk st).
Proof. unfold fail_others. destruct (b && running st); cbn [exec step]; intros [= <-]; reflexivity. Qed.

(** A state file that tells of a new finished build was written by this process. *)
Lemma event_stored p ev built run ok id e st st' wb : NoDup (map fst (p_targets p)) ->
  process p ev = Some (built, run, ok) -> In (id, (e, st)) (p_targets p) -> exec e st (delivered p ev id st) = Some st' ->
  stored (s_disk st') = stored (s_disk st) \/ unfinished st' \/ In id (built_after p wb ev).
Proof.
  intros ND P Hi X. pose proof (assoc_NoDup_In _ _ _ ND Hi) as Ha.
  destruct ev as [g t|i|i c ord|k r|i|i x t|i g t|i|i okk|l]; cbn [delivered] in X; try (cbn [exec step] in X; injection X as <-; left; reflexivity).
  - destruct (String.eqb i id); cbn [exec step] in X; injection X as <-; [right; left; intros l Hl; discriminate|left; reflexivity].
  - destruct (String.eqb i id); cbn [exec] in X; [|injection X as <-; left; reflexivity].
    destruct (step e st (EvStart c ord)) as [s2|] eqn:S; [|discriminate]. injection X as <-.
    destruct (stored_change _ _ _ _ S) as [K|[K|(w & K & _)]]; [auto|auto|discriminate].
  - cbn [built_after]. destruct (assoc i (p_targets p)) as [[e1 s1]|] eqn:Ea; [|cbn [exec] in X; injection X as <-; left; reflexivity].
    destruct (String.eqb_spec i id) as [->|N].
    + rewrite Ha in Ea. injection Ea as <- <-. cbn [app exec] in X. destruct (step e st x) as [s2|] eqn:S; [|discriminate].
      assert (Es : stored (s_disk st') = stored (s_disk s2)) by (destruct t; cbn [app exec step] in X; injection X as <-; reflexivity).
      destruct (stored_change _ _ _ _ S) as [K|[K|(w & -> & K)]]; [left; congruence|right; left; intros l Hl; apply K; congruence|].
      right. right. rewrite K. left. reflexivity.
    + left. cbn [app] in X. destruct t as [t|]; cbn [app exec step] in X.
      * set (sm := with_disk st (set_mt (s_disk st) (upd (d_mt (s_disk st)) (out_file e1) t))) in *.
        match type of X with exec _ _ (fail_others ?b st) = _ => replace (fail_others b st) with (fail_others b sm) in X by reflexivity end.
        rewrite (fail_others_stored _ _ _ _ X). reflexivity.
      * exact (fail_others_stored _ _ _ _ X).
  - left. exact (fail_others_stored _ _ _ _ X).
  - left. destruct (assoc i (p_targets p)); [cbn [exec] in X; injection X as <-; reflexivity|exact (fail_others_stored _ _ _ _ X)].
  - destruct (stop_events p _ _ _ _ _ X) as [_ [K|[K _]]]; auto.
Qed.

Lemma chistory_phistory rg removes X L l gens copy evs pevs h s :
  chistory rg removes X L l gens copy evs pevs h s -> phistory rg l gens pevs h (c_p s).
Proof.
  intros H. induction H as [|evs pevs h s pe s' H IH S A|evs pevs h s ok kept s' H IH S A].
  - constructor.
  - cbn [cstep] in S. destruct (match c_stage s with CBefore => true | _ => after_generate pe end); [|discriminate].
    destruct (pstep (c_p s) pe) as [p'|] eqn:E; [|discriminate]. injection S as <-. cbn [c_p]. exact (phistory_snoc _ _ _ _ _ _ _ _ IH (proj1 A) E).
  - replace (c_p s') with (c_p s); [exact IH|]. cbn [cstep] in S. destruct (c_stage s); try discriminate. destruct (run_returned _); [|discriminate].
    destruct (mem_str _ _); [|injection S as <-; reflexivity]. destruct (outputs _ _); [destruct (if removes then None else c_copy s); [|destruct ok]|]; injection S as <-; reflexivity.
Qed.

Section Main.
Context (X L : string) (Ne : X <> L).

Record CI (h : phist) (s : cstate) : Prop := {
  ci_t : exists eX sX eL sL, In (X, (eX, sX)) (p_targets (c_p s)) /\ In (L, (eL, sL)) (p_targets (c_p s)) /\
    XW (out_file eL) (assoc X (p_built (c_p s))) (In X (c_built s)) (h_next (h X) (out_file eL)) sX /\
    (forall l t, stored (s_disk sX) = Some l -> ts_target_linked l = true -> noted (out_file eL) (ts_libs l) t ->
       d_mt (s_disk sX) (out_file eL) = Some t -> c_copy s = d_tgt (s_disk sL) \/ (In X (c_built s) /\ c_stage s <> CDone)) /\
    (c_stage s = CDone -> c_copy s = d_tgt (s_disk sL)) }.

Lemma after_tgt p ev built run ok id e st st' : NoDup (map fst (p_targets p)) -> process p ev = Some (built, run, ok) ->
  In (id, (e, st)) (p_targets p) -> after_generate ev = true -> exec e st (delivered p ev id st) = Some st' ->
  d_tgt (s_disk st') = d_tgt (s_disk st).
Proof using Type.
  intros ND P Hi G E. destruct (delivered_effect _ _ _ _ _ _ _ _ _ (HS (fun _ => 0%N) None None false) ND P Hi E) as (_ & _ & K).
  apply K. intros x t ->. discriminate.
Qed.

Lemma history_CI rg removes mt0 l gens copy evs pevs h s : fresh_project mt0 l -> In X (map fst l) -> In L (map fst l) ->
  chistory rg removes X L l gens copy evs pevs h s -> CI h s.
Proof using Ne.
  intros Fp HXl HLl H. induction H as [|evs pevs h s pe s' H IH S A|evs pevs h s ok kept s' H IH S A].
  - apply in_map_iff in HXl as ([X' [eX dX]] & E1 & HX). cbn [fst] in E1. subst X'.
    apply in_map_iff in HLl as ([L' [eL dL]] & E1 & HL). cbn [fst] in E1. subst L'. constructor. exists eX, (init dX), eL, (init dL).
    cbn [cinit c_p pinit p_targets p_built c_built c_stage assoc].
    split; [exact (in_map (fun x : string * (tenv * disk) => (fst x, (fst (snd x), init (snd (snd x))))) _ _ HX)|].
    split; [exact (in_map (fun x : string * (tenv * disk) => (fst x, (fst (snd x), init (snd (snd x))))) _ _ HL)|].
    destruct Fp as (ND & _ & Fp). rewrite (assoc_NoDup_In _ _ _ ND HX). split; [|split; discriminate].
    destruct (Fp _ _ _ HX) as (_ & M1 & _ & _). destruct (Fp _ _ _ HL) as (_ & _ & M2 & _).
    constructor; try discriminate; try (intros K; destruct (K eq_refl)).
    intros t Ht. cbn in Ht. rewrite M1 in Ht. congruence.
  - pose proof (chistory_phistory _ _ _ _ _ _ _ _ _ _ _ H) as Hp.
    pose proof (phistory_PInv _ _ _ _ _ _ _ Fp Hp) as PI. pose proof (phistory_GInv _ _ _ _ _ _ _ Fp Hp) as GI.
    cbn [cstep] in S. destruct (match c_stage s with CBefore => true | _ => after_generate pe end) eqn:G; [|discriminate].
    destruct (pstep (c_p s) pe) as [p'|] eqn:Sp; [|discriminate]. injection S as <-. destruct (pstep_parts _ _ _ Sp) as [P D].
    destruct A as [A1 A2]. destruct IH as [(eX & sX & eL & sL & HX & HL & W & T3 & Dn)].
    destruct (deliver_In' _ _ _ _ _ _ _ D HX) as (sX' & HX' & EX). destruct (deliver_In' _ _ _ _ _ _ _ D HL) as (sL' & HL' & EL).
    pose proof (pi_ids _ _ _ _ PI) as ND.
    constructor. exists eX, sX', eL, sL'. cbn [c_p c_built c_copy c_stage]. split; [exact HX'|]. split; [exact HL'|].
    assert (AF : forall i, pe = PForget i -> p_built (c_p s) = []) by (intros i ->; exact A2).
    assert (AB : forall c o, pe = PBuild X c o -> In (out_file eL) (libs c)) by (intros c o ->; exact (A2 eq_refl eL sL HL)).
    assert (Nx : h_next (ptrack (c_p s) h pe X) (out_file eL) = bumped (change (c_p s) pe) (h_next (h X)) (out_file eL)).
    { rewrite (ptrack_at _ h pe X eX sX ND HX). rewrite (proj1 (proj2 (delivered_effect _ _ _ _ _ _ _ _ _ (h X) ND P HX EX))). reflexivity. }
    rewrite Nx. split; [exact (event_exe rg _ h _ PI GI X L Ne eX eL sX sL HX HL _ pe _ _ _ _ A1 P EX AF AB W)|].
    assert (Cases : (exists l0, pe = PStop l0) \/ forall l0, pe <> PStop l0) by (destruct pe; try (right; discriminate); left; eauto).
    assert (Es : (forall l0, pe <> PStop l0) -> match pe with PStop _ => CBefore | _ => c_stage s end = c_stage s).
    { intros NS. destruct pe; try reflexivity. destruct (NS _ eq_refl). }
    split.
    + intros ls t Hs Hk Hn Ht.
      destruct (c_stage s) eqn:Ec.
      1, 3: destruct (event_stored _ _ _ _ _ _ _ _ _ (c_built s) ND P HX EX) as [K|[K|K]];
        [|rewrite (K ls Hs) in Hk; discriminate|right; split; [exact K|destruct pe; discriminate]];
        rewrite K in Hs;
        (destruct (event_lib rg _ h _ PI GI X L Ne eX eL sX sL HX HL pe _ _ _ _ _ A1 P EX EL) as [[Q1 Q2]|Q];
          [|specialize (Q t Ht); pose proof (xw_stored _ _ _ _ _ W ls t Hs Hn); lia]);
        rewrite Q2; rewrite Q1 in Ht;
        (destruct (T3 ls t Hs Hk Hn Ht) as [Z|[Z _]]; [left; exact Z|]);
        (destruct Cases as [[l0 ->]|NS]; [|right; split; [exact (built_mono _ _ _ _ NS Z)|destruct pe; discriminate]]);
        exfalso; (destruct A2 as [A2|[A2|(e2 & s2 & A2 & U)]]; [congruence|exact (A2 Z)|]);
        cbn [c_p] in A2; assert (NDp : NoDup (map fst (p_targets p'))) by (rewrite (deliver_ids _ _ _ _ D); exact ND);
        pose proof (assoc_NoDup_In _ _ _ NDp A2) as B1; rewrite (assoc_NoDup_In _ _ _ NDp HX') in B1; injection B1 as <- <-;
        rewrite <- K in Hs; rewrite (U ls Hs) in Hk; discriminate.
      left. rewrite (after_tgt _ _ _ _ _ _ _ _ _ ND P HL G EL). exact (Dn eq_refl).
    + intros Ec. destruct Cases as [[l0 ->]|NS]; [discriminate|]. rewrite (Es NS) in Ec. rewrite Ec in G.
      rewrite (after_tgt _ _ _ _ _ _ _ _ _ ND P HL G EL). exact (Dn Ec).
  - pose proof (chistory_phistory _ _ _ _ _ _ _ _ _ _ _ H) as Hp.
    pose proof (phistory_PInv _ _ _ _ _ _ _ Fp Hp) as PI. pose proof (pi_ids _ _ _ _ PI) as ND.
    destruct IH as [(eX & sX & eL & sL & HX & HL & W & T3 & Dn)].
    cbn [cstep] in S. destruct (c_stage s) eqn:Ec; try discriminate. destruct (run_returned (c_p s)) eqn:Rr; [|discriminate].
    assert (Ou : outputs (c_p s) L = d_tgt (s_disk sL)) by (unfold outputs; rewrite (assoc_NoDup_In _ _ _ ND HL); reflexivity).
    destruct (mem_str X (c_built s)) eqn:Mb.
    + apply mem_str_In in Mb.
      assert (Dd : forall cp, CI h (CS (c_p s) (c_built s) cp CDead)).
      { intros cp. constructor. exists eX, sX, eL, sL. cbn [c_p c_built c_copy c_stage]. split; [exact HX|]. split; [exact HL|]. split; [exact W|]. split; [|discriminate].
        intros ls t _ _ _ _. right. split; [exact Mb|discriminate]. }
      rewrite Ou in S. destruct (d_tgt (s_disk sL)) as [k|] eqn:Et; [|injection S as <-; apply Dd].
      destruct (if removes then None else c_copy s); [injection S as <-; apply Dd|]. destruct ok; [|injection S as <-; apply Dd].
      injection S as <-. constructor. exists eX, sX, eL, sL. cbn [c_p c_built c_copy c_stage]. split; [exact HX|]. split; [exact HL|]. split; [exact W|].
      rewrite Et. split; auto.
    + injection S as <-. apply mem_str_false in Mb. destruct A as [B1 (k & r & x & Er & B2)].
      pose proof (pi_tgt _ _ _ _ PI _ _ _ HX) as TI.
      destruct (assoc X (p_built (c_p s))) as [c|] eqn:Eb; [|destruct (proj1 (assoc_None _ _) Eb B1)].
      unfold run_returned in Rr. rewrite Er in Rr. apply andb_true_iff in Rr as [Rr R3]. apply andb_true_iff in Rr as [R1 _].
      pose proof (ti_late _ _ _ _ _ _ _ _ _ TI c k r x Eb Er (finished_of _ _ _ R3 B2)) as Pc.
      pose proof (ti_ok _ _ _ _ _ _ _ _ _ TI c k r x Eb Er R1) as Ok.
      destruct (xw_idle _ _ _ _ _ W c eq_refl Pc Ok Mb) as (ls & t & Q1 & Q2 & Q3 & Q4).
      assert (Z : c_copy s = d_tgt (s_disk sL)) by (destruct (T3 ls t Q1 Q2 Q3 Q4) as [Z|[Z _]]; [exact Z|destruct (Mb Z)]).
      constructor. exists eX, sX, eL, sL. cbn [c_p c_built c_copy c_stage]. rewrite Eb. split; [exact HX|]. split; [exact HL|]. split; [exact W|]. split; auto.
Qed.

Lemma copy_fresh rg removes mt0 l gens copy evs pevs h s : fresh_project mt0 l -> In X (map fst l) -> In L (map fst l) ->
  chistory rg removes X L l gens copy evs pevs h s -> c_stage s = CDone -> copy_current L (c_p s) (c_copy s).
Proof using Ne.
  intros Fp HX HL H E. destruct (history_CI _ _ _ _ _ _ _ _ _ _ Fp HX HL H) as [(eX & sX & eL & sL & _ & H2 & _ & _ & K)].
  exists eL, sL. split; [exact H2|exact (K E)].
Qed.
End Main.

(** Without removing: if there is a copy, copying throws. *)
Lemma copy_throws X L s ok kept s' k : In X (c_built s) -> c_copy s = Some k ->
  cstep false X L s (CCopy ok kept) = Some s' -> c_stage s' = CDead /\ c_copy s' = Some k.
Proof.
  intros Hb Hk S. cbn [cstep] in S. destruct (c_stage s); try discriminate. destruct (run_returned _); [|discriminate].
  apply mem_str_In in Hb. rewrite Hb, Hk in S. destruct (outputs _ _); injection S as <-; auto.
Qed.
