(** A repeated run that succeeds leaves everything current. *)
From Verif Require Import Prelude Proof_Prelude Model_Path Model_Json Model_Schema Model_Command Spec_Command
  Model_ToolchainConfig Model_Target Spec_Target Proof_TargetBase Proof_TargetInv Proof_TargetRun
  Proof_TargetStep Proof_TargetStep2 Proof_TargetMain Model_Again Spec_Again Proof_Again Proof_Again2.

Section Session.
Context (rg : regime) (e : tenv) (T : templates_ok e) (d0 : disk).

Definition next_le (h1 h : hist) : Prop := forall f, (h_next h1 f <= h_next h f)%N.

Lemma track_next_le (h1 h : hist) (sh st : tstate) (ev : event) :
  next_le h1 h -> next_le (track e h1 sh ev) (track e h st ev).
Proof.
  intros N. destruct ev; cbn [track]; try exact N.
  intros g. cbn [h_next]. destruct t as [v|]; [|exact (N g)]. unfold upd. destruct (String.eqb g f); [|exact (N g)].
  specialize (N f). lia.
Qed.
Lemma track_edited (h1 h : hist) (sh st : tstate) (ev : event) :
  of_run ev = true -> s_pc sh = s_pc st -> s_cfg sh = s_cfg st -> h_edited h1 = h_edited h ->
  h_edited (track e h1 sh ev) = h_edited (track e h st ev).
Proof.
  intros OR P C N. destruct ev; try discriminate OR; cbn [track h_edited]; try exact N.
  rewrite P, C, N. reflexivity.
Qed.
Lemma admissible_two (h1 h : hist) (sh st : tstate) (ev : event) :
  of_run ev = true -> s_pc sh = s_pc st -> s_cfg sh = s_cfg st -> next_le h1 h ->
  admissible rg e h st ev -> admissible rg e h1 sh ev.
Proof.
  intros OR P C N A. destruct ev; try discriminate OR; cbn [admissible] in *; try exact A.
  unfold before_checks, in_pch_window in *. rewrite P, C. destruct rg; [exact A|]. destruct A as [A B]. split; [|exact B].
  intros v E. specialize (A v E). specialize (N f). lia.
Qed.
Lemma nextok_edit (h : hist) (st : tstate) (f : string) (t : option N) :
  nextok h (d_mt (s_disk st)) -> nextok (track e h st (EvEdit f t)) (upd (d_mt (s_disk st)) f t).
Proof.
  intros N g v. cbn [track h_next]. unfold upd. destruct (String.eqb_spec g f) as [->|D].
  - intros ->. rewrite String.eqb_refl. lia.
  - intros H. specialize (N g v H). destruct t; [|exact N]. apply String.eqb_neq in D. rewrite D. exact N.
Qed.
Lemma nextok_run (h : hist) (st st' : tstate) (ev : event) :
  of_run ev = true -> step e st ev = Some st' -> nextok h (d_mt (s_disk st)) ->
  nextok (track e h st ev) (d_mt (s_disk st')).
Proof.
  intros OR H N.
  assert (K : (exists f t, ev = EvEdit f t) \/ (h_next (track e h st ev) = h_next h /\ d_mt (s_disk st') = d_mt (s_disk st))).
  { destruct ev; try discriminate OR; cbn [step track h_next] in *; [left; eauto|right..]; (split; [reflexivity|]).
    1-4: injection H as <-; reflexivity.
    - destruct (s_pc st) eqn:E; try discriminate H. injection H as <-. unfold pch_check.
      destruct (negb (s_ok st)); [reflexivity|]. destruct (pch_pre _ _) as [u b]. destruct (negb b); [reflexivity|].
      destruct (_ || _); reflexivity.
    - destruct (s_pc st) eqn:E; try discriminate H. unfold pch_exec in H. destruct (pch_command _ _); try discriminate H.
      injection H as <-. destruct (run_res _ _); reflexivity.
    - destruct (s_pc st) eqn:E; try discriminate H. injection H as <-. unfold obj_check.
      destruct (negb (s_ok st)); [reflexivity|]. destruct (obj_pre _ _) as [u b]. destruct (negb b); [reflexivity|].
      match goal with |- context [if ?b then (ts_sources ?x, [], true) else ?y] => destruct (if b then (ts_sources x, [], true) else y) as [[sel dum] dd] end. reflexivity.
    - destruct (s_pc st) eqn:E; try discriminate H. unfold compile_one in H. destruct (take_pending _ _) as [[i r']|]; [|discriminate H].
      destruct (compile_command _ _ _); try discriminate H.
      injection H as <-. destruct (run_res _ _); reflexivity.
    - destruct (s_pc st) as [| | | |[|? ?]| |] eqn:E; try discriminate H. injection H as <-. unfold link_check.
      destruct (negb (s_ok st)); [reflexivity|]. destruct (link_pre _ _) as [u b]. destruct (negb b); [reflexivity|].
      reflexivity.
    - destruct (s_pc st) eqn:E; try discriminate H. unfold link_exec in H. destruct (link_command _ _ _); try discriminate H.
      injection H as <-. destruct (run_res _ _); reflexivity. }
  destruct K as [(f & t & ->)|[K1 K2]].
  - cbn [step] in H. injection H as <-. apply nextok_edit. exact N.
  - unfold nextok. rewrite K1, K2. exact N.
Qed.
Lemma store_run (st st' : tstate) (ev : event) :
  of_run ev = true -> step e st ev = Some st' ->
  d_store (s_disk st') = d_store (s_disk st) /\ s_load st' = s_load st.
Proof.
  intros OR H. destruct ev; try discriminate OR; cbn [step] in *.
  1-5: injection H as <-; split; reflexivity.
  - destruct (s_pc st) eqn:E; try discriminate H. injection H as <-. unfold pch_check.
    destruct (negb (s_ok st)); [split; reflexivity|]. destruct (pch_pre _ _) as [u b]. destruct (negb b); [split; reflexivity|].
    destruct (_ || _); split; reflexivity.
  - destruct (s_pc st) eqn:E; try discriminate H. unfold pch_exec in H. destruct (pch_command _ _); try discriminate H.
    injection H as <-. destruct (run_res _ _); split; reflexivity.
  - destruct (s_pc st) eqn:E; try discriminate H. injection H as <-. unfold obj_check.
    destruct (negb (s_ok st)); [split; reflexivity|]. destruct (obj_pre _ _) as [u b]. destruct (negb b); [split; reflexivity|].
    match goal with |- context [if ?b then (ts_sources ?x, [], true) else ?y] => destruct (if b then (ts_sources x, [], true) else y) as [[sel dum] dd] end. split; reflexivity.
  - destruct (s_pc st) eqn:E; try discriminate H. unfold compile_one in H. destruct (take_pending _ _) as [[i r']|]; [|discriminate H].
    destruct (compile_command _ _ _); try discriminate H.
    injection H as <-. destruct (run_res _ _); split; reflexivity.
  - destruct (s_pc st) as [| | | |[|? ?]| |] eqn:E; try discriminate H. injection H as <-. unfold link_check.
    destruct (negb (s_ok st)); [split; reflexivity|]. destruct (link_pre _ _) as [u b]. destruct (negb b); [split; reflexivity|].
    split; reflexivity.
  - destruct (s_pc st) eqn:E; try discriminate H. unfold link_exec in H. destruct (link_command _ _ _); try discriminate H.
    injection H as <-. destruct (run_res _ _); split; reflexivity.
Qed.
Lemma stored_store (d d' : disk) : d_store d' = d_store d -> stored d' = stored d.
Proof. unfold stored. intros ->. reflexivity. Qed.

Record RestI (h : hist) (a : astate) : Prop := {
  w_nodup : NoDup (map (obj_of e) (sources (s_cfg (a_st a))));
  w_next : nextok h (d_mt (s_disk (a_st a)));
  w_clean : a_dirty a = false -> exists d1 evs1 h1 st1,
    history rg e d1 evs1 h1 st1 /\ s_pc st1 = Idle /\ s_disk st1 = s_disk (a_st a) /\
    s_load (a_st a) = stored (s_disk (a_st a)) /\ permitted e h1 (s_cfg (a_st a)) /\ next_le h1 h }.
Record RepI (h : hist) (a : astate) : Prop := {
  p_nodup : NoDup (map (obj_of e) (sources (s_cfg (a_st a))));
  p_next : nextok h (d_mt (s_disk (a_st a)));
  p_sim : exists k L L' d1 evs1 h1 sh,
    history rg e d1 evs1 h1 sh /\ Sim k L L' (a_st a) sh /\ h_edited h1 = h_edited h /\ next_le h1 h /\
    (k = false -> s_load (a_st a) = stored (s_disk (a_st a))) }.
Record SInv (evs : list aevent) (h : hist) (a : astate) : Prop := {
  v_ready : AInv e a;
  v_once : ~ In AAgain evs -> exists evs', history rg e d0 evs' h (a_st a);
  v_phase : match a_phase a with
            | Out => True
            | First => ~ In AAgain evs
            | Rest _ => RestI h a
            | Rep => RepI h a
            end }.

Lemma once_app (evs : list aevent) (ev : aevent) : ~ In AAgain (evs ++ [ev]) -> ~ In AAgain evs /\ ev <> AAgain.
Proof.
  intros H. split; intros K; apply H; apply in_app_iff; [left; exact K|right; left; congruence].
Qed.
Lemma astep_step (a a' : astate) (x : event) : astep e a (AOnce x) = Some a' -> step e (a_st a) x = Some (a_st a').
Proof.
  cbn [astep]. destruct (step e (a_st a) x) as [st'|]; [|discriminate].
  destruct x; try (intros [= <-]; reflexivity). destruct (a_phase a); try discriminate. intros [= <-]. reflexivity.
Qed.
Lemma astep_run (a a' : astate) (x : event) : of_run x = true -> astep e a (AOnce x) = Some a' ->
  a' = AS (a_st a') (a_dirty a) (a_phase a).
Proof.
  intros OR. cbn [astep]. destruct (step e (a_st a) x) as [st'|]; [|discriminate].
  destruct x; try discriminate OR; intros [= <-]; reflexivity.
Qed.

Lemma rest_edit (h : hist) (a a' : astate) (x : event) (b : bool) :
  (exists f t, x = EvEdit f t) \/ x = EvFail -> a_phase a = Rest b -> s_pc (a_st a) = Idle ->
  admissible rg e h (a_st a) x -> astep e a (AOnce x) = Some a' -> RestI h a ->
  RestI (track e h (a_st a) x) a'.
Proof.
  intros X P Id A S [W1 W2 W3]. pose proof (astep_step a a' x S) as Sx.
  assert (OR : of_run x = true) by (destruct X as [(f & t & ->)| ->]; reflexivity).
  pose proof (astep_run a a' x OR S) as Ea. destruct (run_keeps e _ _ _ OR Sx) as (C & O & _).
  destruct (store_run _ _ _ OR Sx) as (St & Ld).
  constructor.
  - rewrite C. exact W1.
  - exact (nextok_run h _ _ x OR Sx W2).
  - intros D. rewrite Ea in D. cbn [a_dirty] in D. destruct (W3 D) as (d1 & evs1 & h1 & st1 & H1 & I1 & D1 & L1 & P1 & N1).
    rewrite C, Ld, (stored_store _ _ St).
    destruct X as [(f & t & ->)| ->].
    + cbn [step] in Sx. exists d1, (evs1 ++ [EvEdit f t]), (track e h1 st1 (EvEdit f t)), (with_disk st1 (set_mt (s_disk st1) (upd (d_mt (s_disk st1)) f t))).
      split; [|split; [|split; [|split; [|split]]]].
      * apply history_snoc; [exact H1| |reflexivity]. cbn [admissible] in *. destruct rg; [left; exact I1|]. destruct A as [A B]. split.
        -- intros v E. specialize (A v E). specialize (N1 f). lia.
        -- intros [[_ [K|K]] _]; rewrite I1 in K; discriminate K.
      * exact I1.
      * injection Sx as Sx. rewrite <- Sx. stp. rewrite D1. reflexivity.
      * exact L1.
      * exact P1.
      * apply track_next_le. exact N1.
    + cbn [step] in Sx. injection Sx as Sx. exists d1, evs1, h1, st1. rewrite <- Sx. stp. cbn [track]. auto 8.
Qed.

Lemma rep_run (h : hist) (a a' : astate) (x : event) :
  of_run x = true -> admissible rg e h (a_st a) x -> astep e a (AOnce x) = Some a' -> RepI h a ->
  RepI (track e h (a_st a) x) a'.
Proof.
  intros OR A S [W1 W2 (k & L & L' & d1 & evs1 & h1 & sh & H1 & M & E1 & N1 & Ld1)]. pose proof (astep_step a a' x S) as Sx.
  destruct (run_keeps e _ _ _ OR Sx) as (C & O & _). destruct (store_run _ _ _ OR Sx) as (St & Ld).
  constructor.
  - rewrite C. exact W1.
  - exact (nextok_run h _ _ x OR Sx W2).
  - destruct (sim_step e k L L' _ _ M x _ OR Sx) as (sh' & Ssh & M').
    exists k, L, L', d1, (evs1 ++ [x]), (track e h1 sh x), sh'. split; [|split; [|split; [|split]]].
    + apply history_snoc; [exact H1| |exact Ssh].
      exact (admissible_two h1 h sh _ x OR (m_pc _ _ _ _ _ M) (m_cfg _ _ _ _ _ M) N1 A).
    + exact M'.
    + exact (track_edited h1 h sh _ x OR (m_pc _ _ _ _ _ M) (m_cfg _ _ _ _ _ M) E1).
    + apply track_next_le. exact N1.
    + intros K. rewrite Ld, (stored_store _ _ St). exact (Ld1 K).
Qed.

Lemma clean_end (st st' : tstate) (w : wres) :
  step e st (EvEnd w) = Some st' -> s_dirty st = false -> w = WOk /\ st' = with_pc st Idle.
Proof.
  cbn [step]. destruct (s_pc st); try discriminate. unfold end_task. intros H D. rewrite D in H.
  destruct w; try discriminate H. injection H as <-. auto.
Qed.
Lemma permitted_end (h : hist) (st : tstate) (w : wres) (c : cfg) :
  permitted e h c -> permitted e (track e h st (EvEnd w)) c.
Proof.
  intros (A & B & C & D). cbn [track]. repeat split; cbn [h_lang h_taint]; auto.
  destruct (writes_store st w); [discriminate|exact D].
Qed.

Lemma first_end (h : hist) (a a' : astate) (w : wres) (evs : list event) :
  history rg e d0 evs h (a_st a) -> admissible rg e h (a_st a) (EvEnd w) ->
  astep e a (AOnce (EvEnd w)) = Some a' -> RestI (track e h (a_st a) (EvEnd w)) a'.
Proof using T.
  intros H A S. pose proof (astep_step a a' _ S) as Sx. destruct (step_end _ _ _ _ Sx) as (P1 & P2 & P3 & P4 & _).
  pose proof (history_Inv rg e T _ _ _ _ H) as I. assert (RI : RunInv rg e h (a_st a)) by (apply (i_run _ _ _ _ I); rewrite P1; discriminate).
  pose proof (history_snoc rg e d0 _ _ _ _ _ H A Sx) as H'. pose proof (history_Inv rg e T _ _ _ _ H') as I'.
  constructor.
  - rewrite P3. exact (proj1 (r_perm _ _ _ _ RI)).
  - exact (i_next _ _ _ _ I').
  - intros D. cbn [astep] in S. rewrite Sx in S. injection S as S. rewrite <- S in D. cbn [a_dirty] in D.
    destruct (clean_end _ _ _ Sx D) as [-> Es].
    exists d0, (evs ++ [EvEnd WOk]), (track e h (a_st a) (EvEnd WOk)), (a_st a'). split; [exact H'|]. split; [exact P2|].
    split; [reflexivity|]. split; [|split].
    + rewrite Es. stp. exact (r_load _ _ _ _ RI).
    + apply permitted_end. rewrite P3. exact (r_perm _ _ _ _ RI).
    + intros f. apply N.le_refl.
Qed.

Lemma rep_end (h : hist) (a a' : astate) (w : wres) :
  astep e a (AOnce (EvEnd w)) = Some a' -> RepI h a -> RestI (track e h (a_st a) (EvEnd w)) a'.
Proof using T.
  intros S [W1 W2 (k & L & L' & d1 & evs1 & h1 & sh & H1 & M & E1 & N1 & Ld1)].
  pose proof (astep_step a a' _ S) as Sx. destruct (step_end _ _ _ _ Sx) as (P1 & P2 & P3 & P4 & _).
  constructor.
  - rewrite P3. exact W1.
  - intros f t. rewrite P4. cbn [track h_next]. exact (W2 f t).
  - intros D. cbn [astep] in S. rewrite Sx in S. injection S as S. rewrite <- S in D. cbn [a_dirty] in D.
    destruct (clean_end _ _ _ Sx D) as [-> Es]. destruct M as [P C O K U U' Dk G _]. destruct k; [destruct G; congruence|].
    destruct G as [G1 G2]. assert (Dsh : s_dirty sh = false) by congruence. assert (Psh : s_pc sh = PcEnd) by congruence.
    exists d1, (evs1 ++ [EvEnd WOk]), (track e h1 sh (EvEnd WOk)), (with_pc sh Idle).
    pose proof (history_Inv rg e T _ _ _ _ H1) as I.
    assert (RI : RunInv rg e h1 sh) by (apply (i_run _ _ _ _ I); rewrite Psh; discriminate).
    split; [|split; [|split; [|split; [|split]]]].
    + apply history_snoc; [exact H1| |].
      * cbn [admissible]. right. left. exact Dsh.
      * cbn [step]. rewrite Psh. unfold end_task. rewrite Dsh. reflexivity.
    + reflexivity.
    + rewrite Es. stp. exact Dk.
    + rewrite Es. stp. exact (Ld1 eq_refl).
    + apply permitted_end. rewrite P3, <- C. exact (r_perm _ _ _ _ RI).
    + intros f. cbn [track h_next]. exact (N1 f).
Qed.

Lemma again_start (h : hist) (a a' : astate) :
  AInv e a -> astep e a AAgain = Some a' -> (forall b, a_phase a = Rest b -> RestI h a) ->
  RepI (atrack e h a AAgain) a' /\ a_phase a' = Rep.
Proof.
  intros I S W. cbn [astep] in S. unfold AInv in I. destruct (a_phase a) eqn:P; try discriminate S.
  destruct (s_ok (a_st a)) eqn:Ok; [|discriminate S]. injection S as <-. destruct (W again eq_refl) as [W1 W2 W3].
  split; [|reflexivity]. destruct I as [_ RD]. constructor; cbn [a_st]; stp; [exact W1|exact W2|].
  destruct (a_dirty a) eqn:D.
  - exists true, (s_log (a_st a)), [], (s_disk (a_st a)), [EvStart (s_cfg (a_st a)) (s_ord (a_st a))],
      (track e (hist0 (s_disk (a_st a))) (init (s_disk (a_st a))) (EvStart (s_cfg (a_st a)) (s_ord (a_st a)))),
      (started (init (s_disk (a_st a))) (s_cfg (a_st a)) (s_ord (a_st a))).
    split; [|split; [|split; [|split]]].
    + apply (history_snoc rg e _ [] _ _ (EvStart (s_cfg (a_st a)) (s_ord (a_st a))) _ (history_nil rg e _)).
      * cbn [admissible]. split; [exact W1|]. cbn [hist0 h_lang h_taint]. split; [congruence|]. split; [discriminate|discriminate].
      * cbn [step]. change (s_pc (init (s_disk (a_st a)))) with Idle. cbn iota. exact (start_startable _ _ _ _ (proj1 RD)).
    + pose proof (again_Sim e a true (init (s_disk (a_st a))) RD D Ok eq_refl ltac:(discriminate)) as X. rewrite D in X. exact X.
    + reflexivity.
    + intros f. cbn [track hist0 h_next atrack]. destruct (d_mt (s_disk (a_st a)) f) as [t|] eqn:E; [|lia]. specialize (W2 f t E). lia.
    + discriminate.
  - destruct (W3 eq_refl) as (d1 & evs1 & h1 & st1 & H1 & I1 & D1 & L1 & P1 & N1).
    exists false, (s_log (a_st a)), (s_log st1), d1, (evs1 ++ [EvStart (s_cfg (a_st a)) (s_ord (a_st a))]),
      (track e h1 st1 (EvStart (s_cfg (a_st a)) (s_ord (a_st a)))), (started st1 (s_cfg (a_st a)) (s_ord (a_st a))).
    split; [|split; [|split; [|split]]].
    + apply history_snoc; [exact H1|exact P1|]. cbn [step]. rewrite I1. exact (start_startable _ _ _ _ (proj1 RD)).
    + pose proof (again_Sim e a false st1 RD D Ok D1 (fun _ => L1)) as X. rewrite D in X. exact X.
    + reflexivity.
    + exact N1.
    + intros _. exact L1.
Qed.

Theorem session_SInv (evs : list aevent) (h : hist) (a : astate) : ahistory rg e d0 evs h a -> SInv evs h a.
Proof using T.
  induction 1 as [|evs h a ev a' H IH A S].
  - constructor; [apply AInv_init| |exact Logic.I]. intros _. exists []. apply history_nil.
  - destruct IH as [V1 V2 V3]. constructor; [exact (AInv_step e a ev a' S V1)| |].
    + intros NA. apply once_app in NA as [NA NE]. destruct (V2 NA) as (evs' & H').
      destruct ev as [x| |]; [|congruence|].
      * destruct A as [[A _] _]. exists (evs' ++ [x]). exact (history_snoc rg e d0 _ _ _ _ _ H' A (astep_step a a' x S)).
      * cbn [astep] in S. destruct (a_phase a); try discriminate S. injection S as <-. exists evs'. exact H'.
    + destruct ev as [x| |].
      * destruct A as [[A B] NS]. pose proof (astep_step a a' x S) as Sx. cbn [atrack].
        destruct (of_run x) eqn:OR.
        { rewrite (astep_run a a' x OR S). cbn [a_phase]. rewrite (astep_run a a' x OR S) in S. unfold AInv in V1.
          destruct (a_phase a) eqn:P.
          - exact Logic.I.
          - intros K. apply in_app_iff in K as [K|[K|[]]]; [exact (V3 K)|discriminate K].
          - assert (X : (exists f t, x = EvEdit f t) \/ x = EvFail) by (destruct x; try (destruct B; fail); eauto).
            rewrite <- P. rewrite <- P in S. exact (rest_edit h a _ x again X P (proj1 V1) A S V3).
          - rewrite <- P. rewrite <- P in S. exact (rep_run h a _ x OR A S V3). }
        cbn [astep] in S. rewrite Sx in S. destruct x; try discriminate OR.
        -- injection S as <-. exact Logic.I.
        -- injection S as S. destruct (a_phase a) eqn:P; rewrite <- S; cbn [a_phase].
           ++ exact Logic.I.
           ++ intros K. apply in_app_iff in K as [K|[K|[]]]; [exact (V3 K)|discriminate K].
           ++ destruct B.
           ++ exfalso. unfold AInv in V1. rewrite P in V1. exact (proj1 V1 A).
        -- destruct (a_phase a) eqn:P; try discriminate S. injection S as S. rewrite <- S. cbn [a_phase].
           destruct (s_pc (a_st a')); [exact Logic.I|..]; intros K; apply in_app_iff in K as [K|[K|[]]]; try discriminate K; exact (NS K).
        -- assert (S0 : astep e a (AOnce (EvEnd w)) = Some a') by (cbn [astep]; rewrite Sx; exact S).
           injection S as S. assert (Ep : a_phase a' = if s_ok (a_st a') then Rest (match a_phase a with Rep => true | _ => false end) else Out)
             by (rewrite <- S at 1; reflexivity). rewrite Ep.
           destruct (s_ok (a_st a')); [|exact Logic.I]. unfold AInv in V1. destruct (step_end _ _ _ _ Sx) as (P1 & _).
           destruct (a_phase a) eqn:P.
           ++ rewrite V1 in P1. discriminate P1.
           ++ destruct (V2 V3) as (evs' & H'). exact (first_end h a a' w evs' H' A S0).
           ++ destruct B.
           ++ exact (rep_end h a a' w S0 V3).
        -- injection S as <-. exact Logic.I.
      * assert (W : forall b, a_phase a = Rest b -> RestI h a) by (intros b Eb; rewrite Eb in V3; exact V3).
        destruct (again_start h a a' V1 S W) as [X1 X2]. rewrite X2. exact X1.
      * cbn [astep] in S. destruct (a_phase a); try discriminate S. injection S as <-. exact Logic.I.
Qed.

Theorem again_current (evs : list aevent) (w : wres) (h : hist) (a : astate) :
  ahistory rg e d0 (evs ++ [AOnce (EvEnd w)]) h a -> s_ok (a_st a) = true -> h_edited h = false ->
  all_current e (s_cfg (a_st a)) (s_disk (a_st a)).
Proof using T.
  intros H O E. inversion H as [K|evs1 h1 a1 ev a' H1 A S K Eh Ea]; [destruct evs; discriminate K|].
  apply app_inj_tail in K as [-> ->]. subst a'. subst h. destruct A as [[A B] _]. cbn [atrack track h_edited] in E.
  pose proof (astep_step a1 a _ S) as Sx. destruct (step_end _ _ _ _ Sx) as (P1 & P2 & P3 & P4 & P5 & _ & P6 & _).
  rewrite P3. apply (same_art_all e _ (s_disk (a_st a1))); [exact P5|exact P4|].
  destruct (session_SInv _ _ _ H1) as [V1 V2 V3]. unfold AInv in V1. destruct (a_phase a1).
  - rewrite V1 in P1. discriminate P1.
  - destruct (V2 V3) as (evs' & H'). exact (end_current rg e T h1 _ (history_Inv rg e T _ _ _ _ H') P1 (P6 O) E).
  - destruct B.
  - destruct V3 as [_ _ (k & L & L' & d1 & evs2 & h2 & sh & H2 & M & E1 & _)]. destruct M as [P C Or K U U' Dk G _].
    assert (X : all_current e (s_cfg sh) (s_disk sh)).
    { apply (end_current rg e T h2 _ (history_Inv rg e T _ _ _ _ H2)); [congruence| |congruence]. rewrite K. exact (P6 O). }
    rewrite C in X. rewrite Dk in X. destruct k; [|exact X].
    apply (same_art_all e _ (set_store (s_disk (a_st a1)) None)); [repeat split|reflexivity|exact X].
Qed.
End Session.
