(** The invariant of a run whose checks and commands meet edits half-way. *)
From Verif Require Import Prelude Proof_Prelude Model_Path Model_Json Model_Schema Spec_Json Proof_Dec
  Proof_Schema Model_Command Spec_Command Proof_Command Model_ToolchainConfig Model_Target Spec_Target
  Proof_TargetBase Proof_TargetInv Proof_TargetRun Proof_TargetStep Proof_TargetStep2 Proof_TargetMain
  Model_Torn Spec_Torn Proof_Torn Proof_TornCheck.

Section Run.
Context (e : tenv) (T : templates_ok e).

Local Notation rg := Forward.
Local Notation R := (R rg).
Local Notation rec_ok := (rec_ok rg).
Local Notation Inv := (Inv rg e).
Local Notation RunInv := (RunInv rg e).
Local Notation Stage := (Stage rg e).
Local Notation mtof st := (d_mt (s_disk st)).

(** [h_edited] may be raised. *)
Lemma raise_Inv (h : hist) (st : tstate) (b : bool) :
  Inv h st -> Inv (HS (h_next h) (h_taint h) (h_lang h) (h_edited h || b)) st.
Proof.
  destruct b; [|rewrite orb_false_r; destruct h; exact (fun x => x)].
  replace (h_edited h || true) with true by (destruct (h_edited h); reflexivity).
  intros [I1 I2 I3 I4 I5]. constructor; try assumption. intros P. destruct (I5 P). constructor; try assumption.
  { apply (BufInv_mono rg e h _ (s_disk st)); [apply same_art_refl|apply Rsub_next; reflexivity|exact r_buf]. }
  unfold Proof_TargetRun.Stage in *. destruct (s_pc st); try exact r_stage; destruct r_stage; constructor; try assumption;
    cbn [h_edited]; try (intros; discriminate).
  - intros P1 O. destruct (so_pch P1 O) as (A & B & _). split; [exact A|]. split; [exact B|discriminate].
  - intros P1 O D. destruct (so_clean P1 O D) as (s & A & B & _). exists s. split; [exact A|]. split; [exact B|discriminate].
  - intros O D. destruct (sc_clean O D) as (s & A & _). exists s. split; [exact A|discriminate].
  - intros O D. destruct (se_dirty O D) as (A & B & C & _). split; [exact A|]. split; [exact B|]. split; [exact C|discriminate].
  - intros O D. destruct (se_clean O D) as (s & A & _). exists s. split; [exact A|discriminate].
Qed.

(** Times that a check which is now running may have found. *)
Definition Rw (h : hist) (mt : times) (seen : string -> list (option N)) (m : times) : Prop :=
  forall f, m f = None \/ m f = mt f \/ (exists t, m f = Some t /\ (h_next h f <= t)%N) \/ In (m f) (seen f).

Lemma R_Rw (h : hist) (mt : times) seen (m : times) : R h mt m -> Rw h mt seen m.
Proof. intros H f. destruct (H f) as [K|[K|K]]; tauto. Qed.
Lemma Rw_reset (h : hist) (mt : times) seen (m : times) : (forall f, seen f = [mt f]) -> Rw h mt seen m -> R h mt m.
Proof.
  intros E H f. destruct (H f) as [K|[K|[K|K]]]; [left; exact K|right; left; exact K|right; right; exact K|].
  rewrite E in K. destruct K as [K|[]]. right. left. symmetry. exact K.
Qed.
Lemma Rw_saw (h : hist) (mt : times) seen (m : times) : (forall f, In (m f) (seen f)) -> Rw h mt seen m.
Proof. intros H f. right. right. right. exact (H f). Qed.
Lemma Rw_next (h h' : hist) (mt : times) seen (m : times) : h_next h = h_next h' -> Rw h' mt seen m -> Rw h mt seen m.
Proof. intros E H f. rewrite E. exact (H f). Qed.

Record WInv (h : hist) (w : wstate) : Prop := {
  w_inv : Inv h (w_st w);
  w_bound : forall f t, In (Some t) (w_seen w f) -> (t < h_next h f)%N;
  w_user : s_pc (w_st w) <> Idle -> forall i, In i (all_infos (s_user (w_st w))) ->
    forall v, In v (w_seen w (pi_path i)) -> rec_ok h (mtof (w_st w)) i v;
  w_store : s_pc (w_st w) <> Idle -> forall s, stored (s_disk (w_st w)) = Some s -> forall i, In i (all_infos s) ->
    forall v, In v (w_seen w (pi_path i)) -> rec_ok h (mtof (w_st w)) i v;
  w_still : s_pc (w_st w) <> Idle -> h_edited h = false ->
    forall f, In f (tracked (s_cfg (w_st w))) -> forall v, In v (w_seen w f) -> v = mtof (w_st w) f;
  w_head : pchs (s_cfg (w_st w)) <> [] -> s_pc (w_st w) = PcPch \/ s_pc (w_st w) = PcPchExec \/ s_pc (w_st w) = PcObj ->
    forall f, In f (headers (s_cfg (w_st w))) -> forall v, In v (w_seen w f) -> v = mtof (w_st w) f;
  w_pch : s_pc (w_st w) = PcPch -> forall s, stored (s_disk (w_st w)) = Some s ->
    forall m, Rw h (mtof (w_st w)) (w_seen w) m -> pchclean s (s_cfg (w_st w)) m ->
    pch_current e (s_cfg (w_st w)) m (s_disk (w_st w)) /\
    forall m2 p, Rw h (mtof (w_st w)) (w_seen w) m2 -> objclean s (s_cfg (w_st w)) m2 ->
      In p (sources (s_cfg (w_st w))) -> matches s m2 p -> obj_current e (s_cfg (w_st w)) m2 (s_disk (w_st w)) p;
  w_obj : s_pc (w_st w) = PcObj -> s_ok (w_st w) = true -> s_dirty (w_st w) = false ->
    forall s, stored (s_disk (w_st w)) = Some s ->
    forall m p, Rw h (mtof (w_st w)) (w_seen w) m -> objclean s (s_cfg (w_st w)) m ->
      In p (sources (s_cfg (w_st w))) -> matches s m p -> obj_current e (s_cfg (w_st w)) m (s_disk (w_st w)) p }.

Lemma WInv_reset (h : hist) (st : tstate) (seen : string -> list (option N)) :
  Inv h st -> (forall f, seen f = [mtof st f]) -> WInv h (WS st seen).
Proof.
  intros I E. assert (In1 : forall f v, In v (seen f) -> v = mtof st f).
  { intros f v Hv. rewrite E in Hv. destruct Hv as [<-|[]]. reflexivity. }
  constructor; cbn [w_st w_seen].
  - exact I.
  - intros f t Ht. apply In1 in Ht. symmetry in Ht. exact (i_next _ _ _ _ I f t Ht).
  - intros P i Hi v Hv. apply In1 in Hv. rewrite Hv. apply fresh_rec. exact (r_fresh _ _ _ _ (i_run _ _ _ _ I P) i Hi).
  - intros P s Hs i Hi v Hv. apply In1 in Hv. rewrite Hv. apply fresh_rec. exact (i_bound _ _ _ _ I eq_refl s Hs i Hi).
  - intros _ _ f _. exact (In1 f).
  - intros _ _ f _. exact (In1 f).
  - intros P s Hs m Hm C. apply (Rw_reset _ _ _ _ E) in Hm.
    assert (RI : RunInv h st) by (apply (i_run _ _ _ _ I); congruence). destruct RI.
    unfold Proof_TargetRun.Stage in r_stage. rewrite P in r_stage. destruct r_stage.
    destruct (i_safe _ _ _ _ I (or_introl eq_refl) s Hs (s_cfg st) r_perm) as (S1 & S2 & _). split.
    + exact (S1 m Hm sp_pch C).
    + intros m2 p H2 OC Hp M. apply (Rw_reset _ _ _ _ E) in H2. exact (S2 m m2 Hm H2 (fun _ => C) OC p Hp M).
  - intros P O D s Hs m p Hm OC Hp M. apply (Rw_reset _ _ _ _ E) in Hm.
    assert (RI : RunInv h st) by (apply (i_run _ _ _ _ I); congruence). destruct RI.
    unfold Proof_TargetRun.Stage in r_stage. rewrite P in r_stage. destruct r_stage.
    destruct (contains_pch (s_cfg st)) eqn:Ec.
    + apply contains_pch_iff in Ec. destruct (so_clean Ec O D) as (s' & A & B & _).
      assert (s' = s) as -> by congruence. exact (B m p Hm OC Hp M).
    + apply contains_pch_false in Ec.
      destruct (i_safe _ _ _ _ I (or_introl eq_refl) s Hs (s_cfg st) r_perm) as (_ & S2 & _).
      apply (S2 m m Hm Hm); auto. congruence.
Qed.

Lemma WInv_idle (h : hist) (st : tstate) (seen : string -> list (option N)) :
  Inv h st -> s_pc st = Idle -> (forall f t, In (Some t) (seen f) -> (t < h_next h f)%N) -> WInv h (WS st seen).
Proof. intros I P B. constructor; cbn [w_st w_seen]; try assumption; try (intros; congruence). intros _ [K|[K|K]]; congruence. Qed.

(** A step of the run after a check, which changes neither files nor the state file. *)
Lemma WInv_exec (h h' : hist) (w : wstate) (st' : tstate) :
  WInv h w -> Inv h' st' -> h_next h' = h_next h -> h_edited h' = h_edited h ->
  s_pc (w_st w) <> Idle -> s_cfg st' = s_cfg (w_st w) -> s_user st' = s_user (w_st w) ->
  mtof st' = mtof (w_st w) -> stored (s_disk st') = stored (s_disk (w_st w)) ->
  s_pc st' <> PcPch -> (s_pc st' = PcObj -> s_dirty st' = true) ->
  (s_pc st' = PcPchExec \/ s_pc st' = PcObj -> s_pc (w_st w) = PcPchExec) ->
  WInv h' (WS st' (w_seen w)).
Proof.
  intros W I N E P C U M S P1 P2 P3.
  assert (HR : Rsub rg h (mtof (w_st w)) h' (mtof (w_st w))) by (apply Rsub_next; congruence).
  destruct W. constructor; cbn [w_st w_seen]; rewrite ?C, ?M, ?S, ?U, ?E in *.
  - exact I.
  - rewrite N. exact w_bound0.
  - intros _ i Hi v Hv. exact (rec_ok_mono rg h h' _ _ i v HR (w_user0 P i Hi v Hv)).
  - intros _ s Hs i Hi v Hv. exact (rec_ok_mono rg h h' _ _ i v HR (w_store0 P s Hs i Hi v Hv)).
  - intros _. exact (w_still0 P).
  - intros Q [K|K]; [contradiction|]. apply w_head0; [exact Q|]. right. left. exact (P3 K).
  - intros K. contradiction.
  - intros K O D. rewrite (P2 K) in D. discriminate.
Qed.

Lemma Look_of (h : hist) (w : wstate) (saw : times) :
  WInv h w -> s_pc (w_st w) <> Idle -> (forall f, In (saw f) (w_seen w f)) -> Look h (w_st w) saw.
Proof.
  intros [] P S. constructor.
  - intros f t H. apply w_bound0. rewrite <- H. apply S.
  - intros s Hs i Hi. exact (w_store0 P s Hs i Hi _ (S (pi_path i))).
  - intros E f Hf. exact (w_still0 P E f Hf _ (S f)).
Qed.

Lemma edit_Rw (h : hist) (st : tstate) (f : string) (t : option N) (seen : string -> list (option N)) (m : times) :
  admissible rg e h st (EvEdit f t) ->
  Rw (track e h st (EvEdit f t)) (upd (mtof st) f t) (upd seen f (t :: seen f)) m -> Rw h (mtof st) seen m.
Proof.
  intros A H g. destruct A as [Hadm _]. specialize (H g). unfold track in H. cbn [h_next] in H. unfold upd in H.
  destruct (String.eqb g f) eqn:E; [apply String.eqb_eq in E; subst g|].
  - destruct t as [v|].
    + specialize (Hadm v eq_refl). rewrite ?String.eqb_refl in H. destruct H as [H|[H|[(u & H & L)|[H|H]]]].
      * left. exact H.
      * right. right. left. exists v. split; assumption.
      * right. right. left. exists u. split; [exact H|lia].
      * right. right. left. exists v. split; [symmetry; exact H|exact Hadm].
      * right. right. right. exact H.
    + destruct H as [H|[H|[H|[H|H]]]]; [left; exact H|left; exact H|tauto|left; symmetry; exact H|tauto].
  - destruct t as [v|]; [rewrite ?E in H|]; exact H.
Qed.

Lemma edit_WInv (h : hist) (w : wstate) (f : string) (t : option N) :
  tadmissible e h (w_st w) (EvEdit f t) -> WInv h w ->
  WInv (ttrack e h (w_st w) (EvEdit f t))
       (WS (with_disk (w_st w) (set_mt (s_disk (w_st w)) (upd (mtof (w_st w)) f t))) (upd (w_seen w) f (t :: w_seen w f))).
Proof.
  intros [A AH] W. destruct w as [st seen]. cbn [w_st w_seen] in *.
  set (h1 := track e h st (EvEdit f t)).
  assert (I1 : Inv h1 (with_disk st (set_mt (s_disk st) (upd (mtof st) f t)))) by exact (edit_Inv rg e h st f t A (w_inv _ _ W)).
  pose proof (edit_Rsub rg e h st f t A) as HR. fold h1 in HR. stp.
  assert (HS : Rsub rg h (mtof st) (ttrack e h st (EvEdit f t)) (upd (mtof st) f t)) by exact HR.
  assert (HW : forall m, Rw (ttrack e h st (EvEdit f t)) (upd (mtof st) f t) (upd seen f (t :: seen f)) m -> Rw h (mtof st) seen m)
    by (intros m; exact (edit_Rw h st f t seen m A)).
  assert (I2 : Inv (ttrack e h st (EvEdit f t)) (with_disk st (set_mt (s_disk st) (upd (mtof st) f t)))).
  { exact (raise_Inv h1 _ _ I1). }
  assert (SA : same_art (s_disk st) (set_mt (s_disk st) (upd (mtof st) f t))) by (repeat split).
  destruct W as [_ w_bound0 w_user0 w_store0 w_still0 w_head0 w_pch0 w_obj0]. cbn [w_st w_seen] in *.
  constructor; cbn [w_st w_seen]; stp.
  - exact I2.
  - intros g v Hv. unfold ttrack. cbn [h_next track]. unfold upd in Hv. destruct (String.eqb_spec g f) as [->|Ng].
    + destruct Hv as [->|Hv].
      * unfold upd. rewrite String.eqb_refl. lia.
      * pose proof (w_bound0 f v Hv). destruct t; [|assumption]. unfold upd. rewrite String.eqb_refl. lia.
    + pose proof (w_bound0 g v Hv). destruct t; [|assumption]. unfold upd. destruct (String.eqb_spec g f); [contradiction|assumption].
  - intros P i Hi v Hv.
    assert (K : forall u, In u (seen (pi_path i)) -> rec_ok (ttrack e h st (EvEdit f t)) (upd (mtof st) f t) i u).
    { intros u Hu. exact (rec_ok_mono rg h _ _ _ i u HS (w_user0 P i Hi u Hu)). }
    unfold upd in Hv. destruct (String.eqb_spec (pi_path i) f) as [Ef|Ef]; [|exact (K v Hv)].
    destruct Hv as [<-|Hv]; [|rewrite <- Ef in Hv; exact (K v Hv)].
    pose proof (r_fresh _ _ _ _ (i_run _ _ _ _ I2 P) i Hi) as F.
    apply fresh_rec in F. stp. unfold upd in F at 2. rewrite Ef, String.eqb_refl in F. exact F.
  - intros P s Hs i Hi v Hv.
    assert (K : forall u, In u (seen (pi_path i)) -> rec_ok (ttrack e h st (EvEdit f t)) (upd (mtof st) f t) i u).
    { intros u Hu. exact (rec_ok_mono rg h _ _ _ i u HS (w_store0 P s Hs i Hi u Hu)). }
    unfold upd in Hv. destruct (String.eqb_spec (pi_path i) f) as [Ef|Ef]; [|exact (K v Hv)].
    destruct Hv as [<-|Hv]; [|rewrite <- Ef in Hv; exact (K v Hv)].
    pose proof (i_bound _ _ _ _ I2 eq_refl s Hs i Hi) as F.
    apply fresh_rec in F. stp. unfold upd in F at 2. rewrite Ef, String.eqb_refl in F. exact F.
  - intros P E g Hg v Hv. unfold ttrack in E. cbn [h_edited] in E. apply orb_false_iff in E as [E1 E2].
    assert (Et : mem_str f (tracked (s_cfg st)) = false) by (destruct (s_pc st); [contradiction|exact E2..]).
    assert (Ng : g <> f) by (apply mem_str_false in Et; congruence).
    assert (E0 : h_edited h = false).
    { cbn in E1. destruct (s_pc st); try exact E1; apply orb_false_iff in E1; tauto. }
    unfold upd in *. destruct (String.eqb_spec g f); [contradiction|]. exact (w_still0 P E0 g Hg v Hv).
  - intros Q P g Hg v Hv.
    assert (Ng : g <> f).
    { intros ->. apply contains_pch_iff in Q. cbn in A. destruct P as [P|P]; [apply AH; tauto|].
      apply (proj2 A). split; [|exact Hg]. split; [exact Q|exact P]. }
    unfold upd in *. destruct (String.eqb_spec g f); [contradiction|]. exact (w_head0 Q P g Hg v Hv).
  - intros P s Hs m Hm C. destruct (w_pch0 P s Hs m (HW m Hm) C) as [B1 B2]. split.
    + exact (same_art_pch e _ _ _ _ SA B1).
    + intros m2 p H2 OC Hp M. exact (same_art_obj e _ _ _ _ p SA (B2 m2 p (HW m2 H2) OC Hp M)).
  - intros P O D s Hs m p Hm OC Hp M. exact (same_art_obj e _ _ _ _ p SA (w_obj0 P O D s Hs m p (HW m Hm) OC Hp M)).
Qed.

Lemma WInv_step (h : hist) (w w' : wstate) (ev : event) (saw : times) :
  tadmissible e h (w_st w) ev -> (looks ev = true -> forall f, In (saw f) (w_seen w f)) ->
  wstep e w ev saw = Some w' -> WInv h w -> WInv (ttrack e h (w_st w) ev) w'.
Proof using T.
  intros A Hs S W. pose proof (w_inv _ _ W) as I. unfold wstep in S.
  assert (G : ev <> EvPchCheck -> forall st', step e (w_st w) ev = Some st' -> (forall f t, ev <> EvEdit f t) -> Inv (ttrack e h (w_st w) ev) st').
  { intros _ st' X NE. replace (ttrack e h (w_st w) ev) with (track e h (w_st w) ev) by (destruct ev; try reflexivity; exfalso; eapply NE; reflexivity).
    exact (step_Inv rg e T h _ st' ev (proj1 A) X I). }
  destruct w as [st seen]. cbn [w_st w_seen] in *.
  assert (Saw : looks ev = true -> s_pc st <> Idle -> saw_ok rg h st saw).
  { intros C P i Hi. exact (w_user _ _ W P i Hi _ (Hs C (pi_path i))). }
  destruct ev as [f t| | | | | | |c ord| |r| |s r| |r|x|n]; cbn [looks] in *.
  - (* edit *) cbn [step] in S. injection S as <-. exact (edit_WInv h (WS st seen) f t A W).
  - cbn [step] in S. injection S as <-.
    assert (I1 : Inv h (with_ok st false)) by (apply (G ltac:(discriminate) _ eq_refl); discriminate).
    destruct W as [_ W1 W2 W3 W4 W5 W6 W7]. constructor; cbn [w_st w_seen ttrack track seen_after] in *; stp; try assumption.
    intros _ K. discriminate.
  - cbn [step] in S. destruct (s_pc st) eqn:Ep; try discriminate; injection S as <-;
      (apply WInv_idle; [apply G; [discriminate|cbn [step]; rewrite Ep; reflexivity|discriminate]|reflexivity|exact (w_bound _ _ W)]).
  - cbn [step] in S. injection S as <-. destruct A as [A _]. cbn in A.
    apply WInv_idle; [apply G; [discriminate|reflexivity|discriminate]|exact A|exact (w_bound _ _ W)].
  - destruct A as [[] _].
  - destruct A as [[] _].
  - destruct A as [[] _].
  - destruct (step e st (EvStart c ord)) as [st'|] eqn:X; [|discriminate]. injection S as <-.
    apply WInv_reset; [apply G; [discriminate|reflexivity|discriminate]|reflexivity].
  - destruct (s_pc st) eqn:Ep; try discriminate. injection S as <-.
    apply WInv_reset; [|reflexivity]. cbn [ttrack track]. specialize (Hs eq_refl).
    assert (RI : RunInv h st) by (apply (i_run _ _ _ _ I); congruence). destruct RI.
    unfold Proof_TargetRun.Stage in r_stage. rewrite Ep in r_stage. destruct r_stage.
    apply pch_check_saw_Inv; [exact Ep| | | |exact I].
    + apply (Look_of h (WS st seen)); [exact W|cbn [w_st]; congruence|exact Hs].
    + intros f Hf. exact (w_head _ _ W sp_pch (or_introl Ep) f Hf _ (Hs f)).
    + intros s Hst C. destruct (w_pch _ _ W Ep s Hst saw (Rw_saw _ _ _ _ Hs) C) as [B1 B2]. split; [exact B1|].
      intros m p Hm. exact (B2 m p (R_Rw _ _ _ _ Hm)).
  - destruct (s_pc st) eqn:Ep; try discriminate. destruct (pch_exec_saw e st r saw) as [st'|] eqn:X; [|discriminate].
    injection S as <-.
    assert (I' : Inv (h_with_taint h (s_cfg st)) st').
    { apply (pch_exec_saw_Inv rg e h st st' r saw Ep X); [apply Saw; [reflexivity|discriminate]|exact I]. }
    assert (RI : RunInv h st) by (apply (i_run _ _ _ _ I); congruence). destruct RI.
    unfold Proof_TargetRun.Stage in r_stage. rewrite Ep in r_stage. destruct r_stage.
    unfold pch_exec_saw in X. destruct (pch_command e (s_cfg st)); try discriminate. injection X as X. subst st'.
    destruct (run_res s r); (apply (WInv_exec h _ (WS st seen) _ W I'); cbn [w_st]; stp; try reflexivity; try congruence; try discriminate;
      intros _; congruence).
  - destruct (s_pc st) eqn:Ep; try discriminate. injection S as <-.
    apply WInv_reset; [|reflexivity]. cbn [ttrack track]. specialize (Hs eq_refl).
    apply obj_check_saw_Inv; [exact Ep| | | |exact I].
    + apply (Look_of h (WS st seen)); [exact W|cbn [w_st]; congruence|exact Hs].
    + intros Q f Hf. apply (w_head _ _ W Q); [right; right; exact Ep|exact Hf|exact (Hs f)].
    + intros s O D Hst C p. exact (w_obj _ _ W Ep O D s Hst saw p (Rw_saw _ _ _ _ Hs) C).
  - destruct (s_pc st) eqn:Ep; try discriminate. destruct (compile_one_saw e st s pending r saw) as [st'|] eqn:X; [|discriminate].
    injection S as <-.
    assert (I' : Inv (h_with_taint h (s_cfg st)) st').
    { apply (compile_saw_Inv rg e h st st' s pending r saw Ep X); [apply Saw; [reflexivity|discriminate]|exact I]. }
    unfold compile_one_saw in X. destruct (take_pending s pending) as [[i rest]|]; [|discriminate].
    destruct (compile_command e (s_cfg st) s); try discriminate. injection X as X. subst st'.
    destruct (run_res s0 r); (apply (WInv_exec h _ (WS st seen) _ W I'); cbn [w_st]; stp; try reflexivity; try congruence; try discriminate;
      intros [K|K]; discriminate).
  - destruct (s_pc st) as [| | | |[|? ?]| |] eqn:Ep; try discriminate. injection S as <-.
    apply WInv_reset; [|reflexivity]. cbn [ttrack track]. specialize (Hs eq_refl).
    apply link_check_saw_Inv; [exact Ep| |exact I].
    apply (Look_of h (WS st seen)); [exact W|cbn [w_st]; congruence|exact Hs].
  - destruct (s_pc st) eqn:Ep; try discriminate. destruct (link_exec_saw e st r saw) as [st'|] eqn:X; [|discriminate].
    injection S as <-.
    assert (I' : Inv (h_with_taint h (s_cfg st)) st').
    { apply (link_exec_saw_Inv rg e h st st' r saw Ep X); [apply Saw; [reflexivity|discriminate]|exact I]. }
    unfold link_exec_saw in X. destruct (link_command e (s_cfg st) (s_ord st)); try discriminate. injection X as X. subst st'.
    destruct (run_res s r); (apply (WInv_exec h _ (WS st seen) _ W I'); cbn [w_st]; stp; try reflexivity; try congruence; try discriminate;
      intros [K|K]; discriminate).
  - destruct (step e st (EvEnd x)) as [st'|] eqn:X; [|discriminate]. injection S as <-.
    apply WInv_idle; [apply G; [discriminate|reflexivity|discriminate]|exact (proj1 (proj2 (step_end _ _ _ _ X)))|exact (w_bound _ _ W)].
  - destruct (step e st (EvCrashEnd n)) as [st'|] eqn:X; [|discriminate]. injection S as <-.
    apply WInv_idle; [apply G; [discriminate|reflexivity|discriminate]| |exact (w_bound _ _ W)].
    cbn [step w_st] in *.
    destruct (s_pc st); try discriminate. destruct (s_dirty st); [|discriminate].
    destruct (bind _ _); [|discriminate]. injection X as <-. reflexivity.
Qed.

Theorem thistory_WInv (d0 : disk) (evs : list (event * times)) (h : hist) (w : wstate) :
  thistory e d0 evs h w -> WInv h w.
Proof using T.
  induction 1 as [|evs h w ev saw w' _ IH A Hs S].
  - apply WInv_reset; [apply Inv_init|reflexivity].
  - exact (WInv_step h w w' ev saw A Hs S IH).
Qed.

Theorem torn_current (d0 : disk) evs x saw h w :
  thistory e d0 (evs ++ [(EvEnd x, saw)]) h w -> s_ok (w_st w) = true -> h_edited h = false ->
  all_current e (s_cfg (w_st w)) (s_disk (w_st w)).
Proof using T.
  intros H O E. inversion H as [K|evs' h1 w1 ev saw' w' H1 A Hs S K].
  - destruct evs; discriminate.
  - apply app_inj_tail in K as [-> K]. injection K as -> ->. subst. pose proof (w_inv _ _ (thistory_WInv _ _ _ _ H1)) as I.
    unfold wstep in S. destruct (step e (w_st w1) (EvEnd x)) as [st'|] eqn:X; [|discriminate]. injection S as <-. cbn [w_st] in *.
    destruct (step_end _ _ _ _ X) as (P1 & P2 & P3 & P4 & P5 & _ & P6 & _).
    rewrite P3. apply (same_art_all e _ (s_disk (w_st w1))); [exact P5|exact P4|].
    apply (end_current rg e T h1); auto.
Qed.
End Run.
