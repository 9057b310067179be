(** The compilation database over several runs: the invariant. *)
From Verif Require Import Prelude Proof_Prelude Model_Path Model_Json Model_Schema Spec_Json Proof_Dec
  Proof_Schema Model_Command Spec_Command Proof_Command Model_ToolchainConfig Model_Target Spec_Target
  Proof_TargetBase Proof_TargetInv Proof_TargetRun Proof_TargetStep Proof_TargetMain Proof_TargetDup
  Model_Reg Spec_Reg Model_Project Proof_Project Model_CompileCommands Model_Database Spec_Database Proof_Database.

(** ** One target *)

Record TW (bl : option cfg) (ok : bool) (inb us : Prop) (st : tstate) : Prop := {
  tw_none : bl = None -> s_pc st = Idle;
  tw_cfg : forall c, bl = Some c -> s_cfg st = c;
  tw_ok : forall c, bl = Some c -> ok = true -> s_ok st = true;
  tw_pch : forall c, bl = Some c -> (contains_pch c = true <-> us);
  tw_run : s_pc st <> Idle -> RunI st /\ s_load st = stored (s_disk st);
  tw_end : forall c, bl = Some c -> s_pc st = Idle -> s_ok st = true ->
    (forall l, stored (s_disk st) = Some l -> ts_target_linked l = true -> Full l c) /\
    (~ inb -> exists l, stored (s_disk st) = Some l /\ ts_target_linked l = true);
  tw_used : forall l, stored (s_disk st) = Some l -> ts_pchs l <> [] -> us }.

Lemma TW_weak bl ok ok' (inb inb' us us' : Prop) st : (ok' = true -> ok = true) -> (inb -> inb') -> (us <-> us') ->
  TW bl ok inb us st -> TW bl ok' inb' us' st.
Proof.
  intros O B U [A C D E F G H]. constructor; try assumption.
  - intros c Hc Ho. exact (D c Hc (O Ho)).
  - intros c Hc. rewrite (E c Hc). exact U.
  - intros c Hc Hp Ho. destruct (G c Hc Hp Ho) as [G1 G2]. split; [exact G1|]. intros K. apply G2. tauto.
  - intros l Hl Hp. apply U. exact (H l Hl Hp).
Qed.
Lemma TW_edit bl ok inb us st f t : TW bl ok inb us st ->
  TW bl ok inb us (with_disk st (set_mt (s_disk st) (upd (d_mt (s_disk st)) f t))).
Proof.
  intros [A C D E F G H]. constructor; stp; try assumption. intros Hp. destruct (F Hp) as [F1 F2].
  split; [exact (RunI_edit _ _ _ F1)|exact F2].
Qed.
Lemma TW_fail bl inb us st : TW bl false inb us st -> TW bl false inb us (with_ok st false).
Proof.
  intros [A C D E F G H]. constructor; stp; try assumption; try discriminate. intros Hp. destruct (F Hp) as [F1 F2].
  split; [exact (RunI_fail _ F1)|exact F2].
Qed.
Lemma TW_fail_others bl ok inb us e st failed st' : TW bl ok inb us st -> exec e st (fail_others failed st) = Some st' ->
  TW bl (ok && negb failed) inb us st'.
Proof.
  intros T X. unfold fail_others in X. destruct failed; cbn [andb negb] in *.
  - rewrite andb_false_r. assert (T' : TW bl false inb us st) by (apply (TW_weak bl ok _ inb _ us); [discriminate|tauto|tauto|exact T]).
    destruct (running st); cbn [exec step] in X; injection X as <-; [exact (TW_fail _ _ _ _ T')|exact T'].
  - cbn [exec] in X. injection X as <-. rewrite andb_true_r. exact T.
Qed.

Lemma taskflow_store e st x st' : in_taskflow x = true -> step e st x = Some st' -> (forall w, x <> EvEnd w) ->
  d_store (s_disk st') = d_store (s_disk st) /\ s_load st' = s_load st.
Proof.
  intros F S N. destruct x; try discriminate; cbn [step] in S; destruct (s_pc st) eqn:Pc; try discriminate.
  - injection S as <-. unfold pch_check. destruct (s_ok st); cbn [negb]; [destruct (pch_pre _ _) as [u b]; destruct b; cbn [negb]; [destruct (_ || _)|]|]; split; reflexivity.
  - unfold pch_exec in S. destruct (pch_command _ _); try discriminate. injection S as <-. destruct (run_res _ _); split; reflexivity.
  - injection S as <-. unfold obj_check. destruct (s_ok st); cbn [negb]; [destruct (obj_pre _ _) as [u b]; destruct b; cbn [negb]; [|]|]; try (split; reflexivity).
    match goal with |- context [let '(_, _) := ?t in _] => destruct t as [[sel dum] d'] end. split; reflexivity.
  - unfold compile_one in S. destruct (take_pending _ _) as [[i rest]|]; try discriminate. destruct (compile_command _ _ _); try discriminate.
    injection S as <-. destruct (run_res _ _); split; reflexivity.
  - destruct pending; try discriminate. injection S as <-. unfold link_check. destruct (s_ok st); cbn [negb]; [destruct (link_pre _ _) as [u b]; destruct b; cbn [negb]; [|]|]; split; reflexivity.
  - unfold link_exec in S. destruct (link_command _ _ _); try discriminate. injection S as <-. destruct (run_res _ _); split; reflexivity.
  - destruct (N w eq_refl).
Qed.

Definition ended (st : tstate) (x : event) : Prop := exists w, x = EvEnd w /\ completes st w = true.

Lemma end_cases e st w st' : step e st (EvEnd w) = Some st' ->
  s_pc st = PcEnd /\ s_pc st' = Idle /\ s_cfg st' = s_cfg st /\ (s_ok st' = true -> s_ok st = true) /\
  ((stored (s_disk st') = stored (s_disk st) /\ (s_ok st' = true -> s_dirty st = false)) \/
   (stored (s_disk st') = None /\ (s_ok st' = true -> completes st w = true)) \/
   (stored (s_disk st') = Some (update_store (s_buf st) (s_user st)) /\ completes st w = true /\ s_dirty st = true)).
Proof.
  intros S. destruct (step_end _ _ _ _ S) as (P1 & P2 & P3 & _ & _ & _ & P4 & _). split; [exact P1|]. split; [exact P2|]. split; [exact P3|]. split; [exact P4|].
  cbn [step] in S. rewrite P1 in S. unfold end_task in S. unfold completes. destruct (s_dirty st) eqn:Ed.
  - destruct (store_text (update_store (s_buf st) (s_user st))) as [t|] eqn:Et.
    + destruct w as [| |n rep].
      * injection S as <-. right. right. stp. split; [unfold stored; cbn; exact (target_text_rt _ _ Et)|]. split; reflexivity.
      * injection S as <-. left. stp. split; [reflexivity|discriminate].
      * destruct (short n t) as [t'|] eqn:Es; [|discriminate].
        right. left. destruct rep; injection S as <-; stp; (split; [exact (stored_short _ _ _ _ _ Et Es)|]); [reflexivity|discriminate].
    + destruct w; try discriminate. injection S as <-. left. stp. split; [reflexivity|discriminate].
  - destruct w; try discriminate. injection S as <-. left. stp. split; reflexivity.
Qed.

Lemma TW_own bl ok inb us e st x st' c : bl = Some c -> in_taskflow x = true -> step e st x = Some st' ->
  TW bl ok inb us st -> TW bl (ok && s_ok st') (inb \/ ended st x) us st'.
Proof.
  intros Hb F S [A C D E Rn G H].
  destruct (taskflow_step _ _ _ _ F S) as (T1 & T2 & T3 & _). destruct (Rn T3) as [R Ld].
  assert (Ok : forall c', bl = Some c' -> ok && s_ok st' = true -> s_ok st' = true) by (intros c' _ K; apply andb_true_iff in K; tauto).
  assert (Dx : (exists w, x = EvEnd w) \/ forall w, x <> EvEnd w) by (destruct x; try (right; discriminate); left; eauto).
  destruct Dx as [[w ->]|N].
  - destruct (end_cases _ _ _ _ S) as (P1 & P2 & P3 & P4 & K).
    constructor; try assumption.
    + congruence.
    + intros c' Hc. rewrite T1. exact (C c' Hc).
    + congruence.
    + intros c' Hc _ Ho. pose proof (C c' Hc) as Ec. pose proof (ri_stg _ R) as Sg. unfold Stg in Sg. rewrite P1 in Sg. destruct (Sg (P4 Ho)) as [Sg1 Sg2].
      destruct K as [[K1 K2]|[[K1 K2]|[K1 [K2 K3]]]].
      * destruct (Sg2 (K2 Ho)) as (l & Hl & De). rewrite Ld in Hl. rewrite K1, Hl. split.
        -- intros l' [= <-] _. rewrite Ec in De. split; [exact De|]. intros Hp. apply (E c' Hc). exact (H l Hl Hp).
        -- intros _. exists l. split; [reflexivity|exact (de_done _ _ De)].
      * rewrite K1. split; [discriminate|]. intros Z. exfalso. apply Z. right. exists w. split; [reflexivity|exact (K2 Ho)].
      * rewrite K1. split.
        -- intros l' [= <-] _. rewrite <- Ec. apply written_full; [exact R|exact (Sg1 K3)].
        -- intros Z. exfalso. apply Z. right. exists w. split; [reflexivity|exact K2].
    + destruct K as [[K1 K2]|[[K1 K2]|[K1 [K2 K3]]]]; rewrite K1.
      * exact H.
      * discriminate.
      * intros l [= <-] Hp. tsp. apply (E c Hb). rewrite <- (C c Hb). exact (ri_pchs _ R Hp).
  - destruct (taskflow_store _ _ _ _ F S N) as [St Ls].
    assert (Es : stored (s_disk st') = stored (s_disk st)) by (unfold stored; rewrite St; reflexivity).
    assert (NI : s_pc st' <> Idle). { intros K. destruct (T2 K) as [w Hw]. exact (N w Hw). }
    constructor; try assumption.
    + congruence.
    + intros c' Hc. rewrite T1. exact (C c' Hc).
    + intros _. split; [exact (RunI_step _ _ _ _ F S R NI)|congruence].
    + congruence.
    + rewrite Es. exact H.
Qed.

Lemma TW_start ok inb us e st c ord st' : step e st (EvStart c ord) = Some st' -> forallb is_fok (all_commands e c ord) = true ->
  TW None ok inb us st -> (us -> contains_pch c = true) -> TW (Some c) ok inb (us \/ contains_pch c = true) st'.
Proof.
  intros S F T U. destruct T as [A C D E Rn G H].
  cbn [step] in S. rewrite (A eq_refl) in S. destruct (RunI_start _ _ _ _ _ S F) as (R & P1 & P2 & P3 & P4 & P5).
  constructor; try congruence.
  - intros c' [= <-]. tauto.
  - intros _. split; assumption.
  - rewrite P5. intros l Hl Hp. left. exact (H l Hl Hp).
Qed.

Lemma stored_change e st x st' : step e st x = Some st' ->
  stored (s_disk st') = stored (s_disk st) \/ unfinished st' \/ ended st x.
Proof.
  intros S. assert (Dx : in_taskflow x = true \/ in_taskflow x = false) by (destruct (in_taskflow x); auto). destruct Dx as [F|F].
  - assert (Dx : (exists w, x = EvEnd w) \/ forall w, x <> EvEnd w) by (destruct x; try (right; discriminate); left; eauto).
    destruct Dx as [[w ->]|N].
    + destruct (end_cases _ _ _ _ S) as (_ & _ & _ & _ & [[K _]|[[K _]|[_ [K _]]]]).
      * left. exact K.
      * right. left. intros l Hl. congruence.
      * right. right. exists w. auto.
    + left. unfold stored. rewrite (proj1 (taskflow_store _ _ _ _ F S N)). reflexivity.
  - destruct x; try discriminate; cbn [step] in S; try (injection S as <-; left; reflexivity).
    + destruct (s_pc st); try discriminate; injection S as <-; left; reflexivity.
    + injection S as <-. right. left. intros l Hl. discriminate.
    + destruct (s_pc st); try discriminate. unfold start in S. destruct (_ || _); [discriminate|].
      destruct (forallb _ _); injection S as <-; left; reflexivity.
    + destruct (s_pc st); try discriminate. destruct (s_dirty st); [|discriminate].
      destruct (store_text (update_store (s_buf st) (s_user st))) as [t|] eqn:Et; [|discriminate]. cbn [bind] in S.
      destruct (short n t) as [t'|] eqn:Es; [|discriminate]. injection S as <-. right. left. intros l Hl. stp.
      pose proof (stored_short (s_disk st) _ _ _ _ Et Es) as K. unfold stored in *. cbn in *. congruence.
Qed.

(** ** Every event *)

Lemma assoc_app_none {B} (l : list (string * B)) k v x : assoc x l = None -> assoc x (l ++ [(k, v)]) = if String.eqb x k then Some v else None.
Proof.
  intros H. rewrite assoc_app, H. cbn [assoc]. destruct (String.eqb x k); reflexivity.
Qed.

Section Event.
Context (p : project) (ND : NoDup (map fst (p_targets p))).
Context (wb used : list string).

Lemma stop_events l id e st st' : exec e st (delivered p (PStop l) id st) = Some st' ->
  s_pc st' = Idle /\ (stored (s_disk st') = stored (s_disk st) \/ unfinished st' /\ forall s, stored (s_disk st') <> Some s).
Proof using Type.
  cbn [delivered]. unfold running. intros X.
  assert (K : forall ev, exec e st [ev] = Some st' -> step e st ev = Some st') by (intros ev; cbn [exec]; destruct (step e st ev); auto).
  destruct (s_pc st) eqn:Pc; [injection X as <-; split; [exact Pc|left; reflexivity]|..]; (destruct (assoc id l) as [n|]; apply K in X; cbn [step] in X; rewrite Pc in X; [|injection X as <-; split; [reflexivity|left; reflexivity]]).
  all: try discriminate.
  destruct (s_dirty st); [|discriminate].
  destruct (store_text (update_store (s_buf st) (s_user st))) as [t|] eqn:Et; [|discriminate]. cbn [bind] in X.
  destruct (short n t) as [t'|] eqn:Es; [|discriminate]. injection X as <-. split; [reflexivity|right].
  pose proof (stored_short (s_disk st) _ _ _ _ Et Es) as Z. stp. split; [intros s|intros s]; unfold stored in *; cbn in *; congruence.
Qed.

Lemma event_target ev built run ok id e st st' :
  process p ev = Some (built, run, ok) -> In (id, (e, st)) (p_targets p) -> exec e st (delivered p ev id st) = Some st' ->
  (forall i, ev = PForget i -> p_built p = []) ->
  (forall i c o, ev = PBuild i c o -> In i used -> pchs c <> []) ->
  TW (assoc id (p_built p)) (p_ok p) (In id wb) (In id used) st ->
  TW (assoc id built) ok (In id (built_after p wb ev)) (In id (wtrack used (WRun ev))) st' /\
  (stored (s_disk st') = stored (s_disk st) \/ unfinished st' \/ In id (built_after p wb ev)).
Proof using ND.
  intros P Hi X AF AB T.
  destruct ev as [f t|i|i c ord|k r|i|i x t|i f t|i|i okk|l]; cbn [process delivered built_after wtrack] in *.
  - injection P as <- <- <-. cbn [exec step] in X. injection X as <-. split; [exact (TW_edit _ _ _ _ _ _ _ T)|left; reflexivity].
  - pose proof (AF i eq_refl) as Eb. destruct (mem_str i _); [|discriminate]. injection P as <- <- <-.
    destruct (String.eqb i id); cbn [exec step] in X; injection X as <-; [|split; [exact T|left; reflexivity]].
    rewrite Eb in *. destruct T as [A C D E Rn G H]. cbn [assoc] in *. split; [|right; left; intros l Hl; discriminate].
    constructor; stp; try assumption; try discriminate.
    + intros K. destruct (K (A eq_refl)).
  - destruct (p_run p); [discriminate|]. destruct (assoc i (p_targets p)) as [[e1 s1]|] eqn:Ea; [|discriminate].
    destruct (assoc i (p_built p)) eqn:Eb; [discriminate|]. destruct (forallb is_fok (all_commands e1 c ord)) eqn:Ef; [|discriminate].
    injection P as <- <- <-. destruct (String.eqb_spec i id) as [->|Ne].
    + pose proof (assoc_NoDup_In _ _ _ ND Hi) as Ea'. rewrite Ea in Ea'. injection Ea' as -> ->.
      cbn [exec] in X. destruct (step e st (EvStart c ord)) as [s2|] eqn:S; [|discriminate]. injection X as <-.
      rewrite (assoc_app_none _ _ _ _ Eb), String.eqb_refl. rewrite Eb in T.
      assert (U : In id used -> contains_pch c = true) by (intros K; apply contains_pch_iff; exact (AB id c ord eq_refl K)).
      split.
      * pose proof (TW_start _ _ _ _ _ _ _ _ S Ef T U) as T'. eapply (TW_weak _ _ _ _ _ _ _ _ (fun h => h)); [intros h; exact h| |exact T'].
        destruct (contains_pch c) eqn:Ec.
        -- cbn [In]. split; [intros _; left; reflexivity|intros _; right; reflexivity].
        -- split; [intros [h|h]; [exact h|discriminate]|intros h; left; exact h].
      * destruct (stored_change _ _ _ _ S) as [K|[K|(w & K & _)]]; [auto|auto|discriminate].
    + cbn [exec] in X. injection X as <-. split; [|left; reflexivity].
      replace (assoc id (p_built p ++ [(i, c)])) with (assoc id (p_built p)).
      2: { rewrite assoc_app. destruct (assoc id (p_built p)); [reflexivity|]. cbn [assoc].
           destruct (String.eqb_spec id i); [congruence|reflexivity]. }
      eapply (TW_weak _ _ _ _ _ _ _ _ (fun h => h)); [intros h; exact h| |exact T]. destruct (contains_pch c); [|reflexivity].
      cbn [In]. split; [intros h; right; exact h|intros [h|h]; [congruence|exact h]].
  - destruct (p_run p); [discriminate|]. injection P as <- <- <-. cbn [exec] in X. injection X as <-. split; [exact T|left; reflexivity].
  - destruct (p_run p) as [[[k r] y]|]; [|discriminate]. destruct (xstep _ _ _ _ _); [|discriminate]. injection P as <- <- <-.
    cbn [exec] in X. injection X as <-. split; [exact T|left; reflexivity].
  - destruct (p_run p) as [[[k r] y]|]; [|discriminate]. destruct (assoc i (p_targets p)) as [[e1 s1]|] eqn:Ea; [|discriminate].
    destruct (assoc i (p_built p)) as [c|] eqn:Eb; [|discriminate]. destruct (mem_str i (x_running y) && in_taskflow x && _) eqn:Ec; [|discriminate].
    apply andb_true_iff in Ec as [Ec _]. apply andb_true_iff in Ec as [_ Fx].
    destruct (step e1 s1 x) as [s2|] eqn:S; [|discriminate]. injection P as <- <- <-.
    assert (Ba : forall j, In j wb \/ (j = i /\ ended s1 x) <-> In j (built_after p wb (PStep i x t))).
    { intros j. unfold built_after. rewrite Ea. unfold ended. destruct x; try (split; [intros [h|[_ (w & h & _)]]; [exact h|discriminate]|auto]).
      destruct (completes s1 w) eqn:Cw.
      - cbn [In]. split; [intros [h|[-> _]]; auto|intros [->|h]; [right; split; [reflexivity|eauto]|auto]].
      - split; [intros [h|[_ (w' & [= <-] & h)]]; [exact h|congruence]|auto]. }
    change (In id match x with EvEnd r0 => if completes s1 r0 then i :: wb else wb | _ => wb end) with (In id (match x with EvEnd r0 => if completes s1 r0 then i :: wb else wb | _ => wb end)).
    unfold built_after in Ba. rewrite Ea in Ba.
    destruct (String.eqb_spec i id) as [->|Ne].
    + pose proof (assoc_NoDup_In _ _ _ ND Hi) as Ea'. rewrite Ea in Ea'. injection Ea' as -> ->.
      cbn [app exec] in X. rewrite S in X. rewrite Eb in *.
      pose proof (TW_own _ _ _ _ _ _ _ _ c eq_refl Fx S T) as T'.
      assert (T2 : TW (Some c) (p_ok p && s_ok s2) (In id (match x with EvEnd r0 => if completes st r0 then id :: wb else wb | _ => wb end)) (In id used) s2).
      { eapply (TW_weak _ _ _ _ _ _ _ _ (fun h => h)); [|reflexivity|exact T']. intros h. apply Ba. tauto. }
      assert (K2 : stored (s_disk s2) = stored (s_disk st) \/ unfinished s2 \/ In id (match x with EvEnd r0 => if completes st r0 then id :: wb else wb | _ => wb end)).
      { destruct (stored_change _ _ _ _ S) as [K|[K|K]]; [auto|auto|]. right. right. apply Ba. tauto. }
      destruct t as [t'|]; cbn [app exec step] in X; injection X as <-; [|split; assumption].
      split; [exact (TW_edit _ _ _ _ _ _ _ T2)|exact K2].
    + cbn [app] in X.
      assert (T0 : TW (assoc id (p_built p)) (p_ok p) (In id (match x with EvEnd r0 => if completes s1 r0 then i :: wb else wb | _ => wb end)) (In id used) st).
      { eapply (TW_weak _ _ _ _ _ _ _ _ (fun h => h)); [|reflexivity|exact T]. intros h. apply Ba. tauto. }
      destruct t as [t'|]; cbn [app] in X.
      * cbn [exec step] in X.
        set (sm := with_disk st (set_mt (s_disk st) (upd (d_mt (s_disk st)) (out_file e1) t'))) in *.
        replace (fail_others (negb (s_ok s2)) st) with (fail_others (negb (s_ok s2)) sm) in X by reflexivity.
        pose proof (TW_fail_others _ _ _ _ _ _ _ _ (TW_edit _ _ _ _ _ (out_file e1) t' T0 : TW _ _ _ _ sm) X) as T'. rewrite negb_involutive in T'.
        split; [exact T'|]. left. unfold fail_others in X. destruct (_ && running sm); cbn [exec step] in X; injection X as <-; reflexivity.
      * pose proof (TW_fail_others _ _ _ _ _ _ _ _ T0 X) as T'. rewrite negb_involutive in T'.
        split; [exact T'|]. left. unfold fail_others in X. destruct (_ && running st); cbn [exec step] in X; injection X as <-; reflexivity.
  - destruct (p_run p) as [[[k r] y]|]; [|discriminate]. destruct (assoc i (p_gens p)); [|discriminate]. destruct (_ && _); [|discriminate].
    injection P as <- <- <-. cbn [exec step] in X. injection X as <-. split; [exact (TW_edit _ _ _ _ _ _ _ T)|left; reflexivity].
  - destruct (p_run p) as [[[k r] y]|]; [|discriminate]. destruct (assoc i (p_targets p)); [discriminate|]. destruct (assoc i (p_gens p)); [|discriminate].
    destruct (mem_str _ _); [|discriminate]. injection P as <- <- <-.
    pose proof (TW_fail_others _ _ _ _ _ _ _ _ T X) as T'. cbn [negb] in T'. rewrite andb_false_r in T'. split; [exact T'|].
    left. unfold fail_others in X. destruct (_ && running st); cbn [exec step] in X; injection X as <-; reflexivity.
  - destruct (p_run p) as [[[k r] y]|]; [|discriminate]. destruct (xstep _ _ _ _ _); [|discriminate].
    destruct (assoc i (p_targets p)) as [[e1 s1]|] eqn:Ea.
    + cbn [exec] in X. injection X as <-. assert (ok = p_ok p /\ built = p_built p) as [-> ->].
      { destruct (assoc i (p_built p)); [destruct (_ && _)|destruct okk]; try discriminate; injection P as <- _ <-; auto. }
      split; [exact T|left; reflexivity].
    + destruct (implb okk (p_ok p)); [|destruct (assoc i (p_built p)); discriminate].
      assert (ok = p_ok p && okk /\ built = p_built p) as [-> ->] by (destruct (assoc i (p_built p)); injection P as <- _ <-; auto).
      pose proof (TW_fail_others _ _ _ _ _ _ _ _ T X) as T'. rewrite negb_involutive in T'. split; [exact T'|].
      left. unfold fail_others in X. destruct (_ && running st); cbn [exec step] in X; injection X as <-; reflexivity.
  - injection P as <- <- <-. destruct (stop_events _ _ _ _ _ X) as [Q1 Q2]. cbn [assoc]. destruct T as [A C D E Rn G H]. split.
    + constructor; try discriminate; auto; [intros K; destruct (K Q1)|].
      intros l' Hl Hp. destruct Q2 as [Q2|[_ Q2]]; [apply (H l'); [congruence|exact Hp]|destruct (Q2 _ Hl)].
    + destruct Q2 as [Q2|[Q2 _]]; auto.
Qed.
End Event.
