(** Schedules: up to the end of the run. *)
From Verif Require Import Prelude Proof_Prelude Model_Path Model_Json Model_Schema Spec_Json Proof_Dec
  Proof_Schema Model_Command Spec_Command Proof_Command Model_ToolchainConfig Model_Target Spec_Target
  Proof_TargetBase Proof_TargetInv Proof_TargetRun Proof_TargetStep Proof_TargetStep2 Proof_TargetMain Proof_TargetRuns.

Definition same_pc (p q : pcount) : Prop :=
  p = q \/ exists l l', p = PcCompile l /\ q = PcCompile l' /\ Permutation l l'.

Record weqv (a b : tstate) : Prop := {
  w_same : same_run a b;
  w_buf : same_record (Some (s_buf a)) (Some (s_buf b));
  w_memory : s_cfg a = s_cfg b /\ s_ord a = s_ord b /\ s_user a = s_user b /\ s_load a = s_load b;
  w_pc : same_pc (s_pc a) (s_pc b) }.

Lemma same_target_refl (x : option tgt_art) : same_target x x.
Proof. destruct x; cbn; auto. Qed.
Lemma same_record_refl (x : option tschema) : same_record x x.
Proof. destruct x; cbn; auto. Qed.

Lemma same_result_weqv (a b : tstate) : same_result a b -> weqv a b.
Proof.
  intros []. destruct sr_disk as (D1 & D2 & D3 & D4 & D5 & D6). constructor.
  - constructor; auto.
    + rewrite D3. apply same_target_refl.
    + unfold stored. rewrite D4. apply same_record_refl.
  - exact sr_recorded.
  - exact sr_memory.
  - exact sr_pc.
Qed.

Ltac open_weqv W := destruct W as [[W1 W2 (W3 & W4 & W5 & W6) W7 W8 W9 W10] W11 (M1 & M2 & M3 & M4) W12].

Lemma ts_eta (s : tschema) : s = with_sources (with_sources s []) (ts_sources s).
Proof. destruct s; reflexivity. Qed.

Lemma info_strings_perm (a b : infolist) : Permutation a b -> Forall valid_utf8 (info_strings a) -> Forall valid_utf8 (info_strings b).
Proof. intros P. apply Permutation_Forall. unfold info_strings. apply Permutation_flat_map. exact P. Qed.

Lemma storable_perm (x y : tschema) (t : string) :
  same_record (Some x) (Some y) -> store_text x = Some t -> exists t', store_text y = Some t'.
Proof.
  intros [P E] H. apply store_text_iff. assert (K : exists t0, store_text x = Some t0) by eauto. apply store_text_iff in K.
  rewrite (ts_eta x) in K. rewrite (ts_eta y). rewrite E in K. unfold target_strings in *. tsp.
  inversion K as [|? ? K1 K2]; subst. constructor; [exact K1|]. rewrite !Forall_app in *.
  destruct K2 as (K2 & K3). split; [exact (info_strings_perm _ _ P K2)|exact K3].
Qed.

Lemma same_record_sym x y : same_record x y -> same_record y x.
Proof. destruct x, y; cbn; auto. intros [A B]. split; symmetry; assumption. Qed.

Lemma update_store_same (b b' u : tschema) : same_record (Some b) (Some b') ->
  same_record (Some (update_store b u)) (Some (update_store b' u)).
Proof.
  intros [P E]. cbn. unfold update_store. tsp. split; [exact P|].
  pose proof (f_equal ts_pchs E) as E1. pose proof (f_equal ts_pch_compiled E) as E2. pose proof (f_equal ts_target_linked E) as E3.
  tsp. rewrite E1, E2, E3. reflexivity.
Qed.

Lemma weqv_step e a b ev a' :
  weqv a b -> after_compiles ev -> step e a ev = Some a' -> exists b', step e b ev = Some b' /\ weqv a' b'.
Proof.
  intros W Aft S. destruct ev; try destruct Aft; cbn [step] in *.
  - (* edit *) injection S as <-. eexists. split; [reflexivity|]. open_weqv W.
    constructor; stp; auto. constructor; stp; auto. rewrite W3. auto.
  - (* fail *) injection S as <-. eexists. split; [reflexivity|]. open_weqv W.
    constructor; stp; auto. constructor; stp; auto.
  - (* crash *) assert (K : s_pc b <> Idle /\ a' = killed a).
    { open_weqv W. destruct W12 as [<-|(l & l' & E1 & E2 & _)].
      - destruct (s_pc a); try discriminate; injection S as <-; split; congruence.
      - rewrite E1 in S. rewrite E2. injection S as <-. split; congruence. }
    destruct K as [K ->]. exists (killed b). split; [destruct (s_pc b); congruence|]. open_weqv W. unfold killed.
    constructor; stp; auto. { constructor; stp; auto. } left. reflexivity.
  - (* link check *) destruct (s_pc a) as [| | | |[|? ?]| |] eqn:E; try discriminate. injection S as <-. open_weqv W.
    assert (Eb : s_pc b = PcCompile []).
    { rewrite E in W12. destruct W12 as [K|(l & l' & K1 & K2 & K3)]; [symmetry; exact K|]. injection K1 as <-.
      apply Permutation_nil in K3. subst l'. exact K2. }
    rewrite Eb. eexists. split; [reflexivity|]. unfold link_check. rewrite <- W1, <- W3, <- M3.
    destruct (negb (s_ok a)); [constructor; stp; auto; [constructor; stp; auto|left; reflexivity]|].
    destruct (link_pre (d_mt (s_disk a)) (s_user a)) as [u bb].
    destruct (negb bb); [constructor; stp; auto; [constructor; stp; auto|left; reflexivity]|]. stp.
    rewrite <- M4, <- W2. constructor; stp; auto; [constructor; stp; auto|left; reflexivity].
  - (* link exec *) destruct (s_pc a) eqn:E; try discriminate. open_weqv W.
    assert (Eb : s_pc b = PcLinkExec).
    { rewrite E in W12. destruct W12 as [K|(l & l' & K1 & _)]; [symmetry; exact K|discriminate]. }
    rewrite Eb. unfold link_exec in *. rewrite <- M1, <- M2. destruct (link_command e (s_cfg a) (s_ord a)) as [cmd| |]; try discriminate.
    injection S as <-. eexists. split; [reflexivity|].
    destruct (run_res cmd r) as [|lo|]; (constructor; [constructor; stp; auto|..]; stp; auto; try (left; reflexivity)).
    + split; [reflexivity|]. split; [exact W3|]. intros k. apply W7.
    + apply Permutation_app_tail. exact W10.
    + destruct W11 as [P Eq]. split; [exact P|]. cbn. unfold update_target_compiled.
      change (with_sources (with_linked (s_buf a) true) []) with (with_linked (with_sources (s_buf a) []) true).
      change (with_sources (with_linked (s_buf b) true) []) with (with_linked (with_sources (s_buf b) []) true).
      rewrite Eq. reflexivity.
    + apply same_target_refl.
    + apply Permutation_app_tail. exact W10.
  - (* end *) destruct (s_pc a) eqn:E; try discriminate. open_weqv W.
    assert (Eb : s_pc b = PcEnd).
    { rewrite E in W12. destruct W12 as [K|(l & l' & K1 & _)]; [symmetry; exact K|discriminate]. }
    rewrite Eb. unfold end_task in *. rewrite <- W2. destruct (s_dirty a) eqn:Ed.
    + pose proof (update_store_same _ _ (s_user a) W11) as U. rewrite M3 in U at 2. set (ba := update_store (s_buf a) (s_user a)) in *.
      set (bb := update_store (s_buf b) (s_user b)) in *. destruct (store_text ba) as [t|] eqn:Et.
      * destruct (storable_perm _ _ _ U Et) as (t' & Et'). rewrite Et'.
        destruct w; try destruct Aft; injection S as <-; eexists; (split; [reflexivity|]);
          (constructor; [constructor; stp; auto|..]; stp; auto; try (left; reflexivity)).
        unfold stored. cbn [d_store bind]. unfold set_store. cbn [d_store bind].
        rewrite (target_text_rt _ _ Et), (target_text_rt _ _ Et'). exact U.
      * destruct (store_text bb) as [t'|] eqn:Et'.
        { destruct (storable_perm _ _ _ (same_record_sym _ _ U) Et') as (t & K). congruence. }
        destruct w; try destruct Aft; try discriminate; injection S as <-; eexists; (split; [reflexivity|]);
          (constructor; [constructor; stp; auto|..]; stp; auto; try (left; reflexivity)).
    + destruct w; try destruct Aft; try discriminate; injection S as <-; eexists; (split; [reflexivity|]);
          (constructor; [constructor; stp; auto|..]; stp; try congruence; auto; try (left; reflexivity)).
Qed.

Lemma weqv_exec e evs : forall a b a', weqv a b -> Forall after_compiles evs -> exec e a evs = Some a' ->
  exists b', exec e b evs = Some b' /\ weqv a' b'.
Proof.
  induction evs as [|ev evs IH]; intros a b a' W F X; cbn [exec] in *.
  - injection X as <-. eauto.
  - inversion F; subst. destruct (step e a ev) as [a1|] eqn:S; [|discriminate].
    destruct (weqv_step e a b ev a1 W) as (b1 & S' & W'); try assumption. rewrite S'. apply (IH a1 b1 a'); assumption.
Qed.

Theorem run_schedule_independent e st pend cs1 cs2 rest st1 :
  s_pc st = PcCompile pend -> NoDup (map (obj_of e) (il_paths pend)) -> Permutation cs1 cs2 ->
  Forall after_compiles rest -> exec e st (compiles cs1 ++ rest) = Some st1 ->
  exists st2, exec e st (compiles cs2 ++ rest) = Some st2 /\ same_run st1 st2.
Proof.
  intros P N Pm F X. rewrite exec_app in X. destruct (exec e st (compiles cs1)) as [sa|] eqn:Xa; [|discriminate].
  destruct (schedule_independent e st pend cs1 cs2 sa P N Pm Xa) as (sb & Xb & R).
  destruct (weqv_exec e rest sa sb st1 (same_result_weqv _ _ R) F X) as (st2 & X2 & W).
  exists st2. split; [rewrite exec_app, Xb; exact X2|exact (w_same _ _ W)].
Qed.
