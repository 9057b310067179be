(** A run whose options are not the recorded ones behaves as a run without a
    state file. *)
From Verif Require Import Prelude Proof_Prelude Model_Path Model_Json Model_Schema Spec_Json Proof_Dec
  Proof_Schema Model_Command Spec_Command Proof_Command Model_ToolchainConfig Model_Target Spec_Target
  Proof_TargetBase Proof_TargetInv Proof_TargetRun Proof_TargetStep Proof_TargetStep2 Proof_TargetMain Proof_TargetRuns
  Proof_TargetLive Proof_TargetClean Spec_Switch.

Lemma hash_all_paths mt l : forall l' b, hash_all mt l = (l', b) -> il_paths l' = il_paths l.
Proof.
  induction l as [|i l IH]; intros l' b H; cbn [hash_all] in H; [injection H as <- <-; reflexivity|].
  destruct (compute_hash mt (pi_path i)); [|injection H as <- <-; reflexivity].
  destruct (hash_all mt l) as [r b'] eqn:E. injection H as <- <-. unfold il_paths in *. cbn. f_equal. exact (IH _ _ eq_refl).
Qed.

(** What of the user schema the first checks compare. *)
Definition given_by (c : cfg) (u : tschema) : Prop :=
  ts_preprocessor_flags u = c_preprocessor c /\ ts_common_compile_flags u = c_common c /\
  ts_c_compile_flags u = c_c_flags c /\ ts_cpp_compile_flags u = c_cpp_flags c /\
  ts_include_dirs u = dirs (c_include_dirs c) /\ il_paths (ts_headers u) = headers c /\
  ts_pch_compile_flags u = c_pch_compile c /\ il_paths (ts_pchs u) = pchs c /\
  ts_asm_compile_flags u = c_asm_flags c /\ ts_pch_object_flags u = c_pch_object c /\
  il_paths (ts_compile_deps u) = compile_deps c.

Lemma given_user c : given_by c (user_of c).
Proof. repeat split. Qed.
Lemma given_pch mt c u u' b : given_by c u -> pch_pre mt u = (u', b) -> given_by c u'.
Proof.
  intros G H. unfold pch_pre in H. destruct (hash_all mt (ts_headers u)) as [h b1] eqn:E1. apply hash_all_paths in E1.
  destruct b1; [|injection H as <- <-; unfold given_by in *; tsp; rewrite E1; tauto].
  tsp. destruct (hash_all mt (ts_pchs u)) as [p b2] eqn:E2. apply hash_all_paths in E2. injection H as <- <-.
  unfold given_by in *. tsp. rewrite E1, E2. tauto.
Qed.
Lemma given_obj mt c u u' b : given_by c u -> obj_pre mt u = (u', b) -> given_by c u'.
Proof.
  intros G H. unfold obj_pre in H. destruct (hash_all mt (ts_sources u)) as [s b1] eqn:E1.
  destruct b1; [|injection H as <- <-; unfold given_by in *; tsp; tauto].
  tsp. destruct (hash_all mt (ts_headers u)) as [h b2] eqn:E2. apply hash_all_paths in E2.
  destruct b2; [|injection H as <- <-; unfold given_by in *; tsp; rewrite E2; tauto].
  destruct (hash_all mt (ts_compile_deps u)) as [d b3] eqn:E3. apply hash_all_paths in E3. injection H as <- <-.
  unfold given_by in *. tsp. rewrite E2, E3. tauto.
Qed.

Lemma otherwise_pch l c u : given_by c u -> recorded_otherwise l c -> pchs c <> [] -> pch_same l u = false.
Proof.
  intros (G1 & G2 & G3 & G4 & G5 & G6 & G7 & G8 & G9 & G10 & G11) O P.
  destruct (pch_same l u) eqn:E; [|reflexivity]. exfalso. unfold pch_same in E.
  rewrite !andb_true_iff, !str_list_eqb_eq, !infolist_eqb_eq in E.
  destruct E as ((((((((E1 & E2) & E3) & E4) & E5) & E6) & E7) & E8) & E9). unfold recorded_otherwise in O.
  rewrite E7, E8, E1, E2, E3, E4, E5, E6, E9 in O. intuition congruence.
Qed.
Lemma otherwise_obj l c u : given_by c u -> recorded_otherwise l c -> pchs c = [] -> obj_same l u = false.
Proof.
  intros (G1 & G2 & G3 & G4 & G5 & G6 & G7 & G8 & G9 & G10 & G11) O P.
  destruct (obj_same l u) eqn:E; [|reflexivity]. exfalso. unfold obj_same in E.
  rewrite !andb_true_iff, !str_list_eqb_eq, !infolist_eqb_eq in E.
  destruct E as ((((((((E1 & E2) & E3) & E4) & E5) & E6) & E7) & E8) & E9). unfold recorded_otherwise in O.
  rewrite E7, E8, E1, E2, E3, E4, E5, E6, E9 in O. intuition congruence.
Qed.

(** The same state, without any state file or memory of one; [k] commands had
    been executed before. *)
Definition forget (k : nat) (st : tstate) : tstate :=
  ST (set_store (s_disk st) None) (s_pc st) (s_cfg st) (s_ord st) (s_user st) None (s_buf st) (s_dirty st) (s_ok st) (skipn k (s_log st)).
Lemma skip_snoc {A} k (l : list A) x : k <= List.length l -> skipn k (l ++ [x]) = skipn k l ++ [x].
Proof. intros H. rewrite skipn_app. replace (k - List.length l) with 0 by lia. reflexivity. Qed.

Record ahead (k : nat) (c : cfg) (st : tstate) : Prop := {
  w_log : k <= List.length (s_log st);
  w_cfg : s_cfg st = c;
  w_load : forall l, s_load st = Some l -> recorded_otherwise l c;
  w_user : (s_pc st = PcPch \/ s_pc st = PcPchExec \/ s_pc st = PcObj) -> given_by c (s_user st);
  w_pch : (s_pc st = PcPch \/ s_pc st = PcPchExec) -> pchs c <> [];
  w_exec : s_pc st = PcPchExec -> s_dirty st = true;
  w_obj : s_pc st = PcObj -> s_ok st = true -> s_dirty st = true \/ pchs c = [];
  w_cc : forall p, s_pc st = PcCompile p -> s_ok st = true -> s_dirty st = true }.

Ltac none := rewrite ?app_length; intros; first [lia | discriminate | congruence | (repeat match goal with H : _ \/ _ |- _ => destruct H end; first [discriminate|congruence]) | auto].

Ltac same A0 := unfold forget; stp; repeat match goal with H : s_ok _ = _ |- _ => rewrite ?H; clear H end; rewrite ?skip_snoc by exact A0; reflexivity.

Lemma ahead_step e k c st ev st' : step e st ev = Some st' -> own ev -> (forall w, ev <> EvEnd w) -> ahead k c st ->
  ahead k c st' /\ step e (forget k st) ev = Some (forget k st').
Proof.
  intros S O NE [A0 A1 A2 A3 A4 A5 A6 A7]. destruct ev; try destruct O; cbn [step] in S |- *; unfold forget; stp.
  - destruct (s_pc st) eqn:E; try discriminate. injection S as <-.
    assert (G := A3 (or_introl eq_refl)). assert (P := A4 (or_introl eq_refl)).
    unfold pch_check. stp. destruct (s_ok st) eqn:Eo; cbn [negb]; [|split; [constructor; stp; none|same A0]].
    destruct (pch_pre (d_mt (s_disk st)) (s_user st)) as [u b] eqn:Ep. pose proof (given_pch _ _ _ _ _ G Ep) as Gu.
    destruct b; cbn [negb]; [|split; [constructor; stp; none|same A0]]. stp. rewrite orb_true_r.
    assert (D : s_dirty st || match s_load st with Some l => negb (pch_same l u) | None => true end = true).
    { destruct (s_load st) as [l|] eqn:El; [|apply orb_true_r].
      rewrite (otherwise_pch l c u Gu (A2 l eq_refl) P). apply orb_true_r. }
    rewrite D. split; [constructor; stp; none|same A0].
  - destruct (s_pc st) eqn:E; try discriminate. unfold pch_exec in *. stp. destruct (pch_command e (s_cfg st)); try discriminate.
    injection S as <-. assert (G := A3 (or_intror (or_introl eq_refl))). assert (D := A5 eq_refl).
    destruct (run_res s r); (split; [constructor; stp; none|same A0]).
  - destruct (s_pc st) eqn:E; try discriminate. injection S as <-.
    assert (G := A3 (or_intror (or_intror eq_refl))).
    unfold obj_check. stp. destruct (s_ok st) eqn:Eo; cbn [negb]; [|split; [constructor; stp; none|same A0]].
    destruct (obj_pre (d_mt (s_disk st)) (s_user st)) as [u b] eqn:Ep. pose proof (given_obj _ _ _ _ _ G Ep) as Gu.
    destruct b; cbn [negb]; [|split; [constructor; stp; none|same A0]]. stp.
    assert (D : match s_load st with Some l => s_dirty st || negb (obj_same l u) | None => true end = true).
    { destruct (s_load st) as [l|] eqn:El; [|reflexivity]. destruct (A6 eq_refl eq_refl) as [K|K]; [rewrite K; reflexivity|].
      rewrite (otherwise_obj l c u Gu (A2 l eq_refl) K). apply orb_true_r. }
    rewrite D. split; [constructor; stp; none|same A0].
  - destruct (s_pc st) eqn:E; try discriminate. unfold compile_one in *. stp.
    destruct (take_pending s pending) as [[i rest]|]; [|discriminate]. destruct (compile_command e (s_cfg st) s); try discriminate.
    injection S as <-. destruct (run_res s0 r); (split; [constructor; stp; none|same A0]).
    all: exact (A7 _ eq_refl H0).
  - destruct (s_pc st) as [| | | |[|? ?]| |] eqn:E; try discriminate. injection S as <-.
    unfold link_check. stp. destruct (s_ok st) eqn:Eo; cbn [negb]; [|split; [constructor; stp; none|same A0]].
    destruct (link_pre (d_mt (s_disk st)) (s_user st)) as [u b] eqn:Ep.
    destruct b; cbn [negb]; [|split; [constructor; stp; none|same A0]]. stp.
    assert (D : match s_load st with Some l => s_dirty st || negb (link_same l u) | None => true end = true).
    { destruct (s_load st); [|reflexivity]. rewrite (A7 _ eq_refl eq_refl). reflexivity. }
    rewrite D. split; [constructor; stp; none|same A0].
  - destruct (s_pc st) eqn:E; try discriminate. unfold link_exec in *. stp.
    destruct (link_command e (s_cfg st) (s_ord st)); try discriminate. injection S as <-.
    destruct (run_res s r); (split; [constructor; stp; none|same A0]).
  - exfalso. exact (NE w eq_refl).
Qed.

Lemma ahead_exec e k c run : Forall own run -> forall st st', exec e st run = Some st' -> s_pc st' <> Idle -> ahead k c st ->
  ahead k c st' /\ exec e (forget k st) run = Some (forget k st').
Proof.
  induction run as [|ev run IH] using rev_ind; intros F st st' X P A.
  - cbn [exec] in X. injection X as <-. split; [exact A|reflexivity].
  - apply Forall_app in F as [F1 F2]. inversion F2 as [|? ? O _]; subst. apply exec_snoc in X as (st1 & X1 & S).
    destruct (own_keeps_cfg _ _ _ _ S O) as [_ Pi].
    destruct (IH F1 st st1 X1 Pi A) as (A1 & X2).
    destruct (ahead_step e k c st1 ev st' S O) as (A2 & S2); [|exact A1|].
    { intros w ->. destruct (step_end _ _ _ _ S) as (_ & K & _). exact (P K). }
    split; [exact A2|]. apply exec_snoc. exists (forget k st1). split; [exact X2|exact S2].
Qed.

Theorem changed_options e st0 c ord run w st :
  templates_ok e -> NoDup (map (obj_of e) (sources c)) -> Forall own run ->
  (forall l, stored (s_disk st0) = Some l -> recorded_otherwise l c) ->
  exec e st0 (EvStart c ord :: run ++ [EvEnd w]) = Some st -> s_ok st = true ->
  all_current e c (s_disk st).
Proof.
  intros T ND F D X O. cbn [exec] in X. destruct (step e st0 (EvStart c ord)) as [st1|] eqn:S; [|discriminate].
  apply exec_snoc in X as (st2 & X2 & S2). destruct (step_end _ _ _ _ S2) as (Pe & _ & C & Ds).
  set (k := List.length (s_log st0)).
  cbn [step] in S. destruct (s_pc st0) eqn:E0; try discriminate.
  assert (Q : start e (init (s_disk st0)) c ord = Some (forget k st1) /\ ahead k c st1).
  { unfold start in S |- *. destruct (negb (ord_ok ord (sources c)) || existsb is_fother (all_commands e c ord)); [discriminate|].
    destruct (forallb is_fok (all_commands e c ord)).
    - injection S as <-. split.
      + unfold forget. stp. unfold k. rewrite skipn_all. reflexivity.
      + constructor; stp.
        * lia.
        * reflexivity.
        * exact D.
        * intros _. apply given_user.
        * intros [H|H]; destruct (contains_pch c) eqn:Ec; try discriminate; apply contains_pch_iff; exact Ec.
        * destruct (contains_pch c); discriminate.
        * intros H _. right. destruct (contains_pch c) eqn:Ec; [discriminate|]. apply contains_pch_false. exact Ec.
        * intros p. destruct (contains_pch c); discriminate.
    - exfalso. injection S as <-. destruct run as [|ev run].
      + cbn [exec] in X2. injection X2 as <-. stp. congruence.
      + cbn [exec] in X2. destruct (step e (with_ok st0 false) ev) as [y|] eqn:Sy; [|discriminate].
        inversion F as [|? ? Ov _]; subst. destruct (own_keeps_cfg _ _ _ _ Sy Ov) as [_ K]. apply K. stp. exact E0. }
  destruct Q as [Q A]. destruct (ahead_exec e k c run F st1 st2 X2 ltac:(congruence) A) as (A2 & X3).
  assert (exists st3, step e (forget k st2) (EvEnd w) = Some st3 /\ s_ok st3 = true /\ same_art (s_disk st3) (s_disk st) /\
    d_mt (s_disk st3) = d_mt (s_disk st)) as (st3 & S3 & O3 & Sa & Mt).
  { cbn [step] in S2 |- *. unfold forget. stp. rewrite Pe in S2 |- *. unfold end_task in *. stp.
    destruct (s_dirty st2).
    - destruct (store_text _) as [t|].
      + destruct w as [| |n rep]; [injection S2 as <-; eexists; split; [reflexivity|]; stp; repeat split; assumption
          |injection S2 as <-; stp; discriminate|].
        destruct (short n t); [|discriminate]. injection S2 as <-. eexists. split; [reflexivity|].
        destruct rep; stp; repeat split; assumption.
      + destruct w; try discriminate. injection S2 as <-. stp. discriminate.
    - destruct w; try discriminate. injection S2 as <-. eexists. split; [reflexivity|]. stp. repeat split; assumption. }
  assert (K : all_current e c (s_disk st3)).
  { apply (clean_build e (s_disk st0) c ord run w st3 T ND F); [|exact O3]. cbn [exec].
    replace (step e (init (s_disk st0)) (EvStart c ord)) with (Some (forget k st1)) by (symmetry; exact Q).
    apply exec_snoc. exists (forget k st2). split; [exact X3|exact S3]. }
  destruct K as (K1 & K2 & K3). unfold all_current. rewrite <- Mt. split; [|split].
  - intros P. exact (same_art_pch e c _ _ _ Sa (K1 P)).
  - intros s Hs. exact (same_art_obj e c _ _ _ s Sa (K2 s Hs)).
  - exact (same_art_tgt e c _ _ _ Sa K3).
Qed.
