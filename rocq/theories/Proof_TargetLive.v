(** Runs end, and succeed if nothing goes wrong. *)
From Verif Require Import Prelude Proof_Prelude Model_Path Model_Json Model_Schema Spec_Json Proof_Json Proof_Dec
  Proof_Schema Model_Command Spec_Command Proof_Command Model_ToolchainConfig Model_Target Spec_Target
  Proof_TargetBase Proof_TargetInv Proof_TargetRun Proof_TargetStep Proof_TargetStep2 Proof_TargetMain Proof_TargetRuns.

(** ** Commands exist *)

Lemma commands_exist rg e d0 evs h st :
  history rg e d0 evs h st -> s_pc st <> Idle ->
  (pchs (s_cfg st) <> [] -> exists c, pch_command e (s_cfg st) = FOk c) /\
  (forall s, In s (sources (s_cfg st)) -> exists c, compile_command e (s_cfg st) s = FOk c) /\
  (forall ord, exists c, link_command e (s_cfg st) ord = FOk c).
Proof.
  intros H P. destruct (started rg e d0 evs h st H P) as (sta & ord & stb & S & P1 & P2). unfold start in S.
  destruct (ord_ok ord (sources (s_cfg st))) eqn:O; cbn [negb orb] in S; [|discriminate].
  destruct (existsb is_fother (all_commands e (s_cfg st) ord)); [discriminate|].
  destruct (forallb is_fok (all_commands e (s_cfg st) ord)) eqn:F; [|injection S as <-; stp; congruence].
  rewrite forallb_forall in F. unfold all_commands in F.
  assert (G : forall r, is_fok r = true -> exists c, r = FOk c) by (intros [c| |] K; [eauto|discriminate|discriminate]).
  split; [|split].
  - intros K. apply contains_pch_iff in K. rewrite K in F. apply G, F. left. reflexivity.
  - intros s Hs. apply G, F. apply in_app_iff. right. apply in_app_iff. left. apply in_map.
    unfold ord_ok in O. apply andb_true_iff in O as [_ O]. rewrite forallb_forall in O.
    apply mem_str_In. apply O. exact Hs.
  - intros ord'. apply G. rewrite (proj1 (is_fok_kind _ _ (link_kind e (s_cfg st) ord' ord))). apply F.
    apply in_app_iff. right. apply in_app_iff. right. left. reflexivity.
Qed.

(** ** Never stuck *)

Lemma take_pending_head (i : pathinfo) (l : infolist) : take_pending (pi_path i) (i :: l) = Some (i, l).
Proof. cbn [take_pending]. rewrite String.eqb_refl. reflexivity. Qed.

Theorem never_stuck rg e d0 evs h st :
  templates_ok e -> history rg e d0 evs h st -> s_pc st <> Idle ->
  exists ev st', good ev /\ step e st ev = Some st'.
Proof.
  intros T H P. destruct (commands_exist rg e d0 evs h st H P) as (C1 & C2 & C3).
  pose proof (history_Inv rg e T _ _ _ _ H) as I. assert (RI : RunInv rg e h st) by (apply (i_run _ _ _ _ I); exact P).
  pose proof (r_stage _ _ _ _ RI) as Sg. unfold Stage in Sg. destruct (s_pc st) as [| | | |[|i pend]| |] eqn:E.
  - congruence.
  - exists EvPchCheck. eexists. cbn [step good]. rewrite E. split; [exact Logic.I|reflexivity].
  - destruct (C1 (sx_pch _ _ _ Sg)) as (cmd & K). exists (EvPchExec XOk). eexists. cbn [step good]. rewrite E. unfold pch_exec. rewrite K.
    split; [exact Logic.I|reflexivity].
  - exists EvObjCheck. eexists. cbn [step good]. rewrite E. split; [exact Logic.I|reflexivity].
  - exists EvLinkCheck. eexists. cbn [step good]. rewrite E. split; [exact Logic.I|reflexivity].
  - assert (Hi : In (pi_path i) (sources (s_cfg st))).
    { rewrite <- (like_sources _ _ (r_like _ _ _ _ RI)). apply in_map. apply (sc_in _ _ _ _ _ Sg). left. reflexivity. }
    destruct (C2 _ Hi) as (cmd & K). exists (EvCompile (pi_path i) XOk). eexists. cbn [step good]. rewrite E. unfold compile_one.
    rewrite take_pending_head, K. split; [exact Logic.I|reflexivity].
  - destruct (C3 (s_ord st)) as (cmd & K). exists (EvLinkExec XOk). eexists. cbn [step good]. rewrite E. unfold link_exec. rewrite K.
    split; [exact Logic.I|reflexivity].
  - exists (EvEnd WOk). cbn [step good]. rewrite E. unfold end_task. destruct (s_dirty st); [|eexists; split; [exact Logic.I|reflexivity]].
    destruct (store_text _); eexists; (split; [exact Logic.I|reflexivity]).
Qed.

(** ** Bounded *)

Definition left_to_do (st : tstate) : nat :=
  let n := length (ts_sources (s_user st)) in
  match s_pc st with
  | Idle => 0 | PcEnd => 1 | PcLinkExec => 2 | PcCompile p => 3 + length p
  | PcObj => 4 + n | PcPchExec => 5 + n | PcPch => 6 + n
  end.

Lemma hash_all_length (mt : times) (l : infolist) : length (fst (hash_all mt l)) = length l.
Proof.
  induction l as [|i l IH]; [reflexivity|]. cbn [hash_all]. destruct (compute_hash mt (pi_path i)); [|reflexivity].
  destruct (hash_all mt l) as [r b]. cbn in *. rewrite IH. reflexivity.
Qed.
Lemma pch_pre_length (mt : times) (u u' : tschema) (b : bool) :
  pch_pre mt u = (u', b) -> length (ts_sources u') = length (ts_sources u).
Proof.
  unfold pch_pre. destruct (hash_all mt (ts_headers u)) as [h b1]. destruct b1.
  - destruct (hash_all mt _) as [p b2]. intros [= <- _]. reflexivity.
  - intros [= <- _]. reflexivity.
Qed.
Lemma obj_pre_length (mt : times) (u u' : tschema) (b : bool) :
  obj_pre mt u = (u', b) -> length (ts_sources u') = length (ts_sources u).
Proof.
  unfold obj_pre. pose proof (hash_all_length mt (ts_sources u)) as L.
  destruct (hash_all mt (ts_sources u)) as [h b1]. cbn [fst] in L. destruct b1.
  - destruct (hash_all mt _) as [p b2]. destruct b2.
    + destruct (hash_all mt _) as [q b3]. intros [= <- _]. exact L.
    + intros [= <- _]. exact L.
  - intros [= <- _]. exact L.
Qed.
Lemma recompile_length (prev : list (string * string)) (cur : infolist) :
  forall sel dum ch, recompile_loop prev cur = (sel, dum, ch) -> length sel <= length cur.
Proof.
  revert prev. induction cur as [|i cur IH]; intros prev sel dum ch; cbn [recompile_loop].
  - intros [= <- _ _]. cbn. lia.
  - destruct (assoc (pi_path i) prev) as [hh|].
    + destruct (recompile_loop _ cur) as [[a b] c] eqn:E. specialize (IH _ _ _ _ E).
      destruct (String.eqb hh (pi_hash i)); intros [= <- _ _]; cbn [length]; lia.
    + destruct (recompile_loop _ cur) as [[a b] c] eqn:E. specialize (IH _ _ _ _ E). intros [= <- _ _]. cbn [length]. lia.
Qed.
Lemma take_pending_length (s : string) (l r : infolist) (i : pathinfo) :
  take_pending s l = Some (i, r) -> length l = S (length r).
Proof. intros H. destruct (take_pending_spec _ _ _ _ H) as [_ P]. apply Permutation_length in P. exact P. Qed.

Lemma own_decreases e st ev st' : step e st ev = Some st' -> own ev -> left_to_do st' < left_to_do st.
Proof.
  intros S O. destruct ev; try destruct O; cbn [step] in S.
  - destruct (s_pc st) eqn:E; try discriminate. injection S as <-. unfold left_to_do. rewrite E.
    unfold pch_check. destruct (negb (s_ok st)); [stp; lia|]. destruct (pch_pre _ _) as [u b] eqn:Ep.
    apply pch_pre_length in Ep. destruct (negb b); [stp; lia|]. destruct (_ || _); stp; lia.
  - destruct (s_pc st) eqn:E; try discriminate. unfold left_to_do. rewrite E. unfold pch_exec in S.
    destruct (pch_command _ _); try discriminate. injection S as <-. destruct (run_res _ _); stp; lia.
  - destruct (s_pc st) eqn:E; try discriminate. injection S as <-. unfold left_to_do. rewrite E.
    unfold obj_check. destruct (negb (s_ok st)); [stp; cbn [length]; lia|]. destruct (obj_pre _ _) as [u b] eqn:Ep.
    apply obj_pre_length in Ep. destruct (negb b); [stp; cbn [length]; lia|]. stp.
    destruct (match s_load st with None => true | Some l => s_dirty st || negb (obj_same l u) end); [stp; lia|].
    destruct (s_load st); [|stp; cbn [length]; lia]. destruct (recompile_sources _ _) as [[x y] z] eqn:Er.
    apply recompile_length in Er. stp. lia.
  - destruct (s_pc st) eqn:E; try discriminate. unfold left_to_do. rewrite E. unfold compile_one in S.
    destruct (take_pending _ _) as [[i r']|] eqn:Tk; [|discriminate]. apply take_pending_length in Tk.
    destruct (compile_command _ _ _); try discriminate. injection S as <-. destruct (run_res _ _); stp; lia.
  - destruct (s_pc st) as [| | | |[|? ?]| |] eqn:E; try discriminate. injection S as <-. unfold left_to_do. rewrite E.
    unfold link_check. destruct (negb (s_ok st)); [stp; cbn [length]; lia|]. destruct (link_pre _ _) as [u b].
    destruct (negb b); [stp; cbn [length]; lia|]. destruct (match s_load _ with None => true | _ => _ end); stp; cbn [length]; lia.
  - destruct (s_pc st) eqn:E; try discriminate. unfold left_to_do. rewrite E. unfold link_exec in S.
    destruct (link_command _ _ _); try discriminate. injection S as <-. destruct (run_res _ _); stp; lia.
  - destruct (s_pc st) eqn:E; try discriminate. unfold left_to_do at 2. rewrite E.
    assert (S' : step e st (EvEnd w) = Some st') by (cbn [step]; rewrite E; exact S).
    destruct (step_end _ _ _ _ S') as (_ & K & _). unfold left_to_do. rewrite K. lia.
Qed.
Theorem run_bounded e st c ord evs st' :
  exec e st (EvStart c ord :: evs) = Some st' -> Forall own evs -> length evs <= length (sources c) + 6.
Proof.
  intros X F. cbn [exec] in X. destruct (step e st (EvStart c ord)) as [st1|] eqn:S; [|discriminate].
  assert (B : left_to_do st1 <= 6 + length (sources c)).
  { cbn [step] in S. destruct (s_pc st) eqn:E; try discriminate. unfold start in S. destruct (_ || _); [discriminate|].
    destruct (forallb _ _); injection S as <-; unfold left_to_do; stp.
    - unfold sources, il_paths. rewrite map_length. destruct (contains_pch c); lia.
    - rewrite E. lia. }
  clear S.
  assert (G : forall n sx, exec e sx evs = Some st' -> left_to_do sx <= n -> length evs <= n).
  { clear X B st1. induction F as [|ev evs O F IH]; intros n sx X B; [cbn; lia|]. cbn [exec] in X.
    destruct (step e sx ev) as [st2|] eqn:S; [|discriminate]. pose proof (own_decreases _ _ _ _ S O) as D.
    destruct n as [|n]; [lia|]. cbn [length]. apply le_n_S. apply (IH n st2 X). lia. }
  specialize (G _ st1 X B). lia.
Qed.

(** ** Good runs succeed *)

(** The PCH entries to be stored are those of the configuration. *)
Lemma buf_pchs rg e d0 evs h st :
  templates_ok e -> history rg e d0 evs h st -> s_pc st <> Idle ->
  ts_pchs (s_buf st) = [] \/ il_paths (ts_pchs (s_buf st)) = pchs (s_cfg st).
Proof.
  intros T H. induction H as [|evs h st ev st' H IH A S]; intros P; [destruct (P eq_refl)|].
  pose proof (history_Inv rg e T _ _ _ _ H) as Iv.
  assert (G : s_pc st <> Idle -> s_cfg st' = s_cfg st -> ts_pchs (s_buf st') = ts_pchs (s_buf st) ->
      ts_pchs (s_buf st') = [] \/ il_paths (ts_pchs (s_buf st')) = pchs (s_cfg st')).
  { intros P1 E1 E2. rewrite E1, E2. exact (IH P1). }
  assert (L : s_pc st <> Idle -> il_paths (ts_pchs (s_user st)) = pchs (s_cfg st)).
  { intros P1. exact (like_pchs _ _ (r_like _ _ _ _ (i_run _ _ _ _ Iv P1))). }
  assert (AS : forall l b, ts_pchs (fold_left add_source l b) = ts_pchs b).
  { induction l as [|x l IHl]; intros b; [reflexivity|]. cbn [fold_left]. rewrite IHl. reflexivity. }
  destruct ev; cbn [step] in S.
  - injection S as <-. apply G; [exact P|reflexivity|reflexivity].
  - injection S as <-. apply G; [exact P|reflexivity|reflexivity].
  - destruct (s_pc st) eqn:E; try discriminate; injection S as <-; apply G; reflexivity || congruence.
  - injection S as <-. apply G; [exact P|reflexivity|reflexivity].
  - injection S as <-. apply G; [exact P|reflexivity|reflexivity].
  - injection S as <-. apply G; [exact P|reflexivity|reflexivity].
  - injection S as <-. apply G; [exact P|reflexivity|reflexivity].
  - destruct (s_pc st) eqn:E; try discriminate. unfold start in S.
    destruct (_ || _); [discriminate|]. destruct (forallb _ _); injection S as <-.
    + left. reflexivity.
    + stp. congruence.
  - destruct (s_pc st) eqn:E; try discriminate. injection S as <-.
    assert (P1 : s_pc st <> Idle) by congruence. rewrite <- E in *.
    clear P. revert G. unfold pch_check. destruct (negb (s_ok st)); [intros G; apply G; reflexivity || exact P1|].
    destruct (pch_pre (d_mt (s_disk st)) (s_user st)) as [u b] eqn:Ep.
    pose proof (proj1 (pch_pre_like _ _ _ _ _ (r_like _ _ _ _ (i_run _ _ _ _ Iv P1)) Ep)) as Lu.
    destruct (negb b); [intros G; apply G; reflexivity || exact P1|].
    destruct (_ || _); [intros G; apply G; reflexivity || exact P1|]. intros _. right. stp. exact (like_pchs _ _ Lu).
  - destruct (s_pc st) eqn:E; try discriminate. assert (P1 : s_pc st <> Idle) by congruence. rewrite <- E in *.
    clear P. revert G. unfold pch_exec in S.
    destruct (pch_command _ _); try discriminate. injection S as <-. destruct (run_res _ _); intros G; try (apply G; reflexivity || exact P1).
    right. stp. exact (L P1).
  - destruct (s_pc st) eqn:E; try discriminate. injection S as <-. assert (P1 : s_pc st <> Idle) by congruence. rewrite <- E in *.
    apply G; [exact P1| |].
    + unfold obj_check. destruct (negb (s_ok st)); [reflexivity|]. destruct (obj_pre _ _). destruct (negb b); [reflexivity|].
      destruct (if _ : bool then _ else _) as [[x y] z]. reflexivity.
    + unfold obj_check. destruct (negb (s_ok st)); [reflexivity|]. destruct (obj_pre _ _). destruct (negb b); [reflexivity|].
      destruct (if _ : bool then _ else _) as [[x y] z]. stp. apply AS.
  - destruct (s_pc st) eqn:E; try discriminate. assert (P1 : s_pc st <> Idle) by congruence. rewrite <- E in *.
    unfold compile_one in S.
    destruct (take_pending _ _) as [[i r']|]; [|discriminate]. destruct (compile_command _ _ _); try discriminate.
    injection S as <-. apply G; [exact P1| |]; destruct (run_res _ _); reflexivity.
  - destruct (s_pc st) as [| | | |[|? ?]| |] eqn:E; try discriminate. injection S as <-. apply G; [congruence| |].
    + unfold link_check. destruct (negb (s_ok st)); [reflexivity|]. destruct (link_pre _ _). destruct (negb b); reflexivity.
    + unfold link_check. destruct (negb (s_ok st)); [reflexivity|]. destruct (link_pre _ _). destruct (negb b); reflexivity.
  - destruct (s_pc st) eqn:E; try discriminate. assert (P1 : s_pc st <> Idle) by congruence. rewrite <- E in *.
    unfold link_exec in S.
    destruct (link_command _ _ _); try discriminate. injection S as <-. apply G; [exact P1| |]; destruct (run_res _ _); reflexivity.
  - exfalso. destruct (s_pc st) eqn:E; try discriminate.
    assert (S' : step e st (EvEnd w) = Some st') by (cbn [step]; rewrite E; exact S).
    destruct (step_end _ _ _ _ S') as (_ & K & _). congruence.
  - destruct (s_pc st) eqn:E; try discriminate. destruct (s_dirty st); [|discriminate].
    destruct (bind _ _); [|discriminate]. injection S as <-. destruct (P eq_refl).
Qed.

Definition okhash (i : pathinfo) : Prop := pi_hash i = "" \/ exists t, pi_hash i = dec_of_N t.
Definition okuser (u : tschema) : Prop := Forall okhash (all_infos u).
Lemma hash_all_ok (mt : times) (l : infolist) : Forall okhash l -> Forall okhash (fst (hash_all mt l)).
Proof.
  induction 1 as [|i l Hi Hl IH]; cbn [hash_all]; [constructor|].
  unfold compute_hash. destruct (mt (to_path_string (pi_path i))) as [t|].
  - destruct (hash_all mt l) as [r b]. cbn [fst] in *. constructor; [right; exists t; reflexivity|exact IH].
  - cbn [fst]. constructor; assumption.
Qed.
Lemma okuser_iff (u : tschema) : okuser u <->
  Forall okhash (ts_sources u) /\ Forall okhash (ts_headers u) /\ Forall okhash (ts_pchs u) /\
  Forall okhash (ts_libs u) /\ Forall okhash (ts_compile_deps u) /\ Forall okhash (ts_link_deps u).
Proof. unfold okuser, all_infos. rewrite !Forall_app. reflexivity. Qed.
Lemma okuser_user (c : cfg) : okuser (user_of c).
Proof.
  apply okuser_iff. cbn. repeat split; (eapply Forall_impl; [|apply infos_hash]); intros a K; left; exact K.
Qed.
Lemma pch_pre_ok (mt : times) (u u' : tschema) (b : bool) : pch_pre mt u = (u', b) -> okuser u -> okuser u'.
Proof.
  rewrite !okuser_iff. intros E (A & B & C & D & F & G). unfold pch_pre in E.
  pose proof (hash_all_ok mt _ B) as B'. destruct (hash_all mt (ts_headers u)) as [x b1]. cbn [fst] in B'.
  destruct b1; [|injection E as <- _; repeat split; assumption].
  pose proof (hash_all_ok mt _ C) as C'. tsp. destruct (hash_all mt (ts_pchs u)) as [y b2]. cbn [fst] in C'.
  injection E as <- _. repeat split; assumption.
Qed.
Lemma obj_pre_ok (mt : times) (u u' : tschema) (b : bool) : obj_pre mt u = (u', b) -> okuser u -> okuser u'.
Proof.
  rewrite !okuser_iff. intros E (A & B & C & D & F & G). unfold obj_pre in E.
  pose proof (hash_all_ok mt _ A) as A'. destruct (hash_all mt (ts_sources u)) as [x b1]. cbn [fst] in A'.
  destruct b1; [|injection E as <- _; repeat split; assumption]. tsp.
  pose proof (hash_all_ok mt _ B) as B'. destruct (hash_all mt (ts_headers u)) as [y b2]. cbn [fst] in B'.
  destruct b2; [|injection E as <- _; repeat split; assumption]. tsp.
  pose proof (hash_all_ok mt _ F) as F'. destruct (hash_all mt (ts_compile_deps u)) as [z b3]. cbn [fst] in F'.
  injection E as <- _. repeat split; assumption.
Qed.
Lemma link_pre_ok (mt : times) (u u' : tschema) (b : bool) : link_pre mt u = (u', b) -> okuser u -> okuser u'.
Proof.
  rewrite !okuser_iff. intros E (A & B & C & D & F & G). unfold link_pre in E.
  pose proof (hash_all_ok mt _ D) as D'. destruct (hash_all mt (ts_libs u)) as [x b1]. cbn [fst] in D'.
  destruct b1; [|injection E as <- _; repeat split; assumption]. tsp.
  pose proof (hash_all_ok mt _ G) as G'. destruct (hash_all mt (ts_link_deps u)) as [y b2]. cbn [fst] in G'.
  injection E as <- _. repeat split; assumption.
Qed.
Lemma add_source_ok (b : tschema) (i : pathinfo) :
  okhash i -> Forall okhash (ts_sources b) -> Forall okhash (ts_sources (add_source b i)).
Proof. intros H K. unfold add_source, il_emplace. tsp. apply Forall_app. split; [exact K|constructor; [exact H|constructor]]. Qed.
Lemma fold_add_ok (l : infolist) : forall b : tschema,
  Forall okhash l -> Forall okhash (ts_sources b) -> Forall okhash (ts_sources (fold_left add_source l b)).
Proof.
  induction l as [|i l IH]; intros b H K; [exact K|]. cbn [fold_left]. inversion H; subst. apply IH; [assumption|].
  apply add_source_ok; assumption.
Qed.
Lemma fold_add_pchs (l : infolist) : forall b : tschema, ts_pchs (fold_left add_source l b) = ts_pchs b.
Proof. induction l as [|x l IHl]; intros b; [reflexivity|]. cbn [fold_left]. rewrite IHl. reflexivity. Qed.
Lemma recompile_ok (prev : list (string * string)) (cur : infolist) :
  forall sel dum ch, recompile_loop prev cur = (sel, dum, ch) -> Forall okhash cur -> Forall okhash sel /\ Forall okhash dum.
Proof.
  revert prev. induction cur as [|i cur IH]; intros prev sel dum ch; cbn [recompile_loop].
  - intros [= <- <- _] _. split; constructor.
  - destruct (assoc (pi_path i) prev) as [hh|].
    + destruct (recompile_loop _ cur) as [[a b] c] eqn:E. intros K F. inversion F; subst.
      destruct (IH _ _ _ _ E) as [X Y]; [assumption|].
      destruct (String.eqb hh (pi_hash i)); injection K as <- <- _; split; try constructor; assumption.
    + destruct (recompile_loop _ cur) as [[a b] c] eqn:E. intros [= <- <- _] F. inversion F; subst.
      destruct (IH _ _ _ _ E) as [X Y]; [assumption|]. split; try constructor; assumption.
Qed.

Record HashInv (st : tstate) : Prop := {
  hi_user : okuser (s_user st);
  hi_src : Forall okhash (ts_sources (s_buf st));
  hi_pch : Forall okhash (ts_pchs (s_buf st));
  hi_pend : forall p, s_pc st = PcCompile p -> Forall okhash p }.
Lemma HashInv_step e st ev st' : step e st ev = Some st' -> (s_pc st <> Idle -> HashInv st) -> s_pc st' <> Idle -> HashInv st'.
Proof.
  intros S H P.
  assert (G : s_pc st <> Idle -> s_user st' = s_user st -> s_buf st' = s_buf st ->
     (forall p, s_pc st' = PcCompile p -> Forall okhash p) -> HashInv st').
  { intros P1 E1 E2 E3. destruct (H P1). constructor; rewrite ?E1, ?E2; assumption. }
  destruct ev; cbn [step] in S.
  - injection S as <-. apply G; try reflexivity; try exact P. exact (hi_pend _ (H P)).
  - injection S as <-. apply G; try reflexivity; try exact P. exact (hi_pend _ (H P)).
  - exfalso. destruct (s_pc st) eqn:E; try discriminate; injection S as <-; apply P; reflexivity.
  - injection S as <-. apply G; try reflexivity; try exact P. exact (hi_pend _ (H P)).
  - injection S as <-. apply G; try reflexivity; try exact P. exact (hi_pend _ (H P)).
  - injection S as <-. apply G; try reflexivity; try exact P. exact (hi_pend _ (H P)).
  - injection S as <-. apply G; try reflexivity; try exact P. exact (hi_pend _ (H P)).
  - destruct (s_pc st) eqn:E; try discriminate. unfold start in S.
    destruct (_ || _); [discriminate|]. destruct (forallb _ _); injection S as <-.
    + constructor; stp; try constructor; [apply okuser_user|]. intros p K. destruct (contains_pch c); discriminate.
    + stp. congruence.
  - destruct (s_pc st) eqn:E; try discriminate. injection S as <-.
    destruct (H ltac:(congruence)) as [A B C D].
    unfold pch_check in *. destruct (negb (s_ok st)); [constructor; stp; try assumption; discriminate|].
    destruct (pch_pre (d_mt (s_disk st)) (s_user st)) as [u b] eqn:Ep. pose proof (pch_pre_ok _ _ _ _ Ep A) as A'.
    destruct (negb b); [constructor; stp; try assumption; discriminate|].
    destruct (_ || _); constructor; stp; try assumption; try discriminate. apply okuser_iff in A'. tauto.
  - destruct (s_pc st) eqn:E; try discriminate. destruct (H ltac:(congruence)) as [A B C D].
    unfold pch_exec in S.
    destruct (pch_command _ _); try discriminate. injection S as <-.
    destruct (run_res _ _); constructor; stp; try assumption; try discriminate. apply okuser_iff in A. tauto.
  - destruct (s_pc st) eqn:E; try discriminate. injection S as <-. destruct (H ltac:(congruence)) as [A B C D].
    unfold obj_check in *. destruct (negb (s_ok st)); [constructor; stp; try assumption; intros p [= <-]; constructor|].
    destruct (obj_pre (d_mt (s_disk st)) (s_user st)) as [u b] eqn:Ep. pose proof (obj_pre_ok _ _ _ _ Ep A) as A'.
    destruct (negb b); [constructor; stp; try assumption; intros p [= <-]; constructor|]. stp.
    pose proof (proj1 (proj1 (okuser_iff _) A')) as A1.
    destruct (match s_load st with None => true | Some l => s_dirty st || negb (obj_same l u) end);
      [constructor; stp; try assumption; intros p [= <-]; exact A1|].
    destruct (s_load st); [|constructor; stp; try assumption; intros p [= <-]; constructor].
    destruct (recompile_sources _ _) as [[x y] z] eqn:Er. destruct (recompile_ok _ _ _ _ _ Er A1) as [X Y].
    constructor; stp; try assumption.
    + apply fold_add_ok; assumption.
    + rewrite fold_add_pchs. exact C.
    + intros p [= <-]. exact X.
  - destruct (s_pc st) eqn:E; try discriminate. destruct (H ltac:(congruence)) as [A B C D]. specialize (D _ E).
    unfold compile_one in S.
    destruct (take_pending _ _) as [[i r']|] eqn:Tk; [|discriminate]. destruct (compile_command _ _ _); try discriminate.
    destruct (take_pending_spec _ _ _ _ Tk) as [_ Pm]. apply (Permutation_Forall Pm) in D. inversion D as [|? ? D1 D2]; subst.
    injection S as <-. destruct (run_res _ _); constructor; stp; try assumption; try (intros p [= <-]; assumption).
    apply add_source_ok; assumption.
  - destruct (s_pc st) as [| | | |[|? ?]| |] eqn:E; try discriminate. injection S as <-. destruct (H ltac:(congruence)) as [A B C D].
    unfold link_check in *. destruct (negb (s_ok st)); [constructor; stp; try assumption; discriminate|].
    destruct (link_pre (d_mt (s_disk st)) (s_user st)) as [u b] eqn:Ep. pose proof (link_pre_ok _ _ _ _ Ep A) as A'.
    destruct (negb b); [constructor; stp; try assumption; discriminate|].
    constructor; stp; try assumption. intros p. destruct (match s_load st with None => true | Some l => s_dirty st || negb (link_same l u) end); discriminate.
  - destruct (s_pc st) eqn:E; try discriminate. destruct (H ltac:(congruence)) as [A B C D].
    unfold link_exec in S.
    destruct (link_command _ _ _); try discriminate. injection S as <-.
    destruct (run_res _ _); constructor; stp; try assumption; discriminate.
  - exfalso. destruct (s_pc st) eqn:E; try discriminate.
    assert (S' : step e st (EvEnd w) = Some st') by (cbn [step]; rewrite E; exact S).
    destruct (step_end _ _ _ _ S') as (_ & K & _). congruence.
  - destruct (s_pc st) eqn:E; try discriminate. destruct (s_dirty st); [|discriminate].
    destruct (bind _ _); [|discriminate]. injection S as <-. destruct (P eq_refl).
Qed.
Lemma history_hash rg e d0 evs h st : history rg e d0 evs h st -> s_pc st <> Idle -> HashInv st.
Proof.
  induction 1 as [|evs h st ev st' H IH A S]; intros P; [destruct (P eq_refl)|].
  exact (HashInv_step _ _ _ _ S IH P).
Qed.

(** ** Storable *)

Lemma dec_utf8 (t : N) : valid_utf8 (dec_of_N t).
Proof.
  destruct (dec_of_N_shape t) as (c & r & E & A & B & _). rewrite E.
  assert (G : forall s, all_dec s = true -> valid_utf8 s).
  { clear. induction s as [|c s IH]; cbn [all_dec]; intros H; [exists []; split; [constructor|reflexivity]|].
    apply andb_true_iff in H as [H1 H2]. destruct (IH H2) as (l & F & ->).
    assert (K : (N_of_ascii c < 128)%N).
    { unfold is_dec in H1. apply andb_true_iff in H1 as [_ H1]. destruct c as [[] [] [] [] [] [] [] []]; cbn in *; try discriminate H1; reflexivity. }
    exists (N_of_ascii c :: l). split; [constructor; [left; lia|exact F]|]. cbn [encode_all]. unfold encode_utf8.
    apply N.ltb_lt in K. rewrite K. unfold chr. rewrite ascii_N_embedding. reflexivity. }
  apply G. cbn [all_dec]. rewrite A, B. reflexivity.
Qed.
Lemma info_strings_ok (l : infolist) :
  Forall valid_utf8 (il_paths l) -> Forall okhash l -> Forall valid_utf8 (info_strings l).
Proof.
  induction l as [|i l IH]; intros A B; [constructor|]. inversion A; subst. inversion B as [|? ? B1 B2]; subst.
  cbn [info_strings flat_map app]. constructor; [assumption|]. constructor; [|apply IH; assumption].
  destruct B1 as [->|(t & ->)]; [exists []; split; [constructor|reflexivity]|apply dec_utf8].
Qed.
Lemma info_strings_paths (l : infolist) : Forall valid_utf8 (info_strings l) -> Forall valid_utf8 (il_paths l).
Proof.
  induction l as [|i l IH]; intros A; [constructor|]. cbn [info_strings flat_map app] in A. inversion A as [|? ? A1 A2]; subst.
  inversion A2; subst. constructor; [assumption|]. apply IH. assumption.
Qed.

Lemma storable rg e d0 evs h st :
  templates_ok e -> history rg e d0 evs h st -> s_pc st <> Idle ->
  Forall valid_utf8 (target_strings (user_of (s_cfg st))) ->
  exists t, store_text (update_store (s_buf st) (s_user st)) = Some t.
Proof.
  intros T H P V. apply store_text_iff. pose proof (history_Inv rg e T _ _ _ _ H) as Iv.
  pose proof (i_run _ _ _ _ Iv P) as RI. pose proof (r_like _ _ _ _ RI) as L.
  destruct (history_hash _ _ _ _ _ _ H P) as [A B C _]. apply okuser_iff in A as (A1 & A2 & A3 & A4 & A5 & A6).
  pose proof (buf_pchs rg e d0 evs h st T H P) as Bp.
  pose proof (f_equal ts_name L) as L1. pose proof (like_sources _ _ L) as Ls. pose proof (like_headers _ _ L) as Lh.
  pose proof (like_pchs _ _ L) as Lp. pose proof (like_libs _ _ L) as Ll. pose proof (like_cdeps _ _ L) as Lc.
  pose proof (like_ldeps _ _ L) as Lk. destruct (like_flags _ _ L) as (F1 & F2 & F3 & F4 & F5 & F6 & F7 & F8 & F9 & F10 & F11).
  unfold target_strings in V. inversion V as [|? ? V1 V2]; subst. rewrite !Forall_app in V2.
  destruct V2 as (W1 & W2 & W3 & W4 & W5 & W6 & W7 & W8 & W9 & W10 & W11 & W12 & W13 & W14 & W15 & W16 & W17).
  apply info_strings_paths in W1, W2, W3, W4, W16, W17.
  fold (sources (s_cfg st)) in W1. fold (headers (s_cfg st)) in W2. fold (pchs (s_cfg st)) in W3.
  fold (libs (s_cfg st)) in W4. fold (compile_deps (s_cfg st)) in W16. fold (link_deps (s_cfg st)) in W17.
  unfold target_strings, update_store. tsp. unfold strip in L1. cbn in L1. rewrite L1.
  rewrite F1, F2, F3, F4, F5, F6, F7, F8, F9, F10, F11.
  constructor; [exists []; split; [constructor|reflexivity]|]. rewrite !Forall_app. repeat split; try assumption; apply info_strings_ok; try assumption.
  - rewrite Forall_forall. intros p Hp. rewrite Forall_forall in W1. apply W1.
    apply in_map_iff in Hp as (i & <- & Hi). exact (proj1 (b_src _ _ _ _ _ _ _ (r_buf _ _ _ _ RI) i Hi)).
  - rewrite Lh. exact W2.
  - destruct Bp as [-> | ->]; [constructor|exact W3].
  - rewrite Ll. exact W4.
  - rewrite Lc. exact W16.
  - rewrite Lk. exact W17.
Qed.

(** ** Success *)

Lemma run_res_nonempty {A} (cmd : string) (r : xres A) : cmd <> "" -> run_res cmd r = r.
Proof. intros H. unfold run_res. destruct (String.eqb_spec cmd ""); [contradiction|reflexivity]. Qed.

Lemma good_mt e st ev st' : step e st ev = Some st' -> good ev -> d_mt (s_disk st') = d_mt (s_disk st) /\ s_cfg st' = s_cfg st.
Proof.
  intros S G. destruct ev; try destruct G; cbn [step] in S.
  - destruct (s_pc st); try discriminate. injection S as <-. unfold pch_check.
    destruct (negb (s_ok st)); [split; reflexivity|]. destruct (pch_pre _ _). destruct (negb b); [split; reflexivity|].
    destruct (_ || _); split; reflexivity.
  - destruct (s_pc st); try discriminate. unfold pch_exec in S.
    destruct (pch_command _ _); try discriminate. injection S as <-. destruct (run_res _ _); split; reflexivity.
  - destruct (s_pc st); try discriminate. injection S as <-.
    unfold obj_check. destruct (negb (s_ok st)); [split; reflexivity|]. destruct (obj_pre _ _). destruct (negb b); [split; reflexivity|].
    destruct (if _ : bool then _ else _) as [[x y] z]. split; reflexivity.
  - destruct (s_pc st); try discriminate. unfold compile_one in S.
    destruct (take_pending _ _) as [[i r']|]; [|discriminate]. destruct (compile_command _ _ _); try discriminate.
    injection S as <-. destruct (run_res _ _); split; reflexivity.
  - destruct (s_pc st) as [| | | |[|? ?]| |]; try discriminate. injection S as <-.
    unfold link_check. destruct (negb (s_ok st)); [split; reflexivity|]. destruct (link_pre _ _). destruct (negb b); split; reflexivity.
  - destruct (s_pc st); try discriminate. unfold link_exec in S.
    destruct (link_command _ _ _); try discriminate. injection S as <-. destruct (run_res _ _); split; reflexivity.
  - destruct (s_pc st); try discriminate. unfold end_task in S. destruct (s_dirty st).
    + destruct (store_text _); destruct w; try destruct G; try discriminate; injection S as <-; split; reflexivity.
    + destruct w; try discriminate; injection S as <-; split; reflexivity.
Qed.

Lemma good_step_ok rg e d0 evs h st ev st' :
  templates_ok e -> history rg e d0 evs h st -> step e st ev = Some st' -> good ev -> s_ok st = true ->
  (forall f, In f (tracked (s_cfg st)) -> d_mt (s_disk st) f <> None) ->
  commands_nonempty e (s_cfg st) -> Forall valid_utf8 (target_strings (user_of (s_cfg st))) ->
  s_ok st' = true.
Proof.
  intros T H S G O FX (N1 & N2 & N3) V.
  assert (P : s_pc st <> Idle).
  { intros K. destruct ev; try destruct G; cbn [step] in S; rewrite K in S; discriminate. }
  pose proof (history_Inv rg e T _ _ _ _ H) as Iv. pose proof (i_run _ _ _ _ Iv P) as RI.
  pose proof (r_like _ _ _ _ RI) as L. pose proof (r_stage _ _ _ _ RI) as Sg. unfold tracked in FX.
  destruct ev; try destruct G; cbn [step] in S.
  - destruct (s_pc st); try discriminate. injection S as <-. unfold pch_check. rewrite O. cbn [negb].
    destruct (pch_pre (d_mt (s_disk st)) (s_user st)) as [u b] eqn:Ep.
    destruct (pch_pre_like _ _ _ _ _ L Ep) as (_ & _ & Hb).
    rewrite Hb by (intros p Hp; apply FX; rewrite !in_app_iff in *; tauto). cbn [negb].
    destruct (_ || _); exact O.
  - destruct (s_pc st) eqn:E; try discriminate. unfold pch_exec in S. unfold Stage in Sg. rewrite E in Sg.
    destruct (pch_command _ _) as [cmd| |] eqn:Ec; try discriminate. injection S as <-. destruct r; try destruct G.
    assert (K : cmd <> "") by (intros ->; apply (N1 (sx_pch _ _ _ Sg)); reflexivity).
    rewrite (run_res_nonempty cmd XOk K). exact O.
  - destruct (s_pc st); try discriminate. injection S as <-. unfold obj_check. rewrite O. cbn [negb].
    destruct (obj_pre (d_mt (s_disk st)) (s_user st)) as [u b] eqn:Ep.
    destruct (obj_pre_like _ _ _ _ _ L Ep) as (_ & _ & Hb).
    rewrite Hb by (intros p Hp; apply FX; rewrite !in_app_iff in *; tauto). cbn [negb].
    destruct (if _ : bool then _ else _) as [[x y] z]. exact O.
  - destruct (s_pc st) eqn:E; try discriminate. unfold compile_one in S. unfold Stage in Sg. rewrite E in Sg.
    destruct (take_pending _ _) as [[i r']|] eqn:Tk; [|discriminate].
    destruct (compile_command _ _ _) as [cmd| |] eqn:Ec; try discriminate. injection S as <-. destruct r; try destruct G.
    destruct (take_pending_spec _ _ _ _ Tk) as [<- Pm].
    assert (Hi : In (pi_path i) (sources (s_cfg st))).
    { rewrite <- (like_sources _ _ L). apply in_map. apply (sc_in _ _ _ _ _ Sg).
      apply (Permutation_in i (Permutation_sym Pm)). left. reflexivity. }
    assert (K : cmd <> "") by (intros ->; apply (N2 _ Hi); exact Ec).
    rewrite (run_res_nonempty cmd XOk K). exact O.
  - destruct (s_pc st) as [| | | |[|? ?]| |]; try discriminate. injection S as <-. unfold link_check. rewrite O. cbn [negb].
    destruct (link_pre (d_mt (s_disk st)) (s_user st)) as [u b] eqn:Ep.
    destruct (link_pre_like _ _ _ _ _ L Ep) as (_ & _ & Hb).
    rewrite Hb by (intros p Hp; apply FX; rewrite !in_app_iff in *; tauto). cbn [negb]. exact O.
  - destruct (s_pc st) eqn:E; try discriminate. unfold link_exec in S.
    destruct (link_command _ _ _) as [cmd| |] eqn:Ec; try discriminate. injection S as <-. destruct r; try destruct G.
    assert (K : cmd <> "") by (intros ->; exact (N3 _ Ec)).
    rewrite (run_res_nonempty cmd XOk K). exact O.
  - destruct (storable rg e d0 evs h st T H P V) as (t & Et).
    destruct (s_pc st) eqn:E; try discriminate. unfold end_task in S. rewrite Et in S. destruct w; try destruct G.
    destruct (s_dirty st); injection S as <-; exact O.
Qed.

Theorem good_run_succeeds rg e d0 pre c ord run h st :
  templates_ok e -> history rg e d0 (pre ++ EvStart c ord :: run) h st -> Forall good run -> run <> [] ->
  (forall f, In f (tracked c) -> d_mt (s_disk st) f <> None) ->
  commands_nonempty e c -> Forall valid_utf8 (target_strings (user_of c)) ->
  s_ok st = true.
Proof.
  intros T H F N FX NE V.
  assert (G : forall run h st, history rg e d0 (pre ++ EvStart c ord :: run) h st -> Forall good run ->
     (forall f, In f (tracked c) -> d_mt (s_disk st) f <> None) -> s_pc st <> Idle \/ run <> [] -> s_ok st = true /\ s_cfg st = c).
  { clear run h st H F N FX. induction run as [|ev run IH] using rev_ind; intros h st H F FX N.
    - destruct N as [N|N]; [|congruence]. apply history_snoc_inv in H as (h1 & st1 & _ & _ & S & _).
      cbn [step] in S. destruct (s_pc st1) eqn:E; try discriminate. unfold start in S. destruct (_ || _); [discriminate|].
      destruct (forallb _ _); injection S as <-; [split; reflexivity|]. stp. congruence.
    - apply Forall_app in F as [F1 F2]. inversion F2; subst.
      rewrite app_comm_cons, app_assoc in H. apply history_snoc_inv in H as (h1 & st1 & H1 & _ & S & _).
      destruct (good_mt _ _ _ _ S) as [M1 M2]; [assumption|]. rewrite M1 in FX.
      assert (P1 : s_pc st1 <> Idle).
      { intros K. destruct ev; cbn [good] in *; try contradiction; cbn [step] in S; rewrite K in S; discriminate. }
      destruct (IH h1 st1 H1 F1 FX (or_introl P1)) as [O C]. subst c. split; [|exact M2].
      eapply (good_step_ok rg e d0); eassumption. }
  exact (proj1 (G run h st H F FX (or_intror N))).
Qed.
