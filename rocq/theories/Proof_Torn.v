(** Commands that read a file now and a file later preserve the invariant. *)
From Verif Require Import Prelude Proof_Prelude Model_Path Model_Json Model_Schema Spec_Json Proof_Dec
  Proof_Schema Model_Command Spec_Command Proof_Command Model_ToolchainConfig Model_Target Spec_Target
  Proof_TargetBase Proof_TargetInv Proof_TargetRun Proof_TargetStep Proof_TargetStep2 Proof_TargetMain Model_Torn Spec_Torn.

Section Step.
Context (rg : regime) (e : tenv) (T : templates_ok e).

Local Notation R := (R rg).
Local Notation fresh := (fresh rg).
Local Notation Fresh := (Fresh rg).
Local Notation SafeS := (SafeS rg e).
Local Notation BufInv := (BufInv rg e).
Local Notation Inv := (Inv rg e).
Local Notation RunInv := (RunInv rg e).
Local Notation Stage := (Stage rg e).
Local Notation forcedP := (forcedP rg).
Local Notation mtof st := (d_mt (s_disk st)).

(** What the command saw is what a recorded time stands for, if it can still be met. *)
Definition saw_ok (h : hist) (st : tstate) (saw : times) : Prop :=
  forall i, In i (all_infos (s_user st)) -> rec_ok rg h (mtof st) i (saw (pi_path i)).

Lemma saw_in (h : hist) (st : tstate) (saw : times) (i : pathinfo) (l : infolist) :
  saw_ok h st saw -> incl l (all_infos (s_user st)) -> In i l -> rec_ok rg h (mtof st) i (saw (pi_path i)).
Proof. intros S L Hi. exact (S i (L i Hi)). Qed.

Lemma pch_exec_saw_Inv (h : hist) (st st' : tstate) (r : xres pch_art) (saw : times) :
  s_pc st = PcPchExec -> pch_exec_saw e st r saw = Some st' -> saw_ok h st saw -> Inv h st -> Inv (h_with_taint h (s_cfg st)) st'.
Proof.
  intros Hpc Hx Saw []. assert (RI : RunInv h st) by (apply i_run; congruence). destruct RI.
  unfold Proof_TargetRun.Stage in r_stage. rewrite Hpc in r_stage. destruct r_stage.
  set (h' := h_with_taint h (s_cfg st)).
  assert (HR : Rsub rg h (mtof st) h' (mtof st)) by (apply Rsub_next; reflexivity).
  assert (SS : forall d', d_mt d' = mtof st -> rg = Forward \/ h_taint h' = None ->
            forall s, stored (s_disk st) = Some s -> SafeS h' d' s).
  { intros d' Hd [Fw|K]; [|discriminate]. intros s Hs c' Hc'. apply taint_only in Hc'. subst c'.
    assert (No : forall m, R h' (d_mt d') m -> pchclean s (s_cfg st) m -> False).
    { intros m Hm. apply (sx_forced Fw s m Hs). rewrite Hd in Hm. exact (HR m Hm). }
    repeat split; intros; exfalso; eauto. }
  unfold pch_exec_saw in Hx. destruct (pch_command e (s_cfg st)) as [cmd| |] eqn:Ec; try discriminate.
  injection Hx as <-. destruct (run_res cmd r) as [|lo|] eqn:Er.
  - constructor; stp; try assumption.
    + intros K s Hs. apply SS; [reflexivity|exact K|exact Hs].
    + intros _ _. split; [discriminate|exact sx_dirty].
    + intros _. constructor; stp; try assumption.
      * apply taint_permitted. exact r_perm.
      * rewrite sx_buf. tsp. cbn [ts_default ts_sources app]. intros i Hi.
        apply (Fresh_tracked rg h _ _ (s_user st)); [exact r_like|exact r_fresh|]. unfold all_infos. rewrite !in_app_iff. tauto.
      * rewrite sx_buf. constructor; tsp; [|intros i []|discriminate].
        intros _. split; [exact sx_pch|]. split; [exact (like_pchs _ _ r_like)|].
        eexists. stp. split; [reflexivity|]. split; [reflexivity|]. split; [exact Ec|]. split.
        -- cbn [p_text]. rewrite (like_pchs _ _ r_like). reflexivity.
        -- cbn [p_snap]. intros i Hi. apply Saw. unfold all_infos. rewrite !in_app_iff in *. tauto.
      * unfold Proof_TargetRun.Stage. stp. constructor; stp; rewrite ?sx_buf; tsp; try reflexivity; try congruence.
        -- intros _ _. split; [reflexivity|]. split; [exact sx_hdr|exact sx_pchs].
        -- intros _. split; [exact sx_pch|exact sx_forced].
  - constructor; stp; try assumption.
    + intros K s Hs. apply SS; [reflexivity|exact K|exact Hs].
    + intros _ _. split; [discriminate|exact sx_dirty].
    + intros _. constructor; stp; try assumption.
      * apply taint_permitted. exact r_perm.
      * rewrite sx_buf. apply BufInv_default.
      * unfold Proof_TargetRun.Stage. stp. constructor; stp; rewrite ?sx_buf; try reflexivity; try congruence.
        intros _. split; [exact sx_pch|exact sx_forced].
  - constructor; stp; try assumption.
    + intros K s Hs. apply SS; [reflexivity|exact K|exact Hs].
    + intros _ _. split; [discriminate|exact sx_dirty].
    + intros _. constructor; stp; try assumption.
      * apply taint_permitted. exact r_perm.
      * rewrite sx_buf. apply BufInv_default.
      * unfold Proof_TargetRun.Stage. stp. constructor; stp; rewrite ?sx_buf; try reflexivity; try congruence.
        intros _. split; [exact sx_pch|exact sx_forced].
Qed.

Lemma compile_saw_Inv (h : hist) (st st' : tstate) (s : string) (pend : infolist) (r : xres obj_art) (saw : times) :
  s_pc st = PcCompile pend -> compile_one_saw e st s pend r saw = Some st' -> saw_ok h st saw -> Inv h st ->
  Inv (h_with_taint h (s_cfg st)) st'.
Proof.
  intros Hpc Hx Saw []. assert (RI : RunInv h st) by (apply i_run; congruence). destruct RI.
  unfold Proof_TargetRun.Stage in r_stage. rewrite Hpc in r_stage. destruct r_stage.
  set (h' := h_with_taint h (s_cfg st)).
  assert (HR : Rsub rg h (mtof st) h' (mtof st)) by (apply Rsub_next; reflexivity).
  unfold compile_one_saw in Hx. destruct (take_pending s pend) as [[i rest]|] eqn:Et; [|discriminate].
  destruct (compile_command e (s_cfg st) s) as [cmd| |] eqn:Ec; try discriminate.
  destruct (take_pending_spec _ _ _ _ Et) as [Es Pm]. subst s.
  assert (Ii : In i pend) by (rewrite Pm; left; reflexivity).
  assert (Ir : forall j, In j rest -> In j pend) by (intros j Hj; rewrite Pm; right; exact Hj).
  assert (Dt : s_dirty st = true) by (apply sc_dirty; intros K; rewrite K in Ii; destruct Ii).
  assert (Iu : In i (ts_sources (s_user st))) by exact (sc_in i Ii).
  assert (Ip : In (pi_path i) (sources (s_cfg st))).
  { rewrite <- (like_sources _ _ r_like). apply in_map. exact Iu. }
  assert (NP : npath (pi_path i)).
  { pose proof (sources_npath (s_cfg st)) as K. rewrite Forall_forall in K. exact (K _ Ip). }
  assert (Pp : Permutation (il_paths pend) (pi_path i :: il_paths rest)) by exact (Permutation_map pi_path Pm).
  assert (ND' : NoDup (obj_of e (pi_path i) :: map (obj_of e) (il_paths rest ++ il_paths (ts_sources (s_buf st))))).
  { eapply Permutation_NoDup; [|exact sc_nd]. rewrite Pp. reflexivity. }
  apply NoDup_cons_iff in ND' as [ND1 ND2].
  assert (Oth : forall j, In j (ts_sources (s_buf st)) -> obj_of e (pi_path j) <> obj_of e (pi_path i)).
  { intros j Hj E. apply ND1. rewrite <- E. apply in_map. apply in_app_iff. right. apply in_map. exact Hj. }
  assert (SS : forall d', (d' = s_disk st \/ exists a b, d' = set_obj (s_disk st) (obj_of e (pi_path i)) a b) ->
            rg = Forward \/ h_taint h' = None ->
            forall s, stored (s_disk st) = Some s -> SafeS h' d' s).
  { intros d' Hd [Fw|K]; [|discriminate]. intros s Hs c' Hc'. apply taint_only in Hc'. subst c'.
    destruct (i_safe (or_introl Fw) s Hs (s_cfg st) r_perm) as (S1 & S2 & S3).
    assert (Hmt : d_mt d' = mtof st) by (destruct Hd as [->|(a & b & ->)]; reflexivity). rewrite !Hmt. repeat split.
    - intros m Hm P C. pose proof (S1 m (HR m Hm) P C) as G. destruct Hd as [->|(a & b & ->)]; exact G.
    - intros m1 m2 Hm1 Hm2 C1 C2 p Hp M. pose proof (S2 m1 m2 (HR _ Hm1) (HR _ Hm2) C1 C2 p Hp M) as G.
      destruct Hd as [->|(a & b & ->)]; [exact G|]. apply obj_current_other; [|exact G].
      intros E. assert (p = pi_path i) as -> by exact (NoDup_map_inj _ _ _ _ (proj1 r_perm) Hp Ip E).
      destruct (sc_forced Fw s m1 m2 Hs (HR _ Hm1) (HR _ Hm2) C1 C2) as [K _]. exact (K i Ii M).
    - intros m1 m2 m3 Hm1 Hm2 Hm3 C1 C2 C3. exfalso.
      destruct (sc_forced Fw s m1 m2 Hs (HR _ Hm1) (HR _ Hm2) C1 C2) as [_ K]. exact (K Dt C3). }
  assert (FC : rg = Forward -> forall s m1 m2, stored (s_disk st) = Some s ->
    R h' (mtof st) m1 -> R h' (mtof st) m2 ->
    (pchs (s_cfg st) <> [] -> pchclean s (s_cfg st) m1) -> objclean s (s_cfg st) m2 ->
    (forall i, In i rest -> ~ matches s m2 (pi_path i)) /\
    (s_dirty st = true -> ~ srcclean s (s_cfg st) m2)).
  { intros Fw s m1 m2 Hs Hm1 Hm2 C1 C2.
    destruct (sc_forced Fw s m1 m2 Hs (HR _ Hm1) (HR _ Hm2) C1 C2) as [K1 K2]. split; [|exact K2].
    intros j Hj. apply K1. exact (Ir j Hj). }
  assert (BIo : forall a b, BufInv h' (set_obj (s_disk st) (obj_of e (pi_path i)) a b) (s_cfg st) (s_user st) (s_buf st)).
  { intros a b. destruct r_buf. constructor.
    - intros K. destruct (b_pch K) as (A & B & C). split; [exact A|]. split; [exact B|]. exact C.
    - intros j Hj. destruct (b_src j Hj) as [A B]. split; [exact A|].
      apply (ObjGood_other rg e h h'); [exact HR|exact (Oth j Hj)|exact B].
    - congruence. }
  injection Hx as <-. destruct (run_res cmd r) as [|lo|] eqn:Er.
  - constructor; stp; try assumption.
    + intros K s Hs. apply SS; [right; eauto|exact K|exact Hs].
    + intros _ _. split; [discriminate|exact Dt].
    + intros _. constructor; stp; try assumption.
      * apply taint_permitted. exact r_perm.
      * rewrite (add_source_npath _ _ NP). tsp. intros j Hj. rewrite !in_app_iff in Hj.
        destruct Hj as [[Hj|[<-|[]]]|Hj].
        -- apply r_freshb. apply in_app_iff. left. exact Hj.
        -- apply (Fresh_tracked rg h _ _ (s_user st)); [exact r_like|exact r_fresh|].
           unfold all_infos. apply in_app_iff. left. exact Iu.
        -- apply r_freshb. apply in_app_iff. right. exact Hj.
      * rewrite (add_source_npath _ _ NP).
        destruct (BIo (Some (OA cmd saw (d_pch (s_disk st)))) false). constructor; tsp; [exact b_pch| |congruence].
        intros j Hj. apply in_app_iff in Hj as [Hj|[<-|[]]]; [exact (b_src j Hj)|]. split; [exact Ip|].
        eexists. stp. rewrite !upd_same. split; [reflexivity|]. split; [reflexivity|]. split; [exact Ec|].
        split; [|reflexivity]. cbn [a_snap]. intros j [<-|Hj]; apply Saw; unfold all_infos; rewrite !in_app_iff in *; tauto.
      * unfold Proof_TargetRun.Stage. stp. rewrite (add_source_npath _ _ NP).
        assert (Pq : Permutation (il_paths rest ++ il_paths (ts_sources (s_buf st) ++ [i]))
                       (il_paths pend ++ il_paths (ts_sources (s_buf st)))).
        { rewrite Pp. unfold il_paths. rewrite map_app. cbn [map app]. rewrite app_assoc.
          symmetry. apply Permutation_cons_append. }
        constructor; stp; tsp; try assumption; auto.
        -- rewrite Pq. exact sc_nd.
        -- intros O. destruct (sc_ok O) as [A B]. split; [rewrite Pq; exact A|exact B].
        -- intros O E. destruct (sc_now O E) as (A & B & C & D). unfold nowObj. stp. tsp. repeat split; auto.
           intros j Hj. apply D. rewrite !in_app_iff in *. destruct Hj as [Hj|[Hj|[<-|[]]]]; auto.
  - constructor; stp; try assumption.
    + intros K s Hs. apply SS; [right; eauto|exact K|exact Hs].
    + intros _ _. split; [discriminate|exact Dt].
    + intros _. constructor; stp; try assumption; try (apply BIo).
      * apply taint_permitted. exact r_perm.
      * unfold Proof_TargetRun.Stage. stp. constructor; stp; tsp; try assumption; try discriminate; auto.
  - constructor; stp; try assumption.
    + intros K s Hs. apply SS; [right; eauto|exact K|exact Hs].
    + intros _ _. split; [discriminate|exact Dt].
    + intros _. constructor; stp; try assumption; try (apply BIo).
      * apply taint_permitted. exact r_perm.
      * unfold Proof_TargetRun.Stage. stp. constructor; stp; tsp; try assumption; try discriminate; auto.
Qed.

Lemma link_exec_saw_Inv (h : hist) (st st' : tstate) (r : xres tgt_art) (saw : times) :
  s_pc st = PcLinkExec -> link_exec_saw e st r saw = Some st' -> saw_ok h st saw -> Inv h st -> Inv (h_with_taint h (s_cfg st)) st'.
Proof.
  intros Hpc Hx Saw []. assert (RI : RunInv h st) by (apply i_run; congruence). destruct RI.
  unfold Proof_TargetRun.Stage in r_stage. rewrite Hpc in r_stage. destruct r_stage.
  set (h' := h_with_taint h (s_cfg st)).
  assert (HR : Rsub rg h (mtof st) h' (mtof st)) by (apply Rsub_next; reflexivity).
  assert (SS : forall d', (d' = s_disk st \/ exists a b, d' = set_tgt (s_disk st) a b) ->
            rg = Forward \/ h_taint h' = None ->
            forall s, stored (s_disk st) = Some s -> SafeS h' d' s).
  { intros d' Hd [Fw|K]; [|discriminate]. intros s Hs c' Hc'. apply taint_only in Hc'. subst c'.
    destruct (i_safe (or_introl Fw) s Hs (s_cfg st) r_perm) as (S1 & S2 & S3).
    assert (Hmt : d_mt d' = mtof st) by (destruct Hd as [->|(a & b & ->)]; reflexivity). rewrite !Hmt. repeat split.
    - intros m Hm P C. pose proof (S1 m (HR m Hm) P C) as G. destruct Hd as [->|(a & b & ->)]; exact G.
    - intros m1 m2 Hm1 Hm2 C1 C2 p Hp M. pose proof (S2 m1 m2 (HR _ Hm1) (HR _ Hm2) C1 C2 p Hp M) as G.
      destruct Hd as [->|(a & b & ->)]; exact G.
    - intros m1 m2 m3 Hm1 Hm2 Hm3 C1 C2 C3 C4. exfalso.
      exact (sl_forced Fw s m1 m2 m3 Hs (HR _ Hm1) (HR _ Hm2) (HR _ Hm3) C1 C2 C3 C4). }
  assert (BIo : forall a b, BufInv h' (set_tgt (s_disk st) a b) (s_cfg st) (s_user st) (s_buf st)).
  { intros a b. destruct r_buf. constructor; [exact b_pch|exact b_src|congruence]. }
  unfold link_exec_saw in Hx. destruct (link_command e (s_cfg st) (s_ord st)) as [cmd| |] eqn:Ec; try discriminate.
  injection Hx as <-. destruct (run_res cmd r) as [|lo|] eqn:Er.
  - constructor; stp; try assumption.
    + intros K s Hs. apply SS; [right; eauto|exact K|exact Hs].
    + intros _ _. split; [discriminate|exact sl_dirty].
    + intros _. constructor; stp; try assumption.
      * apply taint_permitted. exact r_perm.
      * destruct (BIo (Some (TA cmd saw (d_obj (s_disk st)))) false). constructor; tsp; [exact b_pch|exact b_src|].
        intros _. split.
        -- eexists. exists (s_ord st). stp. split; [reflexivity|]. split; [reflexivity|]. split; [exact r_ord|].
           split; [exact Ec|]. split; [|reflexivity]. cbn [l_snap]. intros i Hi. apply Saw. unfold all_infos. rewrite !in_app_iff in *. tauto.
        -- intros p Hp. rewrite sl_perm. exact Hp.
      * unfold Proof_TargetRun.Stage. stp. constructor; stp; [|congruence]. intros _ _. tsp.
        split; [exact sl_perm|]. split; [exact sl_pch|]. split; [reflexivity|].
        intros E. destruct (sl_now E) as [A B]. split; [exact A|exact B].
  - constructor; stp; try assumption.
    + intros K s Hs. apply SS; [right; eauto|exact K|exact Hs].
    + intros _ _. split; [discriminate|exact sl_dirty].
    + intros _. constructor; stp; try assumption; try (apply BIo).
      * apply taint_permitted. exact r_perm.
      * unfold Proof_TargetRun.Stage. stp. constructor; stp; discriminate.
  - constructor; stp; try assumption.
    + intros K s Hs. apply SS; [right; eauto|exact K|exact Hs].
    + intros _ _. split; [discriminate|exact sl_dirty].
    + intros _. constructor; stp; try assumption; try (apply BIo).
      * apply taint_permitted. exact r_perm.
      * unfold Proof_TargetRun.Stage. stp. constructor; stp; discriminate.
Qed.
End Step.
