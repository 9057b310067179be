(** Programs with several builders: the invariant is kept by every event. *)
From Verif Require Import Prelude Proof_Prelude Model_Path Model_Schema Model_Command Model_ToolchainConfig Model_Target
  Spec_Target Proof_TargetBase Proof_TargetInv Proof_TargetRun Proof_TargetMain Model_Reg Spec_Reg Proof_Reg Proof_RegRun
  Model_Project Spec_Project Proof_Project.

Section Project.
Context (rg : regime).
Local Notation TInv := (TInv rg).

Record PInv (p : project) (h : phist) (ed : bool) : Prop := {
  pi_ids : NoDup (map fst (p_targets p));
  pi_tgt : forall id e st, In (id, (e, st)) (p_targets p) -> TInv (p_built p) (p_run p) (p_ok p) ed id e st (h id);
  pi_nd : NoDup (map fst (p_built p));
  pi_built : forall id, In id (map fst (p_built p)) -> In id (map fst (p_targets p));
  pi_none : p_run p = None -> p_ok p = true;
  pi_run : forall w r x, p_run p = Some (w, r, x) -> XInv w (rg_built r) (rg_edges r) x /\ wired p r }.

Lemma writes_same p p' b f :
  map (fun x => (fst x, fst (snd x))) (p_targets p') = map (fun x => (fst x, fst (snd x))) (p_targets p) ->
  p_gens p' = p_gens p -> writes p' b f -> writes p b f.
Proof.
  intros E G [(e & st & H & ->)|H]; [left|right; rewrite <- G; exact H].
  assert (K : In (b, e) (map (fun x => (fst x, fst (snd x))) (p_targets p))).
  { rewrite <- E. apply (in_map (fun x => (fst x, fst (snd x))) _ _ H). }
  apply in_map_iff in K as ([b' [e' st']] & K1 & K2). cbn in K1. injection K1 as -> ->. exists e, st'. auto.
Qed.
Lemma wired_same p p' r :
  map (fun x => (fst x, fst (snd x))) (p_targets p') = map (fun x => (fst x, fst (snd x))) (p_targets p) ->
  p_gens p' = p_gens p -> p_built p' = p_built p -> wired p r -> wired p' r.
Proof.
  intros E G B W b a f c H1 H2 H3 H4 H5. rewrite B in H4. exact (W b a f c H1 (writes_same _ _ _ _ E G H2) H3 H4 H5).
Qed.

(** What a running builder writes is harmless for every target. *)
Lemma write_harmless p h ed w r x b f id e st :
  PInv p h ed -> p_run p = Some (w, r, x) -> In b (x_running x) -> writes p b f ->
  In (id, (e, st)) (p_targets p) -> harmless (p_built p) id st f.
Proof.
  intros P Er Ru W Hi. destruct (pi_run _ _ _ P w r x Er) as [X Wi]. pose proof (pi_tgt _ _ _ P id e st Hi) as T.
  unfold harmless. destruct (assoc id (p_built p)) as [c|] eqn:Ec; [right|left; reflexivity].
  destruct (mem_str f (tracked (s_cfg st))) eqn:M; [left|right; apply mem_str_false; exact M]. apply mem_str_In in M.
  rewrite (ti_cfg _ _ _ _ _ _ _ _ _ T c Ec) in M.
  apply (ti_early _ _ _ _ _ _ _ _ _ T c w r x Ec Er). intros K.
  assert (Ir : In id (rg_built r)) by (destruct X as [_ _ _ XB _]; exact (XB _ K)).
  assert (Br : In b (rg_built r)) by (destruct X as [? ? ? XB ?]; apply XB; apply (running_started w (rg_built r) (rg_edges r) x b); [constructor; assumption|exact Ru]).
  pose proof (Wi b id f c Br W Ir (assoc_In _ _ _ Ec) M) as Be.
  exact (running_not_finished _ _ _ _ _ X Ru (started_deps _ _ _ _ _ _ X K Be)).
Qed.

Lemma ptrack_at p h ev id e st : NoDup (map fst (p_targets p)) -> In (id, (e, st)) (p_targets p) ->
  ptrack p h ev id = tracks e (h id) st (delivered p ev id st).
Proof. intros N H. unfold ptrack. rewrite (assoc_NoDup_In _ _ _ N H). reflexivity. Qed.

Lemma later_at p h f t id e st : later h p f t -> In (id, (e, st)) (p_targets p) ->
  forall v, t = Some v -> (h_next (h id) f <= v)%N.
Proof. intros L H v E. apply (L v id E). apply (in_map fst _ _ H). Qed.

(** Each target keeps its invariant. *)
Lemma target_kept p h ed ev built run ok id e st st' :
  PInv p h ed -> padmissible rg p h ev -> process p ev = Some (built, run, ok) ->
  In (id, (e, st)) (p_targets p) -> exec e st (delivered p ev id st) = Some st' ->
  TInv built run ok (edited_after ed ev) id e st' (tracks e (h id) st (delivered p ev id st)).
Proof.
  intros P A S Hi X. pose proof (pi_tgt _ _ _ P id e st Hi) as T. pose proof (pi_ids _ _ _ P) as Nd.
  pose proof (assoc_NoDup_In _ _ _ Nd Hi) as Ha.
  destruct ev as [f t|i|i c ord|w r|i|i ev t|i f t|i|i okk|l]; cbn [process padmissible edited_after] in *.
  - (* PEdit *)
    injection S as <- <- <-. cbn [delivered exec step tracks] in *. injection X as <-.
    apply (user_edit rg _ _ _ ed); [exact T|exact (proj2 A id e st Hi)].
  - (* PForget *)
    destruct (mem_str i _); [|discriminate]. injection S as <- <- <-. cbn [delivered] in *.
    destruct (String.eqb_spec i id) as [->|N]; cbn [exec step tracks] in *; injection X as <-; [|exact T].
    pose proof (A e st Hi) as Pc. destruct T as [I0 I1 I2 I3 I4 I5 I6 I7 I8 I9].
    constructor; cbn [s_pc s_cfg s_ok with_disk s_disk track h_edited]; try assumption.
    destruct I1 as (d0 & evs & I1). exists d0, (evs ++ [EvDropStore]).
    apply (history_snoc _ _ _ _ _ _ EvDropStore _ I1 Pc). reflexivity.
  - (* PBuild *)
    destruct (p_run p) eqn:Er; [discriminate|]. destruct (assoc i (p_targets p)) as [[e1 st1]|] eqn:Ei; [|discriminate].
    destruct (assoc i (p_built p)) eqn:Eb; [discriminate|]. destruct (forallb _ _) eqn:Fo; [|discriminate].
    injection S as <- <- <-. cbn [delivered] in *.
    assert (Ab : forall j c', assoc j (p_built p ++ [(i, c)]) = Some c' ->
              (j = i /\ c' = c) \/ (j <> i /\ assoc j (p_built p) = Some c')).
    { intros j c'. rewrite assoc_app. destruct (assoc j (p_built p)) eqn:E.
      - intros [= <-]. right. split; [congruence|reflexivity].
      - cbn [assoc]. destruct (String.eqb_spec j i) as [->|]; [|discriminate]. intros [= <-]. left. auto. }
    destruct (String.eqb_spec i id) as [->|N].
    + rewrite Ha in Ei. injection Ei as <- <-. cbn [exec tracks] in *. destruct (step e st (EvStart c ord)) as [s1|] eqn:St; [|discriminate].
      injection X as <-. pose proof (ti_unbuilt _ _ _ _ _ _ _ _ _ T Eb) as Pc.
      assert (St' := St). cbn [step] in St'. rewrite Pc in St'. unfold start in St'. rewrite Fo in St'.
      destruct (negb _ || _); [discriminate|]. injection St' as <-.
      assert (BC : before_checks (ST (s_disk st) (if contains_pch c then PcPch else PcObj) c ord (user_of c)
             (stored (s_disk st)) ts_default false true (s_log st))).
      { unfold before_checks. cbn [s_pc s_cfg]. destruct (contains_pch c); auto. }
      constructor; try discriminate.
      * exact (ti_temp _ _ _ _ _ _ _ _ _ T).
      * destruct (ti_hist _ _ _ _ _ _ _ _ _ T) as (d0 & evs & I1). exists d0, (evs ++ [EvStart c ord]).
        apply (history_snoc _ _ _ _ _ _ (EvStart c ord) _ I1 (A e st Hi)). exact St.
      * intros K. rewrite assoc_app, Eb in K. cbn [assoc] in K. rewrite String.eqb_refl in K. discriminate.
      * intros c' K. destruct (Ab _ _ K) as [[_ ->]|[K1 _]]; [reflexivity|congruence].
      * intros c' K _. split; [exact BC|]. split; reflexivity.
    + cbn [exec tracks] in *. injection X as <-. destruct T as [I0 I1 I2 I3 I4 I5 I6 I7 I8 I9]. constructor; try assumption; try discriminate.
      * intros K. apply I2. rewrite assoc_app in K. destruct (assoc id (p_built p)); [discriminate|reflexivity].
      * intros c' K. destruct (Ab _ _ K) as [[K1 _]|[_ K1]]; [congruence|exact (I3 c' K1)].
      * intros c' K _. destruct (Ab _ _ K) as [[K1 _]|[_ K1]]; [congruence|]. exact (I4 c' K1 eq_refl).
  - (* PRun *)
    destruct (p_run p) eqn:Er; [discriminate|]. injection S as <- <- <-. cbn [delivered exec tracks] in *. injection X as <-.
    destruct T as [I0 I1 I2 I3 I4 I5 I6 I7 I8 I9]. constructor; try assumption; try discriminate.
    + intros c w' r' x Hc _ _. apply (I4 c Hc eq_refl).
    + intros c w' r' x Hc [= <- <- <-] K. destruct K.
    + intros c w' r' x Hc _ _. apply (I4 c Hc eq_refl).
    + intros c w' r' x Hc _ _. apply (I4 c Hc eq_refl).
    + intros c w' r' x Hc _ _ Pc. destruct (I4 c Hc eq_refl) as [B _]. apply before_not_idle in B. contradiction.
  - (* PBegin *)
    destruct (p_run p) as [[[w r] x]|] eqn:Er; [|discriminate]. destruct (xstep _ _ _ _ _) as [x'|] eqn:Xs; [|discriminate].
    injection S as <- <- <-. cbn [delivered exec tracks] in *. injection X as <-.
    cbn [xstep] in Xs. destruct (_ && _) in Xs; [|discriminate]. injection Xs as <-.
    destruct T as [I0 I1 I2 I3 I4 I5 I6 I7 I8 I9]. constructor; try assumption; try discriminate.
    + intros c w' r' x' Hc [= <- <- <-] K. cbn [x_log] in K. apply (I5 c w r x Hc eq_refl). intros K'. apply K.
      rewrite starts_app. apply in_app_iff. left. exact K'.
    + intros c w' r' x' Hc [= <- <- <-] K. cbn [x_log] in K. apply (I6 c w r x Hc eq_refl).
      rewrite finishes_app in K. cbn in K. rewrite app_nil_r in K. exact K.
    + intros c w' r' x' Hc _. exact (I7 c w r x Hc eq_refl).
    + intros c w' r' x' Hc _. exact (I8 c w r x Hc eq_refl).
    + intros c w' r' x' Hc _. exact (I9 c w r x Hc eq_refl).
  - (* PStep *)
    destruct (p_run p) as [[[w r] x]|] eqn:Er; [|discriminate].
    destruct (assoc i (p_targets p)) as [[ei sti]|] eqn:Ei; [|discriminate].
    destruct (assoc i (p_built p)) as [ci|] eqn:Eb; [|discriminate].
    destruct (mem_str i (x_running x) && in_taskflow ev && _) eqn:Co; [|discriminate].
    apply andb_true_iff in Co as [Co Ct]. apply andb_true_iff in Co as [Cr Cf]. apply mem_str_In in Cr.
    destruct (step ei sti ev) as [sti'|] eqn:Si; [|discriminate]. injection S as <- <- <-.
    pose proof (assoc_In _ _ _ Ei) as Hii. pose proof (A ei sti sti' Hii Si) as [A1 A2].
    assert (W : writes p i (out_file ei)) by (left; exists ei, sti; auto).
    destruct (pi_run _ _ _ P w r x Er) as [XI _].
    cbn [delivered] in *. rewrite Ei, Si in *.
    assert (La : forall v, t = Some (Some v) -> (h_next (h id) (out_file ei) <= v)%N).
    { intros v ->. exact (later_at _ _ _ _ _ _ _ A2 Hi v eq_refl). }
    destruct (String.eqb_spec i id) as [->|N].
    + rewrite Ha in Ei. injection Ei as <- <-. rewrite app_nil_r in *. cbn [app exec tracks] in *. rewrite Si in *.
      pose proof (own_step rg _ _ _ _ _ _ _ _ _ _ _ _ _ T Eb XI Cr Cf A1 Si) as T1.
      destruct t as [t'|]; cbn [exec step tracks] in *; injection X as <-; [|exact T1].
      pose proof (write_harmless p h ed w r x id (out_file e) id e st P Er Cr W Hi) as Hm.
      apply harmless_edit; [exact T1| |].
      * destruct Hm as [Hm|[Hm|Hm]]; [congruence| |].
        -- exfalso. destruct Hm as [Hm|[Hm _]]; destruct ev; try discriminate; cbn [step] in Si; rewrite Hm in Si; discriminate.
        -- right. right. destruct (taskflow_step _ _ _ _ Cf Si) as (Sc & _). rewrite Sc. exact Hm.
      * intros _ v ->. destruct ev; try discriminate. exact (La v eq_refl).
    + cbn [app] in *. destruct t as [t'|]; cbn [app exec step tracks] in *.
      * pose proof (write_harmless p h ed w r x i (out_file ei) id e st P Er Cr W Hi) as Hm.
        assert (T1 := harmless_edit rg _ _ _ _ _ _ _ _ _ t' T Hm (fun _ v E => La v (f_equal Some E))).
        match type of X with exec e ?s1 _ = _ => set (s1' := s1) in * end.
        replace (fail_others (negb (s_ok sti')) st) with (fail_others (negb (s_ok sti')) s1') in * by reflexivity.
        pose proof (fail_others_TInv rg _ _ _ _ _ _ _ _ _ _ T1 ltac:(discriminate) X) as T2.
        rewrite negb_involutive in T2. exact T2.
      * pose proof (fail_others_TInv rg _ _ _ _ _ _ _ _ _ _ T ltac:(discriminate) X) as T2.
        rewrite negb_involutive in T2. exact T2.
  - (* PWrite *)
    destruct (p_run p) as [[[w r] x]|] eqn:Er; [|discriminate].
    destruct (assoc i (p_gens p)) as [fs|] eqn:Eg; [|discriminate].
    destruct (mem_str i (x_running x) && mem_str f fs) eqn:Co; [|discriminate].
    apply andb_true_iff in Co as [Cr Cf]. apply mem_str_In in Cr, Cf. injection S as <- <- <-.
    cbn [delivered exec step tracks] in *. injection X as <-.
    apply harmless_edit; [exact T| |].
    + apply (write_harmless p h ed w r x i f id e st P Er Cr); [|exact Hi]. right. exists fs. split; [exact (assoc_In _ _ _ Eg)|exact Cf].
    + intros F. exact (later_at _ _ _ _ _ _ _ (proj2 A F) Hi).
  - (* PFail *)
    destruct (p_run p) as [[[w r] x]|] eqn:Er; [|discriminate]. destruct (assoc i (p_targets p)) eqn:Ei; [discriminate|].
    destruct (assoc i (p_gens p)) eqn:Eg; [|discriminate]. destruct (mem_str i (x_running x)); [|discriminate]. injection S as <- <- <-.
    cbn [delivered] in *. pose proof (fail_others_TInv rg _ _ _ _ _ _ _ _ _ _ T ltac:(discriminate) X) as T2.
    cbn [negb] in T2. rewrite andb_false_r in T2. exact T2.
  - (* PEnd *)
    destruct (p_run p) as [[[w r] x]|] eqn:Er; [|discriminate]. destruct (xstep _ _ _ _ _) as [x'|] eqn:Xs; [|discriminate].
    cbn [xstep] in Xs. destruct (mem_str i (x_running x)) eqn:Mr in Xs; [|discriminate]. injection Xs as <-.
    set (x' := XS _ _ _) in *.
    assert (T1 : forall ok', (forall c, i = id -> assoc id (p_built p) = Some c -> s_pc st = Idle) ->
      TInv (p_built p) (Some (w, r, x)) ok' ed id e st (h id) -> TInv (p_built p) (Some (w, r, x')) ok' ed id e st (h id)).
    { intros ok' Hid [I0 I1 I2 I3 I4 I5 I6 I7 I8 I9]. constructor; try assumption; try discriminate.
      - intros c w' r' y Hc [= <- <- <-] K. apply (I5 c w r x Hc eq_refl). intros K'. apply K.
        unfold x'. cbn [x_log]. rewrite starts_app. apply in_app_iff. left. exact K'.
      - intros c w' r' y Hc [= <- <- <-] K. unfold x' in K. cbn [x_log] in K. rewrite finishes_app in K.
        apply in_app_iff in K as [K|K]; [exact (I6 c w r x Hc eq_refl K)|]. cbn in K. destruct K as [K|[]]. exact (Hid c K Hc).
      - intros c w' r' y Hc _. exact (I7 c w r x Hc eq_refl).
      - intros c w' r' y Hc _. exact (I8 c w r x Hc eq_refl).
      - intros c w' r' y Hc _. exact (I9 c w r x Hc eq_refl). }
    cbn [delivered] in *. destruct (assoc i (p_targets p)) as [[ei sti]|] eqn:Ei.
    + cbn [exec tracks] in *. injection X as <-. destruct (assoc i (p_built p)) as [ci|] eqn:Eb.
      * destruct (negb (running sti) && Bool.eqb okk (s_ok sti)) eqn:Co; [|discriminate]. injection S as <- <- <-.
        apply T1; [|exact T]. intros c -> _. rewrite Ha in Ei. injection Ei as <- <-.
        apply andb_true_iff in Co as [Co _]. unfold running in Co. destruct (s_pc st); try discriminate. reflexivity.
      * destruct okk; [|discriminate]. injection S as <- <- <-. apply T1; [|exact T]. intros c -> K. congruence.
    + destruct (implb okk (p_ok p)); [|discriminate]. injection S as <- <- <-.
      pose proof (fail_others_TInv rg _ _ _ _ _ _ _ _ _ _ T ltac:(discriminate) X) as T2. rewrite negb_involutive in T2.
      revert T2. generalize (tracks e (h id) st (fail_others (negb okk) st)). intros h2 T2.
      destruct T2 as [I0 I1 I2 I3 I4 I5 I6 I7 I8 I9]. constructor; try assumption; try discriminate.
      * intros c w' r' y Hc [= <- <- <-] K. apply (I5 c w r x Hc eq_refl). intros K'. apply K.
        unfold x'. cbn [x_log]. rewrite starts_app. apply in_app_iff. left. exact K'.
      * intros c w' r' y Hc [= <- <- <-] K. unfold x' in K. cbn [x_log] in K. rewrite finishes_app in K.
        apply in_app_iff in K as [K|K]; [exact (I6 c w r x Hc eq_refl K)|]. cbn in K. destruct K as [K|[]]. congruence.
      * intros c w' r' y Hc _. exact (I7 c w r x Hc eq_refl).
      * intros c w' r' y Hc _. exact (I8 c w r x Hc eq_refl).
      * intros c w' r' y Hc _. exact (I9 c w r x Hc eq_refl).
  - (* PStop *)
    injection S as <- <- <-. cbn [delivered] in *. destruct T as [I0 I1 I2 I3 I4 I5 I6 I7 I8 I9].
    destruct (running st) eqn:Ru.
    + pose proof (A id e st Hi Ru) as A1. destruct (assoc id l) as [n|]; cbn [exec tracks] in *.
      * destruct (step e st (EvCrashEnd n)) as [s1|] eqn:St; [|discriminate]. injection X as <-.
        constructor; try discriminate; try assumption.
        -- destruct I1 as (d0 & evs & I1). exists d0, (evs ++ [EvCrashEnd n]).
           exact (history_snoc _ _ _ _ _ _ (EvCrashEnd n) _ I1 Logic.I St).
        -- intros _. cbn [step] in St. destruct (s_pc st); try discriminate. destruct (s_dirty st); [|discriminate].
           destruct (bind _ _); [|discriminate]. injection St as <-. reflexivity.
      * destruct (step e st EvCrash) as [s1|] eqn:St; [|discriminate]. injection X as <-.
        constructor; try discriminate; try assumption.
        -- destruct I1 as (d0 & evs & I1). exists d0, (evs ++ [EvCrash]).
           exact (history_snoc _ _ _ _ _ _ EvCrash _ I1 A1 St).
        -- intros _. cbn [step] in St. destruct (s_pc st); try discriminate; injection St as <-; reflexivity.
    + cbn [exec tracks] in *. injection X as <-. constructor; try discriminate; try assumption.
      intros _. unfold running in Ru. destruct (s_pc st); try discriminate. reflexivity.
Qed.

Lemma PInv_step p h ed ev p' : PInv p h ed -> padmissible rg p h ev -> pstep p ev = Some p' ->
  PInv p' (ptrack p h ev) (edited_after ed ev).
Proof.
  intros P A S. unfold pstep in S. destruct (process p ev) as [[[built run] ok]|] eqn:Ep; [|discriminate].
  destruct (deliver p ev (p_targets p)) as [ts|] eqn:Ed; [|discriminate]. injection S as <-.
  pose proof (deliver_ids _ _ _ _ Ed) as Ids. pose proof (deliver_outs _ _ _ _ Ed) as Outs.
  constructor; cbn [p_targets p_built p_run p_ok].
  - rewrite Ids. exact (pi_ids _ _ _ P).
  - intros id e st' Hi. destruct (deliver_In _ _ _ _ _ _ _ Ed Hi) as (st & H1 & H2).
    rewrite (ptrack_at p h ev id e st (pi_ids _ _ _ P) H1). exact (target_kept p h ed ev _ _ _ id e st st' P A Ep H1 H2).
  - destruct ev; cbn [process] in Ep; try (injection Ep as <- <- <-; first [exact (pi_nd _ _ _ P)|constructor]).
    + destruct (mem_str _ _); [|discriminate]. injection Ep as <- <- <-. exact (pi_nd _ _ _ P).
    + destruct (p_run p); [discriminate|]. destruct (assoc id (p_targets p)) as [[e st]|]; [|discriminate].
      destruct (assoc id (p_built p)) eqn:Eb; [discriminate|]. destruct (forallb _ _); [|discriminate]. injection Ep as <- <- <-.
      rewrite map_app. cbn [map fst]. apply assoc_None in Eb. apply (Permutation_NoDup (Permutation_cons_append _ _)).
      constructor; [exact Eb|exact (pi_nd _ _ _ P)].
    + destruct (p_run p); [discriminate|]. injection Ep as <- <- <-. exact (pi_nd _ _ _ P).
    + destruct (p_run p) as [[[w r] x]|]; [|discriminate]. destruct (xstep _ _ _ _ _); [|discriminate]. injection Ep as <- <- <-. exact (pi_nd _ _ _ P).
    + destruct (p_run p) as [[[w r] x]|]; [|discriminate]. destruct (assoc id (p_targets p)) as [[e st]|]; [|discriminate].
      destruct (assoc id (p_built p)); [|discriminate]. destruct (_ && _ && _); [|discriminate]. destruct (step _ _ _); [|discriminate].
      injection Ep as <- <- <-. exact (pi_nd _ _ _ P).
    + destruct (p_run p) as [[[w r] x]|]; [|discriminate]. destruct (assoc id (p_gens p)); [|discriminate].
      destruct (_ && _); [|discriminate]. injection Ep as <- <- <-. exact (pi_nd _ _ _ P).
    + destruct (p_run p) as [[[w r] x]|]; [|discriminate]. destruct (assoc id (p_targets p)); [discriminate|]. destruct (assoc id (p_gens p)); [|discriminate].
      destruct (mem_str _ _); [|discriminate]. injection Ep as <- <- <-. exact (pi_nd _ _ _ P).
    + destruct (p_run p) as [[[w r] x]|]; [|discriminate]. destruct (xstep _ _ _ _ _); [|discriminate].
      destruct (assoc id (p_targets p)) as [[e st]|]; [destruct (assoc id (p_built p)); [destruct (_ && _)|destruct ok0]|destruct (implb _ _)];
        try discriminate; injection Ep as <- <- <-; exact (pi_nd _ _ _ P).
  - rewrite Ids. intros id Hid. destruct ev; cbn [process] in Ep; try (injection Ep as <- <- <-; first [exact (pi_built _ _ _ P id Hid)|destruct Hid]).
    + destruct (mem_str _ _); [|discriminate]. injection Ep as <- <- <-. exact (pi_built _ _ _ P id Hid).
    + destruct (p_run p); [discriminate|]. destruct (assoc id0 (p_targets p)) as [[e st]|] eqn:Et; [|discriminate].
      destruct (assoc id0 (p_built p)) eqn:Eb; [discriminate|]. destruct (forallb _ _); [|discriminate]. injection Ep as <- <- <-.
      rewrite map_app in Hid. apply in_app_iff in Hid as [Hid|[<-|[]]]; [exact (pi_built _ _ _ P id Hid)|].
      apply assoc_In in Et. apply (in_map fst _ _ Et).
    + destruct (p_run p); [discriminate|]. injection Ep as <- <- <-. exact (pi_built _ _ _ P id Hid).
    + destruct (p_run p) as [[[w r] x]|]; [|discriminate]. destruct (xstep _ _ _ _ _); [|discriminate]. injection Ep as <- <- <-. exact (pi_built _ _ _ P id Hid).
    + destruct (p_run p) as [[[w r] x]|]; [|discriminate]. destruct (assoc id0 (p_targets p)) as [[e st]|]; [|discriminate].
      destruct (assoc id0 (p_built p)); [|discriminate]. destruct (_ && _ && _); [|discriminate]. destruct (step _ _ _); [|discriminate].
      injection Ep as <- <- <-. exact (pi_built _ _ _ P id Hid).
    + destruct (p_run p) as [[[w r] x]|]; [|discriminate]. destruct (assoc id0 (p_gens p)); [|discriminate].
      destruct (_ && _); [|discriminate]. injection Ep as <- <- <-. exact (pi_built _ _ _ P id Hid).
    + destruct (p_run p) as [[[w r] x]|]; [|discriminate]. destruct (assoc id0 (p_targets p)); [discriminate|]. destruct (assoc id0 (p_gens p)); [|discriminate].
      destruct (mem_str _ _); [|discriminate]. injection Ep as <- <- <-. exact (pi_built _ _ _ P id Hid).
    + destruct (p_run p) as [[[w r] x]|]; [|discriminate]. destruct (xstep _ _ _ _ _); [|discriminate].
      destruct (assoc id0 (p_targets p)) as [[e st]|]; [destruct (assoc id0 (p_built p)); [destruct (_ && _)|destruct ok0]|destruct (implb _ _)];
        try discriminate; injection Ep as <- <- <-; exact (pi_built _ _ _ P id Hid).
  - intros Hr. subst run. destruct ev; cbn [process] in Ep; try (injection Ep as _ E1 <-; first [exact (pi_none _ _ _ P E1)|reflexivity]).
    + destruct (mem_str _ _); [|discriminate]. injection Ep as _ E1 <-. exact (pi_none _ _ _ P E1).
    + destruct (p_run p) eqn:Er; [discriminate|]. destruct (assoc id (p_targets p)) as [[e st]|]; [|discriminate].
      destruct (assoc id (p_built p)) eqn:Eb; [discriminate|]. destruct (forallb _ _); [|discriminate]. injection Ep as _ <-. exact (pi_none _ _ _ P Er).
    + destruct (p_run p); discriminate.
    + destruct (p_run p) as [[[w r] x]|]; [|discriminate]. destruct (xstep _ _ _ _ _); discriminate.
    + destruct (p_run p) as [[[w r] x]|] eqn:Er; [|discriminate]. destruct (assoc id (p_targets p)) as [[e st]|]; [|discriminate].
      destruct (assoc id (p_built p)); [|discriminate]. destruct (_ && _ && _); [|discriminate]. destruct (step _ _ _); discriminate.
    + destruct (p_run p) as [[[w r] x]|]; [|discriminate]. destruct (assoc id (p_gens p)); [|discriminate].
      destruct (_ && _); discriminate.
    + destruct (p_run p) as [[[w r] x]|]; [|discriminate]. destruct (assoc id (p_targets p)); [discriminate|]. destruct (assoc id (p_gens p)); [|discriminate].
      destruct (mem_str _ _); discriminate.
    + destruct (p_run p) as [[[w r] x]|]; [|discriminate]. destruct (xstep _ _ _ _ _); [|discriminate].
      destruct (assoc id (p_targets p)) as [[e st]|]; [destruct (assoc id (p_built p)); [destruct (_ && _)|destruct ok0]|destruct (implb _ _)]; discriminate.
    + congruence.
  - intros w r x Hr. subst run.
    assert (Ws : built = p_built p -> wired p r -> wired (PJ ts (p_gens p) built (Some (w, r, x)) ok
                   match ev with
                   | PStep i y _ => match assoc i (p_targets p) with
                                    | Some (e, st) => if links e st y then upd (p_seen p) i (outputs p) else p_seen p
                                    | None => p_seen p end
                   | _ => p_seen p end) r).
    { intros B W. apply (wired_same p); [exact Outs|reflexivity|exact B|exact W]. }
    destruct ev; cbn [process] in Ep.
    + injection Ep as E0 E1 E2. destruct (pi_run _ _ _ P _ _ _ E1) as [X W]. split; [exact X|apply Ws; auto].
    + destruct (mem_str _ _); [|discriminate]. injection Ep as E0 E1 E2. destruct (pi_run _ _ _ P _ _ _ E1) as [X W]. split; [exact X|apply Ws; auto].
    + destruct (p_run p) eqn:Er; [discriminate|]. destruct (assoc id (p_targets p)) as [[e st]|]; [|discriminate].
      destruct (assoc id (p_built p)) eqn:Eb; [discriminate|]. destruct (forallb _ _); discriminate.
    + destruct (p_run p); [discriminate|]. injection Ep as E0 <- <- <- E2. split; [apply XInv_init|]. apply Ws; [auto|exact A].
    + destruct (p_run p) as [[[w1 r1] x1]|] eqn:Er; [|discriminate]. destruct (xstep _ _ _ _ _) eqn:Xs; [|discriminate].
      injection Ep as E0 <- <- <- E2. destruct (pi_run _ _ _ P _ _ _ Er) as [X W]. split; [exact (XInv_step _ _ _ _ _ _ X Xs)|apply Ws; auto].
    + destruct (p_run p) as [[[w1 r1] x1]|] eqn:Er; [|discriminate]. destruct (assoc id (p_targets p)) as [[e st]|]; [|discriminate].
      destruct (assoc id (p_built p)); [|discriminate]. destruct (_ && _ && _); [|discriminate]. destruct (step _ _ _); [|discriminate].
      injection Ep as E0 <- <- <- E2. destruct (pi_run _ _ _ P _ _ _ Er) as [X W]. split; [exact X|apply Ws; auto].
    + destruct (p_run p) as [[[w1 r1] x1]|] eqn:Er; [|discriminate]. destruct (assoc id (p_gens p)); [|discriminate].
      destruct (_ && _); [|discriminate]. injection Ep as E0 <- <- <- E2. destruct (pi_run _ _ _ P _ _ _ Er) as [X W]. split; [exact X|apply Ws; auto].
    + destruct (p_run p) as [[[w1 r1] x1]|] eqn:Er; [|discriminate]. destruct (assoc id (p_targets p)); [discriminate|]. destruct (assoc id (p_gens p)); [|discriminate].
      destruct (mem_str _ _); [|discriminate]. injection Ep as E0 <- <- <- E2. destruct (pi_run _ _ _ P _ _ _ Er) as [X W]. split; [exact X|apply Ws; auto].
    + destruct (p_run p) as [[[w1 r1] x1]|] eqn:Er; [|discriminate]. destruct (xstep _ _ _ _ _) eqn:Xs; [|discriminate].
      destruct (pi_run _ _ _ P _ _ _ Er) as [X W].
      destruct (assoc id (p_targets p)) as [[e st]|]; [destruct (assoc id (p_built p)); [destruct (_ && _)|destruct ok0]|destruct (implb _ _)];
        try discriminate; injection Ep as E0 <- <- <- E2; (split; [exact (XInv_step _ _ _ _ _ _ X Xs)|apply Ws; auto]).
    + discriminate.
Qed.
End Project.
