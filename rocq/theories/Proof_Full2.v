(** Programs with targets and generators: the invariant of the whole program. *)
From Verif Require Import Prelude Proof_Prelude Model_Path Model_Schema Model_Command Model_ToolchainConfig Model_Target
  Spec_Target Proof_TargetInv Model_Gen Spec_Gen Model_Reg Spec_Reg Proof_Reg Proof_RegRun
  Model_Project Spec_Project Proof_Project Proof_Project2 Proof_Project3 Model_Full Spec_Full Proof_Full.

(** ** Several events of the project *)

Fixpoint padmissibles (rg : regime) (p : project) (h : phist) (evs : list pevent) : Prop :=
  match evs with
  | [] => True
  | ev :: r => padmissible rg p h ev /\
      match pstep p ev with Some p' => padmissibles rg p' (ptrack p h ev) r | None => True end
  end.
Lemma phistory_exec rg l gens more : forall evs h p p',
  phistory rg l gens evs h p -> padmissibles rg p h more -> pexec p more = Some p' ->
  phistory rg l gens (evs ++ more) (ptracks p h more) p'.
Proof.
  induction more as [|ev more IH]; intros evs h p p' H A X; cbn [pexec ptracks padmissibles] in *.
  - injection X as <-. rewrite app_nil_r. exact H.
  - destruct (pstep p ev) as [p1|] eqn:S; [|discriminate]. destruct A as [A1 A2].
    replace (evs ++ ev :: more) with ((evs ++ [ev]) ++ more) by (rewrite <- app_assoc; reflexivity).
    apply IH; [|exact A2|exact X]. apply phistory_snoc; assumption.
Qed.

Definition same_outs (p p' : project) : Prop :=
  map (fun x => (fst x, fst (snd x))) (p_targets p') = map (fun x => (fst x, fst (snd x))) (p_targets p).
Lemma same_outs_ids p p' : same_outs p p' -> map fst (p_targets p') = map fst (p_targets p).
Proof. intros H. apply (f_equal (map fst)) in H. rewrite !map_map in H. exact H. Qed.
Lemma same_outs_is_output p p' f : same_outs p p' -> is_output p' f -> is_output p f.
Proof.
  intros E (id & e & st & H & ->).
  assert (K : In (id, e) (map (fun x => (fst x, fst (snd x))) (p_targets p))).
  { rewrite <- E. apply (in_map (fun x => (fst x, fst (snd x))) _ _ H). }
  apply in_map_iff in K as ([b' [e' st']] & K1 & K2). cbn in K1. injection K1 as -> ->. exists id, e, st'. auto.
Qed.
Lemma pstep_outs p ev p' : pstep p ev = Some p' -> same_outs p p' /\ p_gens p' = p_gens p.
Proof.
  unfold pstep. destruct (process p ev) as [[[b rn] ok]|]; [|discriminate]. destruct (deliver p ev (p_targets p)) as [ts|] eqn:D; [|discriminate].
  intros [= <-]. split; [exact (deliver_outs _ _ _ _ D)|reflexivity].
Qed.
Lemma pexec_outs evs : forall p p', pexec p evs = Some p' -> same_outs p p' /\ p_gens p' = p_gens p.
Proof.
  induction evs as [|ev evs IH]; intros p p' X; cbn [pexec] in X; [injection X as <-; split; reflexivity|].
  destruct (pstep p ev) as [p1|] eqn:S; [|discriminate]. destruct (pstep_outs _ _ _ S) as [A B]. destruct (IH _ _ X) as [C D].
  unfold same_outs in *. split; congruence.
Qed.

(** What a generator's step does to the rest of the program. *)
Definition pwrites (i : string) (w : list (string * option N)) : list pevent := map (fun x => PWrite i (fst x) (snd x)) w.
Lemma pwrite_step p i f t p' : pstep p (PWrite i f t) = Some p' ->
  p_run p' = p_run p /\ p_built p' = p_built p /\ p_ok p' = p_ok p /\ writes p i f.
Proof.
  unfold pstep. cbn [process]. destruct (p_run p) as [[[w r] x]|] eqn:Er; [|discriminate]. destruct (assoc i (p_gens p)) as [fs|] eqn:Eg; [|discriminate].
  destruct (mem_str i (x_running x) && mem_str f fs) eqn:Co; [|discriminate]. destruct (deliver _ _ _); [|discriminate]. intros [= <-].
  apply andb_true_iff in Co as [_ Co]. apply mem_str_In in Co. cbn [p_run p_built p_ok].
  repeat split. right. exists fs. split; [exact (assoc_In _ _ _ Eg)|exact Co].
Qed.
Lemma pfail_step p i p' : pstep p (PFail i) = Some p' -> p_run p' = p_run p /\ p_built p' = p_built p /\ p_ok p' = false.
Proof.
  unfold pstep. cbn [process]. destruct (p_run p) as [[[w r] x]|] eqn:Er; [|discriminate]. destruct (assoc i (p_targets p)); [discriminate|].
  destruct (assoc i (p_gens p)); [|discriminate]. destruct (mem_str _ _); [|discriminate]. destruct (deliver _ _ _); [|discriminate]. intros [= <-].
  cbn [p_run p_built p_ok]. auto.
Qed.
Lemma gen_effect i (b : bool) w : forall p p', pexec p (pwrites i w ++ if b then [PFail i] else []) = Some p' ->
  p_run p' = p_run p /\ p_built p' = p_built p /\ p_ok p' = p_ok p && negb b /\ (forall f t, In (f, t) w -> writes p i f).
Proof.
  induction w as [|[f t] w IH]; intros p p' X; cbn [pwrites map app pexec fst snd] in X.
  - destruct b; cbn [pexec] in X.
    + destruct (pstep p (PFail i)) as [p1|] eqn:S; [|discriminate]. injection X as <-. destruct (pfail_step _ _ _ S) as (A & B & C).
      cbn [negb]. rewrite andb_false_r. repeat split; try assumption. intros f t [].
    + injection X as <-. cbn [negb]. rewrite andb_true_r. repeat split. intros f t [].
  - destruct (pstep p (PWrite i f t)) as [p1|] eqn:S; [|discriminate]. destruct (pwrite_step _ _ _ _ _ S) as (A & B & C & D).
    destruct (IH _ _ X) as (A' & B' & C' & D'). destruct (pstep_outs _ _ _ S) as [O G]. repeat split; try congruence.
    intros f' t' [K|K]; [congruence|]. exact (writes_same _ _ _ _ O G (D' _ _ K)).
Qed.
Lemma later_kept p h i f t p' f' t' : pstep p (PWrite i f t) = Some p' -> f' <> f -> later h p f' t' -> later (ptrack p h (PWrite i f t)) p' f' t'.
Proof.
  intros S N L v id E Hi. destruct (pstep_outs _ _ _ S) as [O _]. rewrite (same_outs_ids _ _ O) in Hi. specialize (L v id E Hi).
  unfold ptrack. destruct (assoc id (p_targets p)) as [[e st]|]; [|exact L]. cbn [delivered tracks step].
  cbn [track h_next]. destruct t; [|exact L]. unfold upd. destruct (String.eqb_spec f' f); [contradiction|exact L].
Qed.
Lemma gen_admissible rg i (b : bool) w : forall p h, NoDup (map fst w) ->
  (forall f t, In (f, t) w -> ~ is_output p f /\ (rg = Forward -> later h p f t)) ->
  padmissibles rg p h (pwrites i w ++ if b then [PFail i] else []).
Proof.
  induction w as [|[f t] w IH]; intros p h N H; cbn [pwrites map app padmissibles fst snd].
  - destruct b; cbn [padmissibles padmissible]; [|exact I]. split; [exact I|]. destruct (pstep p (PFail i)); exact I.
  - cbn [map fst] in N. inversion N as [|? ? N1 N2]; subst. split; [exact (H f t (or_introl eq_refl))|].
    destruct (pstep p (PWrite i f t)) as [p1|] eqn:S; [|exact I]. apply IH; [exact N2|]. intros f' t' K.
    destruct (H f' t' (or_intror K)) as [A B]. destruct (pstep_outs _ _ _ S) as [O _]. split.
    + intros Q. exact (A (same_outs_is_output _ _ _ O Q)).
    + intros E. apply (later_kept _ _ _ _ _ _ _ _ S); [|exact (B E)]. intros ->. apply N1. apply (in_map fst _ _ K).
Qed.

(** ** The whole program *)
Section Full.
Context (rg : regime) (bd : string -> discipline) (u8 : string -> N) (mt0 : times)
  (l : list (string * (tenv * disk))) (files : list (string * list string)).
Hypothesis Law : forall j, lawful (bd j).
Hypothesis Fresh : fresh_project mt0 l.
Local Notation JInv := (JInv rg bd u8).

Definition fedited_after (b : bool) (ev : fevent) : bool := match ev with FP pe => edited_after b pe | _ => b end.

Record FInv (F : full) (h : fhist) (ed : bool) : Prop := {
  fi_p : exists pevs, phistory rg l files pevs (fh_p h) (f_proj F);
  fi_nd : NoDup (map fst (f_gens F));
  fi_g : forall j g, In (j, g) (f_gens F) -> JInv (f_objs F) (p_run (f_proj F)) (p_ok (f_proj F)) ed j g (fh_g h j);
  fi_objs : NoDup (map fst (f_objs F));
  fi_wired : forall w r x, p_run (f_proj F) = Some (w, r, x) -> gwired F r;
  fi_dis : forall j, In j (map fst (f_gens F)) -> ~ In j (map fst (p_targets (f_proj F))) }.

Lemma FInv_PInv F h ed : FInv F h ed -> exists ed', PInv rg (f_proj F) (fh_p h) ed'.
Proof using Fresh. intros I. destruct (fi_p _ _ _ I) as (pevs & H). eexists. exact (phistory_PInv _ _ _ _ _ _ _ Fresh H). Qed.

Lemma gwrite_harmless F h ed w r x b f j g : FInv F h ed -> p_run (f_proj F) = Some (w, r, x) ->
  In b (x_running x) -> writes (f_proj F) b f -> b <> j -> In (j, g) (f_gens F) -> gharmless (f_objs F) j g f.
Proof using Fresh.
  intros I Er Ru W N Hj. destruct (FInv_PInv _ _ _ I) as (ed' & P). destruct (pi_run _ _ _ _ P w r x Er) as [X _].
  pose proof (fi_g _ _ _ I j g Hj) as J. unfold gharmless. destruct (assoc j (f_objs F)) as [o|] eqn:Eo; [right|left; reflexivity].
  rewrite (ji_cfg _ _ _ _ _ _ _ _ _ _ J o Eo).
  destruct (mem_str f (flat_map (fun x => inputs_of (snd x)) (go_ids o))) eqn:M.
  - left. apply mem_str_In in M. apply in_flat_map in M as ([k gi] & M1 & M2). cbn [snd] in M2.
    apply (ji_early _ _ _ _ _ _ _ _ _ _ J o w r x Eo Er). intros K.
    assert (Ir : In j (rg_built r)) by (destruct X as [_ _ _ XB _]; exact (XB _ K)).
    assert (Br : In b (rg_built r)) by (destruct X as [? ? ? XB ?]; apply XB; apply (running_started w (rg_built r) (rg_edges r) x b); [constructor; assumption|exact Ru]).
    pose proof (fi_wired _ _ _ I w r x Er b j f o k gi Br W N Ir (assoc_In _ _ _ Eo) M1 M2) as Be.
    exact (running_not_finished _ _ _ _ _ X Ru (started_deps _ _ _ _ _ _ X K Be)).
  - right. apply mem_str_false in M. intros k gi Hk Hf. apply M. apply in_flat_map. exists (k, gi). split; [exact Hk|exact Hf].
Qed.

Lemma JInv_log objs w r x x' ok ed j g h : JInv objs (Some (w, r, x)) ok ed j g h ->
  incl (starts (x_log x)) (starts (x_log x')) ->
  (In j (finishes (x_log x')) -> In j (finishes (x_log x)) \/ g_pc g = GIdle) ->
  JInv objs (Some (w, r, x')) ok ed j g h.
Proof using.
  intros [I1 I2 I3 I4 I5 I6 I7 I8 I9] S K. constructor; try assumption; try discriminate.
  - intros o w' r' y Ho [= <- <- <-] N. apply (I6 o w r x Ho eq_refl). intros Q. apply N. exact (S _ Q).
  - intros o w' r' y Ho [= <- <- <-] N. destruct (K N) as [Q|Q]; [exact (I7 o w r x Ho eq_refl Q)|exact Q].
  - intros o w' r' y Ho _. exact (I8 o w r x Ho eq_refl).
  - intros o w' r' y Ho _. exact (I9 o w r x Ho eq_refl).
Qed.

Lemma fresh_at F h f t j g : flater h F f t -> In (j, g) (f_gens F) -> fresh (fh_g h j) f t.
Proof using. intros [_ L] H. apply L. apply (in_map fst _ _ H). Qed.

Lemma generator_kept F h ed ev p' j g g' :
  FInv F h ed -> fadmissible rg bd F h ev -> fallowed F ev = true -> pexec (f_proj F) (pdelivered u8 F ev) = Some p' ->
  In (j, g) (f_gens F) -> gexec u8 g (gdelivered u8 F ev j g) = Some g' ->
  JInv (objs_after F ev) (p_run p') (p_ok p') (fedited_after ed ev) j g' (gtracks u8 (fh_g h j) g (gdelivered u8 F ev j g)).
Proof using Law Fresh.
  intros I A Al Xp Hj X. pose proof (fi_g _ _ _ I j g Hj) as J. pose proof (assoc_NoDup_In _ _ _ (fi_nd _ _ _ I) Hj) as Ha.
  destruct (FInv_PInv _ _ _ I) as (ed' & P). destruct ev as [pe|i|i o|i x].
  - (* FP *)
    cbn [pdelivered pexec] in Xp. destruct (pstep (f_proj F) pe) as [p1|] eqn:S; [|discriminate]. injection Xp as <-.
    unfold pstep in S. destruct (process (f_proj F) pe) as [[[b rn] ok]|] eqn:E; [|discriminate].
    destruct (deliver (f_proj F) pe (p_targets (f_proj F))) as [ts|]; [|discriminate]. injection S as <-. cbn [p_run p_ok].
    cbn [fadmissible] in A. destruct A as [Ap Ag].
    destruct pe as [f t|i|i c ord|w r|i|i ev t|i f t|i|i okk|ls]; cbn [process fedited_after edited_after objs_after fallowed] in *.
    + cbn [gdelivered gexec gstep gtracks] in *. injection X as <-. injection E as <- <- <-.
      exact (guser_edit _ _ _ _ _ _ _ _ _ _ _ _ J (Ag j g Hj)).
    + destruct (mem_str _ _); [|discriminate]. injection E as <- <- <-. cbn [gdelivered gexec gtracks] in *. injection X as <-. exact J.
    + destruct (p_run (f_proj F)) eqn:Er; [discriminate|]. destruct (assoc i (p_targets (f_proj F))) as [[e st]|]; [|discriminate].
      destruct (assoc i (p_built (f_proj F))); [discriminate|]. destruct (forallb _ _); [|discriminate]. injection E as <- <- <-.
      cbn [gdelivered gexec gtracks] in *. injection X as <-. exact J.
    + destruct (p_run (f_proj F)) eqn:Er; [discriminate|]. injection E as <- <- <-.
      cbn [gdelivered gexec gtracks] in *. injection X as <-. destruct J as [I1 I2 I3 I4 I5 I6 I7 I8 I9]. constructor; try assumption; try discriminate.
      * intros o w' r' x Ho _ _. apply (I5 o Ho eq_refl).
      * intros o w' r' x Ho [= <- <- <-] [].
      * intros o w' r' x Ho _ _. apply (I5 o Ho eq_refl).
      * intros o w' r' x Ho _ _ Pc. destruct (I5 o Ho eq_refl). congruence.
    + destruct (p_run (f_proj F)) as [[[w r] x]|] eqn:Er; [|discriminate]. destruct (xstep _ _ _ _ _) as [x'|] eqn:Xs; [|discriminate].
      injection E as <- <- <-. cbn [gdelivered gexec gtracks] in *. injection X as <-.
      cbn [xstep] in Xs. destruct (_ && _) in Xs; [|discriminate]. injection Xs as <-. apply (JInv_log _ _ _ x); [exact J| |].
      * cbn [x_log]. intros y Hy. rewrite starts_app. apply in_app_iff. left. exact Hy.
      * cbn [x_log]. rewrite finishes_app. cbn. rewrite app_nil_r. tauto.
    + destruct (p_run (f_proj F)) as [[[w r] x]|] eqn:Er; [|discriminate].
      destruct (assoc i (p_targets (f_proj F))) as [[ei sti]|] eqn:Ei; [|discriminate].
      destruct (assoc i (p_built (f_proj F))) as [ci|] eqn:Eb; [|discriminate].
      destruct (mem_str i (x_running x) && in_taskflow ev && _) eqn:Co; [|discriminate].
      apply andb_true_iff in Co as [Co Ct]. apply andb_true_iff in Co as [Cr Cf]. apply mem_str_In in Cr.
      destruct (step ei sti ev) as [sti'|] eqn:Si; [|discriminate]. injection E as <- <- <-.
      cbn [gdelivered] in *. rewrite Ei, Si in *.
      assert (W : writes (f_proj F) i (out_file ei)) by (left; exists ei, sti; split; [exact (assoc_In _ _ _ Ei)|reflexivity]).
      assert (Ni : i <> j).
      { intros ->. apply (fi_dis _ _ _ I j (in_map fst _ _ Hj)). apply (in_map fst _ _ (assoc_In _ _ _ Ei)). }
      destruct t as [t|]; cbn [app gexec gstep gtracks] in *.
      * pose proof (gwrite_harmless _ _ _ _ _ _ _ _ _ _ I Er Cr W Ni Hj) as Hm.
        assert (T1 := gharmless_edit _ _ _ _ _ _ _ _ _ _ _ t J Hm (fun Fw => fresh_at _ _ _ _ _ _ (Ag ei sti (assoc_In _ _ _ Ei) Fw) Hj)).
        change (gwith_disk g _) with (gedit g (out_file ei) t) in *.
        replace (gfail_others (negb (s_ok sti')) g) with (gfail_others (negb (s_ok sti')) (gedit g (out_file ei) t)) in * by reflexivity.
        pose proof (gfail_JInv _ _ _ _ _ _ _ _ _ _ _ _ T1 ltac:(discriminate) X) as T2. rewrite negb_involutive in T2. exact T2.
      * pose proof (gfail_JInv _ _ _ _ _ _ _ _ _ _ _ _ J ltac:(discriminate) X) as T2. rewrite negb_involutive in T2. exact T2.
    + destruct (p_run (f_proj F)) as [[[w r] x]|] eqn:Er; [|discriminate].
      destruct (assoc i (p_gens (f_proj F))) as [fs|] eqn:Eg; [|discriminate].
      destruct (mem_str i (x_running x) && mem_str f fs) eqn:Co; [|discriminate].
      apply andb_true_iff in Co as [Cr Cf]. apply mem_str_In in Cr, Cf. injection E as <- <- <-.
      cbn [gdelivered gexec gstep gtracks] in *. injection X as <-.
      apply (gharmless_edit _ _ _ _ _ _ _ _ _ _ f t J).
      * apply (gwrite_harmless _ _ _ _ _ _ i f _ _ I Er Cr); [right; exists fs; split; [exact (assoc_In _ _ _ Eg)|exact Cf]| |exact Hj].
        intros ->. rewrite Ha in Al. discriminate.
      * intros Fw. exact (fresh_at _ _ _ _ _ _ (Ag Fw) Hj).
    + destruct (p_run (f_proj F)) as [[[w r] x]|] eqn:Er; [|discriminate]. destruct (assoc i (p_targets (f_proj F))) eqn:Ei; [discriminate|].
      destruct (assoc i (p_gens (f_proj F))) eqn:Eg; [|discriminate]. destruct (mem_str i (x_running x)); [|discriminate]. injection E as <- <- <-.
      cbn [gdelivered] in *. pose proof (gfail_JInv _ _ _ _ _ _ _ _ _ _ _ _ J ltac:(discriminate) X) as T2.
      cbn [negb] in T2. rewrite andb_false_r in T2. exact T2.
    + destruct (p_run (f_proj F)) as [[[w r] x]|] eqn:Er; [|discriminate]. destruct (xstep _ _ _ _ _) as [x'|] eqn:Xs; [|discriminate].
      cbn [xstep] in Xs. destruct (mem_str i (x_running x)) eqn:Mr in Xs; [|discriminate]. injection Xs as <-.
      set (x' := XS _ _ _) in *.
      assert (Ls : incl (starts (x_log x)) (starts (x_log x'))).
      { unfold x'. cbn [x_log]. intros y Hy. rewrite starts_app. apply in_app_iff. left. exact Hy. }
      assert (Lf : forall g0 : gstate, (i = j -> g_pc g0 = GIdle) -> In j (finishes (x_log x')) -> In j (finishes (x_log x)) \/ g_pc g0 = GIdle).
      { intros g0 K. unfold x'. cbn [x_log]. rewrite finishes_app. cbn. intros Q. apply in_app_iff in Q as [Q|[Q|[]]]; auto. }
      cbn [gdelivered] in *. destruct (assoc i (p_targets (f_proj F))) as [[ei sti]|] eqn:Ei.
      * cbn [gexec gtracks] in *. injection X as <-.
        assert (Ni : i <> j).
        { intros ->. apply (fi_dis _ _ _ I j (in_map fst _ _ Hj)). apply (in_map fst _ _ (assoc_In _ _ _ Ei)). }
        assert (T1 : JInv (f_objs F) (Some (w, r, x')) (p_ok (f_proj F)) ed j g (fh_g h j)).
        { apply (JInv_log _ _ _ x); [exact J|exact Ls|]. apply Lf. intros ->. contradiction. }
        destruct (assoc i (p_built (f_proj F))); [destruct (_ && _)|destruct okk]; try discriminate; injection E as <- <- <-; exact T1.
      * destruct (implb okk (p_ok (f_proj F))); [|discriminate]. injection E as <- <- <-.
        pose proof (gfail_JInv _ _ _ _ _ _ _ _ _ _ _ _ J ltac:(discriminate) X) as T2. rewrite negb_involutive in T2.
        apply (JInv_log _ _ _ x); [exact T2|exact Ls|]. apply Lf. intros ->. rewrite Ha in Al. apply andb_true_iff in Al as [Al _].
        unfold grunning in Al. destruct (g_pc g) eqn:Pc; try discriminate.
        unfold gfail_others, grunning in X. rewrite Pc, andb_false_r in X. cbn [gexec] in X. injection X as <-. exact Pc.
    + injection E as <- <- <-. cbn [gdelivered] in *. destruct J as [I1 I2 I3 I4 I5 I6 I7 I8 I9]. destruct (grunning g) eqn:Ru.
      * specialize (Ag j g Hj Ru). destruct (assoc j ls) as [n|]; cbn [gexec gtracks] in *.
        -- destruct (gstep u8 g (GCrashFinish n)) as [g1|] eqn:St; [|discriminate]. injection X as <-.
           assert (K : g_pc g1 = GIdle /\ g_tasks g1 = []).
           { cbn [gstep] in St. destruct (g_pc g); try discriminate. destruct (_ && _); [|discriminate]. destruct (bind _ _); [|discriminate]. injection St as <-. auto. }
           destruct K as [K1 K2]. constructor; try discriminate; try (intros _; assumption).
           destruct I1 as (m0 & evs & I1). exists m0, (evs ++ [GCrashFinish n]). exact (ghistory_snoc _ _ _ _ _ _ _ (GCrashFinish n) _ I1 Logic.I St).
        -- destruct (gstep u8 g GCrash) as [g1|] eqn:St; [|discriminate]. injection X as <-.
           assert (K : g_pc g1 = GIdle /\ g_tasks g1 = []).
           { cbn [gstep] in St. destruct (g_pc g); try discriminate; injection St as <-; auto. }
           destruct K as [K1 K2]. constructor; try discriminate; try (intros _; assumption).
           destruct I1 as (m0 & evs & I1). exists m0, (evs ++ [GCrash]). exact (ghistory_snoc _ _ _ _ _ _ _ GCrash _ I1 Ag St).
      * cbn [gexec gtracks] in *. injection X as <-. unfold grunning in Ru. destruct (g_pc g) eqn:Pc; try discriminate.
        constructor; try discriminate; try assumption; [intros _; apply I2; discriminate|intros _; exact Pc].
  - (* FForget *)
    cbn [pdelivered pexec fedited_after objs_after gdelivered] in *. injection Xp as <-.
    destruct (String.eqb_spec i j) as [->|N]; cbn [gexec gstep gtracks] in *; injection X as <-; [|exact J].
    pose proof (A g Hj) as A1. destruct J as [I1 I2 I3 I4 I5 I6 I7 I8 I9].
    constructor; cbn [g_pc g_cfg g_ok g_tasks gwith_disk g_disk]; try assumption.
    destruct I1 as (m0 & evs & I1). exists m0, (evs ++ [GDropStore]). apply (ghistory_snoc _ _ _ _ _ _ _ GDropStore _ I1 A1). reflexivity.
  - (* FBuild *)
    cbn [pdelivered pexec fedited_after objs_after gdelivered fallowed] in *. injection Xp as <-.
    destruct (p_run (f_proj F)) eqn:Er; [discriminate|]. destruct (assoc i (f_gens F)) as [gi|] eqn:Ei; [|discriminate].
    destruct (assoc i (f_objs F)) eqn:Eo; [discriminate|].
    assert (Ab : forall k o', assoc k (f_objs F ++ [(i, o)]) = Some o' -> (k = i /\ o' = o) \/ (k <> i /\ assoc k (f_objs F) = Some o')).
    { intros k o'. rewrite assoc_app. destruct (assoc k (f_objs F)) eqn:E.
      - intros [= <-]. right. split; [congruence|reflexivity].
      - cbn [assoc]. destruct (String.eqb_spec k i) as [->|]; [|discriminate]. intros [= <-]. left. auto. }
    destruct (String.eqb_spec i j) as [->|N].
    + cbn [gexec gtracks] in *. destruct (gstep u8 g (GStart o)) as [g1|] eqn:St; [|discriminate]. injection X as <-.
      pose proof (ji_unbuilt _ _ _ _ _ _ _ _ _ _ J Eo) as Pc.
      assert (K : g_pc g1 = GBuilt /\ g_cfg g1 = o /\ g_ok g1 = true /\ g_tasks g1 = []).
      { cbn [gstep] in St. rewrite Pc in St. unfold gstart in St. destruct (gobj_ok o); [|discriminate]. injection St as <-. auto. }
      destruct K as (K1 & K2 & K3 & K4). constructor; try discriminate.
      * destruct (ji_hist _ _ _ _ _ _ _ _ _ _ J) as (m0 & evs & I1). exists m0, (evs ++ [GStart o]).
        exact (ghistory_snoc _ _ _ _ _ _ _ (GStart o) _ I1 (A g Hj) St).
      * intros _. exact K4.
      * intros K. rewrite assoc_app, Eo in K. cbn [assoc] in K. rewrite String.eqb_refl in K. discriminate.
      * intros o' K. destruct (Ab _ _ K) as [[_ ->]|[Q _]]; [exact K2|congruence].
      * intros o' _ _. auto.
    + cbn [gexec gtracks] in *. injection X as <-. destruct J as [I1 I2 I3 I4 I5 I6 I7 I8 I9]. constructor; try assumption; try discriminate.
      * intros K. apply I3. rewrite assoc_app in K. destruct (assoc j (f_objs F)); [discriminate|reflexivity].
      * intros o' K. destruct (Ab _ _ K) as [[Q _]|[_ Q]]; [congruence|exact (I4 o' Q)].
      * intros o' K _. destruct (Ab _ _ K) as [[Q _]|[_ Q]]; [congruence|exact (I5 o' Q eq_refl)].
  - (* FStep *)
    cbn [pdelivered fedited_after objs_after gdelivered fallowed] in *.
    destruct (p_run (f_proj F)) as [[[w r] ex]|] eqn:Er; [|discriminate]. destruct (assoc i (f_gens F)) as [gi|] eqn:Ei; [|discriminate].
    destruct (assoc i (f_objs F)) as [oi|] eqn:Eo; [|discriminate]. apply andb_true_iff in Al as [Ru Ig]. apply mem_str_In in Ru.
    destruct (gen_effect _ _ _ _ _ Xp) as (E1 & _ & E3 & E4). rewrite E1, E3, Er. destruct A as (A1 & A2 & A3).
    destruct (pi_run _ _ _ _ P w r ex Er) as [XI _]. unfold gfails in *. rewrite Ei in *.
    destruct (String.eqb_spec i j) as [->|Nij].
    + rewrite Ha in Ei. injection Ei as <-. cbn [gexec gtracks] in *. destruct (gstep u8 g x) as [g1|] eqn:St; [|discriminate]. injection X as <-.
      rewrite negb_involutive. exact (gown_step _ _ _ Law _ _ _ _ _ _ _ _ _ _ _ _ J Eo XI Ru Ig (A1 g Hj) St).
    + destruct (gharmless_edits rg bd u8 _ _ _ _ j (writes_of x) g (fh_g h j) A2 J) as (g1 & B1 & B2 & B3).
      * intros f t Hw. exact (gwrite_harmless _ _ _ _ _ _ _ _ _ _ I Er Ru (E4 f t Hw) Nij Hj).
      * intros Fw f t Hw. destruct (A3 f t Hw) as [_ Q]. exact (fresh_at _ _ _ _ _ _ (Q Fw) Hj).
      * change (map (fun w0 : string * option N => GEdit (fst w0) (snd w0)) (writes_of x)) with (edits (writes_of x)) in *.
        rewrite gexec_app', B1 in X. rewrite (gtracks_app _ _ _ _ _ _ B1).
        set (b := match gstep u8 gi x with Some g'0 => negb (g_ok g'0) | None => false end) in *.
        replace (gfail_others b g) with (gfail_others b g1) in * by (unfold gfail_others; rewrite B3; reflexivity).
        exact (gfail_JInv _ _ _ _ _ _ _ _ _ _ _ _ B2 ltac:(discriminate) X).
Qed.
End Full.
