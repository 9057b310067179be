(** Checks that look at a file now and at a file later preserve the invariant. *)
From Verif Require Import Prelude Proof_Prelude Model_Path Model_Json Model_Schema Spec_Json Proof_Dec
  Proof_Schema Model_Command Spec_Command Proof_Command Model_ToolchainConfig Model_Target Spec_Target
  Proof_TargetBase Proof_TargetInv Proof_TargetRun Proof_TargetStep Proof_TargetStep2 Model_Torn.

Section Check.
Context (e : tenv) (T : templates_ok e).

Local Notation rg := Forward.
Local Notation R := (R rg).
Local Notation rec_ok := (rec_ok rg).
Local Notation fresh := (fresh rg).
Local Notation Fresh := (Fresh rg).
Local Notation SafeS := (SafeS rg e).
Local Notation BufInv := (BufInv rg e).
Local Notation Inv := (Inv rg e).
Local Notation RunInv := (RunInv rg e).
Local Notation Stage := (Stage rg e).
Local Notation forcedP := (forcedP rg).
Local Notation mtof st := (d_mt (s_disk st)).

(** ** A recorded time that can still be met was met by what the check saw *)

Definition Near (h : hist) (mt : times) (s : tschema) (g : times) : Prop :=
  forall i, In i (all_infos s) -> rec_ok h mt i (g (pi_path i)).

Lemma rec_self (h : hist) (mt g : times) (i : pathinfo) :
  hashed g (pi_path i) (pi_hash i) -> rec_ok h mt i (g (pi_path i)).
Proof. intros H m _ K. exact (hashed_time g m _ _ H K). Qed.

Lemma Hashed_saw (h : hist) (mt m g : times) (l : list string) (a : infolist) :
  (forall i, In i a -> rec_ok h mt i (g (pi_path i))) -> R h mt m -> Hashed m l a -> Hashed g l a.
Proof.
  intros F HR H. rewrite <- (Hashed_paths _ _ _ H). apply Hashed_of. intros i Hi.
  pose proof (Hashed_In _ _ _ _ H Hi) as Hh. pose proof (F i Hi m HR Hh) as E.
  destruct Hh as (t & A & B). exists t. split; [congruence|exact B].
Qed.
Lemma Near_sub (h : hist) (mt g : times) (s : tschema) (l : infolist) :
  Near h mt s g -> incl l (all_infos s) -> forall i, In i l -> rec_ok h mt i (g (pi_path i)).
Proof. intros F Hl i Hi. exact (F i (Hl i Hi)). Qed.
Ltac sub := unfold all_infos; intros ? ?; rewrite !in_app_iff; tauto.
Lemma pchclean_saw (h : hist) (mt m g : times) (s : tschema) (c : cfg) :
  Near h mt s g -> R h mt m -> pchclean s c m -> pchclean s c g.
Proof.
  intros F HR []. constructor; try assumption.
  - eapply Hashed_saw; [|exact HR|eassumption]. apply (Near_sub _ _ _ _ _ F). sub.
  - eapply Hashed_saw; [|exact HR|eassumption]. apply (Near_sub _ _ _ _ _ F). sub.
Qed.
Lemma objclean_saw (h : hist) (mt m g : times) (s : tschema) (c : cfg) :
  Near h mt s g -> R h mt m -> objclean s c m -> objclean s c g.
Proof.
  intros F HR []. constructor; try assumption.
  - eapply Hashed_saw; [|exact HR|eassumption]. apply (Near_sub _ _ _ _ _ F). sub.
  - eapply Hashed_saw; [|exact HR|eassumption]. apply (Near_sub _ _ _ _ _ F). sub.
Qed.
Lemma linkclean_saw (h : hist) (mt m g : times) (s : tschema) (c : cfg) :
  Near h mt s g -> R h mt m -> linkclean s c m -> linkclean s c g.
Proof.
  intros F HR []. constructor; try assumption.
  - eapply Hashed_saw; [|exact HR|eassumption]. apply (Near_sub _ _ _ _ _ F). sub.
  - eapply Hashed_saw; [|exact HR|eassumption]. apply (Near_sub _ _ _ _ _ F). sub.
Qed.
Lemma matches_saw (h : hist) (mt m g : times) (s : tschema) (p : string) :
  Near h mt s g -> R h mt m -> matches s m p -> matches s g p.
Proof.
  intros F HR (hh & A & B). exists hh. split; [exact A|].
  pose proof (lookup_In _ _ _ A) as Hi.
  assert (Hf : rec_ok h mt (PI p hh) (g p)).
  { apply (F (PI p hh)). unfold all_infos. apply in_app_iff. left. exact Hi. }
  pose proof (Hf m HR B) as E. cbn in E. destruct B as (t & B1 & B2). exists t. split; [congruence|exact B2].
Qed.
Lemma srcclean_saw (h : hist) (mt m g : times) (s : tschema) (c : cfg) :
  Near h mt s g -> R h mt m -> srcclean s c m -> srcclean s c g.
Proof. intros F HR [A B]. split; [|exact B]. intros p Hp. exact (matches_saw h mt m g s p F HR (A p Hp)). Qed.

(** ** Looks that agree on the tracked files *)

Definition agree (l : list string) (g m : times) : Prop := forall f, In f l -> g f = m f.

Lemma Hashed_agree (g m : times) (l : list string) (a : infolist) : agree l g m -> Hashed g l a -> Hashed m l a.
Proof.
  intros A H. induction H as [|p x l a [Hx1 (v & Hv1 & Hv2)] _ IH]; constructor.
  - split; [exact Hx1|]. exists v. split; [|exact Hv2]. rewrite <- (A p (or_introl eq_refl)). exact Hv1.
  - apply IH. intros f Hf. apply A. right. exact Hf.
Qed.
Lemma agree_sub (l l' : list string) (g m : times) : incl l' l -> agree l g m -> agree l' g m.
Proof. intros I A f Hf. exact (A f (I f Hf)). Qed.
Lemma agree_sym (l : list string) (g m : times) : agree l g m -> agree l m g.
Proof. intros A f Hf. symmetry. exact (A f Hf). Qed.
Ltac tsub := unfold tracked; intros ? ?; rewrite !in_app_iff; tauto.
Lemma pchclean_agree (s : tschema) (c : cfg) (g m : times) : agree (tracked c) g m -> pchclean s c g -> pchclean s c m.
Proof.
  intros A []. constructor; try assumption; (eapply Hashed_agree; [|eassumption]; apply (agree_sub (tracked c)); [tsub|exact A]).
Qed.
Lemma objclean_agree (s : tschema) (c : cfg) (g m : times) : agree (tracked c) g m -> objclean s c g -> objclean s c m.
Proof.
  intros A []. constructor; try assumption; (eapply Hashed_agree; [|eassumption]; apply (agree_sub (tracked c)); [tsub|exact A]).
Qed.
Lemma linkclean_agree (s : tschema) (c : cfg) (g m : times) : agree (tracked c) g m -> linkclean s c g -> linkclean s c m.
Proof.
  intros A []. constructor; try assumption; (eapply Hashed_agree; [|eassumption]; apply (agree_sub (tracked c)); [tsub|exact A]).
Qed.
Lemma srcclean_agree (s : tschema) (c : cfg) (g m : times) : agree (tracked c) g m -> srcclean s c g -> srcclean s c m.
Proof.
  intros A [B1 B2]. split; [|exact B2]. intros p Hp. destruct (B1 p Hp) as (hh & K & (v & Hv1 & Hv2)).
  exists hh. split; [exact K|]. exists v. split; [|exact Hv2]. rewrite <- (A p); [exact Hv1|].
  unfold tracked. rewrite in_app_iff. tauto.
Qed.

Lemma still (c : cfg) (g m : times) : agree (tracked c) g m ->
  agree (sources c) g m /\ agree (headers c) g m /\ agree (pchs c) g m /\ agree (libs c) g m /\
  agree (compile_deps c) g m /\ agree (link_deps c) g m.
Proof. intros A. repeat split; (apply (agree_sub (tracked c)); [tsub|exact A]). Qed.

(** What the check saw, against the state it finds. *)
Record Look (h : hist) (st : tstate) (g : times) : Prop := {
  lk_next : nextok h g;
  lk_near : forall s, stored (s_disk st) = Some s -> Near h (mtof st) s g;
  lk_still : h_edited h = false -> agree (tracked (s_cfg st)) g (mtof st) }.

Lemma pch_check_saw_Inv (h : hist) (st : tstate) (g : times) :
  s_pc st = PcPch -> Look h st g -> agree (headers (s_cfg st)) g (mtof st) ->
  (forall s, stored (s_disk st) = Some s -> pchclean s (s_cfg st) g ->
     pch_current e (s_cfg st) g (s_disk st) /\
     (forall m p, R h (mtof st) m -> objclean s (s_cfg st) m -> In p (sources (s_cfg st)) -> matches s m p ->
        obj_current e (s_cfg st) m (s_disk st) p)) ->
  Inv h st -> Inv h (pch_check_saw st g).
Proof.
  intros Hpc [LN LR LS] LH LP I. pose proof I as I0. destruct I0 as [i_next i_bound i_safe i_quiet i_run].
  assert (RI : RunInv h st) by (apply i_run; congruence). destruct RI.
  unfold Proof_TargetRun.Stage in r_stage. rewrite Hpc in r_stage. destruct r_stage.
  assert (Q : rg = Quiet -> h_taint h <> None -> False).
  { intros q1 q2. destruct (i_quiet q1 q2). congruence. }
  unfold pch_check_saw. destruct (s_ok st) eqn:Eok; cbn [negb].
  - destruct (pch_pre g (s_user st)) as [u b] eqn:Ep.
    destruct (pch_pre_spec Forward h _ _ _ _ _ LN r_like r_fresh Ep) as (L' & F' & HH).
    stp. destruct b; cbn [negb].
    + destruct (HH eq_refl) as [H1 H2].
      assert (H1m : Hashed (mtof st) (headers (s_cfg st)) (ts_headers u)) by exact (Hashed_agree _ _ _ _ LH H1).
      assert (H2m : h_edited h = false -> Hashed (mtof st) (pchs (s_cfg st)) (ts_pchs u)).
      { intros E0. destruct (still _ _ _ (LS E0)) as (_ & _ & A & _). exact (Hashed_agree _ _ _ _ A H2). } rewrite sp_dirty. cbn [orb].
      destruct (match s_load st with None => true | Some l => negb (pch_same l u) end) eqn:Ed.
      * constructor; stp; try assumption.
        -- intros q1 q2. destruct (Q q1 q2).
        -- intros _. constructor; stp; try assumption.
           ++ rewrite sp_buf. apply BufInv_default.
           ++ unfold Proof_TargetRun.Stage. stp. constructor; stp; try assumption; try reflexivity.
                            ** intros Fw s m Hs Hm HC. stp. apply (pchclean_saw h (mtof st) m g) in HC; [|exact (LR s Hs)|exact Hm].
                 rewrite r_load, Hs in Ed. apply negb_true_iff in Ed.
                 apply (pch_same_iff _ _ _ _ L' H1 H2) in HC. congruence.
      * constructor; stp; try assumption.
        -- intros q1 q2. destruct (Q q1 q2).
        -- intros _. destruct (s_load st) as [l|] eqn:El; [|discriminate]. apply negb_false_iff in Ed.
           apply (pch_same_iff _ _ _ _ L' H1 H2) in Ed. symmetry in r_load.
           destruct (LP l r_load Ed) as [PC S2].
           constructor; stp; try assumption.
           ++ congruence.
           ++ rewrite sp_buf. tsp. cbn [ts_default ts_sources app]. intros i Hi.
              apply (Fresh_tracked rg h _ _ u); [exact L'|exact F'|]. unfold all_infos. rewrite !in_app_iff. tauto.
           ++ rewrite sp_buf. constructor; tsp.
              ** intros _. split; [exact sp_pch|]. split; [exact (Hashed_paths _ _ _ H2)|].
                 destruct PC as (p & A1 & A2 & A3 & A4 & A5). exists p. repeat split; try assumption.
                 intros i Hi. rewrite (A5 (pi_path i)).
                 --- apply rec_self. apply in_app_iff in Hi as [Hi|Hi]; [exact (Hashed_In _ _ _ _ H1 Hi)|exact (Hashed_In _ _ _ _ H2 Hi)].
                 --- rewrite in_app_iff in *. destruct Hi as [Hi|Hi]; [left; rewrite <- (Hashed_paths _ _ _ H1)|right; rewrite <- (Hashed_paths _ _ _ H2)]; apply in_map; exact Hi.
              ** intros i [].
              ** discriminate.
           ++ unfold Proof_TargetRun.Stage. stp. constructor; stp; rewrite ?sp_buf; tsp; try reflexivity.
              ** congruence.
              ** intros _ _. split; [reflexivity|]. split; [exact H1m|exact H2m].
              ** congruence.
              ** intros _ _ _. exists l. split; [exact El|]. split.
                 --- exact S2.
                 --- intros E0. exact (pchclean_agree l _ g _ (LS E0) Ed).
    + constructor; stp; try assumption.
      * intros q1 q2. destruct (Q q1 q2).
      * intros _. constructor; stp; try assumption.
        -- rewrite sp_buf. apply BufInv_default.
        -- unfold Proof_TargetRun.Stage. stp. constructor; stp; rewrite ?sp_buf; try reflexivity; try congruence.
  - constructor; stp; try assumption.
    + intros q1 q2. destruct (Q q1 q2).
    + intros _. constructor; stp; try assumption.
      unfold Proof_TargetRun.Stage. stp. constructor; stp; rewrite ?sp_buf; try reflexivity; try congruence.
Qed.

Lemma obj_check_saw_Inv (h : hist) (st : tstate) (g : times) :
  s_pc st = PcObj -> Look h st g -> (pchs (s_cfg st) <> [] -> agree (headers (s_cfg st)) g (mtof st)) ->
  (forall s, s_ok st = true -> s_dirty st = false -> stored (s_disk st) = Some s -> objclean s (s_cfg st) g ->
     forall p, In p (sources (s_cfg st)) -> matches s g p -> obj_current e (s_cfg st) g (s_disk st) p) ->
  Inv h st -> Inv h (obj_check_saw st g).
Proof.
  intros Hpc [LN LR LS] LH LO I. pose proof I as I0. destruct I0 as [i_next i_bound i_safe i_quiet i_run].
  assert (RI : RunInv h st) by (apply i_run; congruence). destruct RI.
  unfold Proof_TargetRun.Stage in r_stage. rewrite Hpc in r_stage. destruct r_stage.
  assert (NDs : NoDup (map (obj_of e) (sources (s_cfg st)))) by exact (proj1 r_perm).
  assert (Frc : rg = Forward -> s_dirty st = true ->
    forall s m1, stored (s_disk st) = Some s -> R h (mtof st) m1 ->
    (pchs (s_cfg st) <> [] -> pchclean s (s_cfg st) m1) -> False).
  { intros Fw D s m1 Hs Hm HC. destruct (so_forced D) as [P F]. exact (F Fw s m1 Hs Hm (HC P)). }
  unfold obj_check_saw. destruct (s_ok st) eqn:Eok; cbn [negb].
  2:{ constructor; stp; try assumption.
      - intros q1 q2. destruct (i_quiet q1 q2) as [_ K]. split; [discriminate|exact K].
      - intros _. constructor; stp; try assumption.
        unfold Proof_TargetRun.Stage. stp. constructor; stp; rewrite ?so_src; try assumption; try (intros; congruence).
        + constructor.
        + intros i [].
        + intros Fw s m1 m2 Hs H1 H2 HC OC. split; [intros i []|]. intros D. destruct (Frc Fw D s m1 Hs H1 HC). }
  destruct (obj_pre g (s_user st)) as [u b] eqn:Ep.
  destruct (obj_pre_spec rg h _ _ _ _ _ LN r_like r_fresh Ep) as (L' & F' & SameH & HH).
  assert (BI : BufInv h (s_disk st) (s_cfg st) u (s_buf st)).
  { destruct r_buf. constructor.
    - intros K. destruct (b_pch K) as (A & B & C). split; [exact A|]. split; [exact B|].
      destruct (so_pch A eq_refl) as (_ & HN & _). rewrite (SameH (Hashed_agree _ _ _ _ (agree_sym _ _ _ (LH A)) HN)). exact C.
    - rewrite so_src. intros i [].
    - congruence. }
  stp. destruct b; cbn [negb].
  2:{ constructor; stp; try assumption.
      - intros q1 q2. destruct (i_quiet q1 q2) as [_ K]. split; [discriminate|exact K].
      - intros _. constructor; stp; try assumption.
        unfold Proof_TargetRun.Stage. stp. constructor; stp; rewrite ?so_src; try assumption; try (intros; congruence).
        + constructor.
        + intros i [].
        + intros Fw s m1 m2 Hs H1 H2 HC OC. split; [intros i []|]. intros D. destruct (Frc Fw D s m1 Hs H1 HC). }
  destruct (HH eq_refl) as (H1 & H2 & H3).
  assert (ND : NoDup (il_paths (ts_sources u))).
  { rewrite (like_sources _ _ L'). apply (nodup_sources e). exact NDs. }
  assert (SrcH : forall i, In i (ts_sources u) -> hashed g (pi_path i) (pi_hash i)).
  { intros i Hi. exact (Hashed_In _ _ _ _ H1 Hi). }
  assert (Now : h_edited h = false -> Hashed (mtof st) (sources (s_cfg st)) (ts_sources u) /\
     Hashed (mtof st) (headers (s_cfg st)) (ts_headers u) /\ Hashed (mtof st) (compile_deps (s_cfg st)) (ts_compile_deps u)).
  { intros E0. destruct (still _ _ _ (LS E0)) as (A1 & A2 & _ & _ & A3 & _).
    split; [exact (Hashed_agree _ _ _ _ A1 H1)|split; [exact (Hashed_agree _ _ _ _ A2 H2)|exact (Hashed_agree _ _ _ _ A3 H3)]]. }
  assert (PchNow : pchs (s_cfg st) <> [] -> h_edited h = false ->
                   Hashed (mtof st) (pchs (s_cfg st)) (ts_pchs (s_buf st))).
  { intros P Ed. destruct (so_pch P eq_refl) as (_ & _ & K). exact (K Ed). }
  destruct (match s_load st with None => true | Some l => s_dirty st || negb (obj_same l u) end) eqn:Ed.
  - (* everything is recompiled *)
    cbn [fold_left].
    assert (NoObj : forall s m1 m2, rg = Forward -> stored (s_disk st) = Some s -> R h (mtof st) m1 ->
      R h (mtof st) m2 -> (pchs (s_cfg st) <> [] -> pchclean s (s_cfg st) m1) -> objclean s (s_cfg st) m2 -> False).
    { intros s m1 m2 Fw Hs Hm1 Hm2 HC OC. rewrite r_load, Hs in Ed. apply orb_true_iff in Ed as [D|D].
      - exact (Frc Fw D s m1 Hs Hm1 HC).
      - apply negb_true_iff in D. apply (objclean_saw h (mtof st) m2 g) in OC; [|exact (LR s Hs)|exact Hm2].
        apply (obj_same_iff _ _ _ _ L' H2 H3) in OC. congruence. }
    constructor; stp; try assumption.
    + intros q1 q2. split; [discriminate|reflexivity].
    + intros _. constructor; stp; try assumption.
      unfold Proof_TargetRun.Stage. stp. constructor; stp; rewrite ?so_src; try assumption; try reflexivity.
      * rewrite app_nil_r, (like_sources _ _ L'). exact NDs.
      * intros i Hi. exact Hi.
      * intros _. rewrite app_nil_r, (like_sources _ _ L'). split; [reflexivity|].
        intros P. exact (proj1 (so_pch P eq_refl)).
      * intros Fw s m1 m2 Hs Hm1 Hm2 HC OC. destruct (NoObj s m1 m2 Fw Hs Hm1 Hm2 HC OC).
      * intros _ E. destruct (Now E) as (N1 & N2 & N3). unfold nowObj. stp. rewrite so_src, app_nil_r. repeat split; auto.
        intros i Hi. exact (Hashed_In _ _ _ _ N1 Hi).
      * discriminate.
  - (* selected sources *)
    destruct (s_load st) as [l|] eqn:El; [|discriminate]. apply orb_false_iff in Ed as [D Ed].
    apply negb_false_iff in Ed. apply (obj_same_iff _ _ _ _ L' H2 H3) in Ed.
    destruct (recompile_sources (ts_sources l) (ts_sources u)) as [[sel dum] ch] eqn:Er.
    destruct (recompile_sources_spec _ _ _ _ _ ND Er) as (Sel & Dum & Ch & Pm).
    assert (Hst : stored (s_disk st) = Some l) by congruence.
    assert (Obj : forall p, In p (sources (s_cfg st)) -> matches l g p ->
               obj_current e (s_cfg st) g (s_disk st) p) by exact (LO l eq_refl D Hst Ed).
    assert (Nd : nlist dum).
    { apply Forall_forall. intros i Hi. apply Dum in Hi as [Hi _].
      pose proof (sources_npath (s_cfg st)) as K. rewrite <- (like_sources _ _ L') in K.
      rewrite Forall_forall in K. apply K. apply in_map. exact Hi. }
    assert (Pp : Permutation (il_paths sel ++ il_paths dum) (sources (s_cfg st))).
    { rewrite <- (like_sources _ _ L'). unfold il_paths. rewrite <- map_app. symmetry. apply Permutation_map. exact Pm. }
    rewrite (fold_add dum _ Nd). constructor; stp; try assumption.
    + intros q1 q2. destruct (i_quiet q1 q2). congruence.
    + intros _. constructor; stp; try assumption.
      * congruence.
      * tsp. rewrite so_src. cbn [app]. intros i Hi. apply in_app_iff in Hi as [Hi|Hi].
        -- apply Dum in Hi as [Hi _]. apply (Fresh_tracked rg h _ _ u); [exact L'|exact F'|].
           unfold all_infos. apply in_app_iff. left. exact Hi.
        -- apply r_freshb. apply in_app_iff. right. exact Hi.
      * destruct BI. constructor; tsp; [exact b_pch| |congruence].
        rewrite so_src. cbn [app]. intros i Hi. apply Dum in Hi as [Hi M].
        assert (Hp : In (pi_path i) (sources (s_cfg st))).
        { rewrite <- (like_sources _ _ L'). apply in_map. exact Hi. }
        split; [exact Hp|]. apply (Hashed_lookup g l (ts_sources u) i (SrcH i Hi)) in M.
        destruct (Obj _ Hp M) as (a & A1 & A2 & A3 & A4 & A5). exists a. repeat split; try assumption.
        intros j Hj. rewrite (A4 (pi_path j)).
        -- apply rec_self. destruct Hj as [<-|Hj]; [exact (SrcH _ Hi)|].
           apply in_app_iff in Hj as [Hj|Hj]; [exact (Hashed_In _ _ _ _ H2 Hj)|exact (Hashed_In _ _ _ _ H3 Hj)].
        -- destruct Hj as [<-|Hj]; [left; reflexivity|right]. rewrite in_app_iff in *.
           destruct Hj as [Hj|Hj]; [left; rewrite <- (Hashed_paths _ _ _ H2)|right; rewrite <- (Hashed_paths _ _ _ H3)];
             apply in_map; exact Hj.
      * unfold Proof_TargetRun.Stage. stp. constructor; stp; tsp; rewrite ?so_src; cbn [app]; try assumption.
        -- rewrite Pp. exact NDs.
        -- intros i Hi. apply Sel in Hi. tauto.
        -- intros K. destruct ch; [reflexivity|]. exfalso. apply K. apply Ch. reflexivity.
        -- intros _. split; [exact Pp|]. intros P. exact (proj1 (so_pch P eq_refl)).
        -- intros Fw s m1 m2 Hs Hm1 Hm2 HC OC. assert (s = l) as -> by congruence. split.
           ++ intros i Hi M. apply Sel in Hi as [Hi K]. apply K.
              apply (Hashed_lookup g l (ts_sources u) i (SrcH i Hi)).
              exact (matches_saw h _ m2 g l _ (LR l Hst) Hm2 M).
           ++ intros Hch SC. apply (srcclean_saw h (mtof st) m2 g) in SC; [|exact (LR l Hst)|exact Hm2].
              destruct SC as [SC1 SC2].
              assert (ch = false); [|congruence]. apply Ch. split.
              ** destruct sel as [|i sel]; [reflexivity|exfalso]. destruct (proj1 (Sel i) (or_introl eq_refl)) as [Hi K].
                 apply K. apply (Hashed_lookup g l (ts_sources u) i (SrcH i Hi)). apply SC1.
                 rewrite <- (like_sources _ _ L'). apply in_map. exact Hi.
              ** rewrite (like_sources _ _ L'). exact SC2.
        -- intros _ E. destruct (Now E) as (N1 & N2 & N3). unfold nowObj. stp. tsp. rewrite ?so_src. cbn [app]. repeat split; auto.
           intros i Hi. apply (Hashed_In _ _ _ _ N1). apply in_app_iff in Hi as [Hi|Hi]; [apply Sel in Hi|apply Dum in Hi]; tauto.
        -- intros _ Hch. exists l. split; [exact El|]. intros E. split; [|split].
           ++ intros P. destruct (so_clean P eq_refl D) as (s & A & _ & B). assert (s = l) as -> by congruence. exact (B E).
           ++ exact (objclean_agree l _ g _ (LS E) Ed).
           ++ apply (srcclean_agree l _ g _ (LS E)). apply Ch in Hch as [-> Sub]. split.
              ** intros p Hp. rewrite <- (like_sources _ _ L') in Hp. apply in_map_iff in Hp as (i & <- & Hi).
                 apply (Hashed_lookup g l (ts_sources u) i (SrcH i Hi)).
                 destruct (proj1 (Dum i)) as [_ K]; [|exact K]. cbn [app] in Pm.
                 apply (Permutation_in i Pm). exact Hi.
              ** intros p Hp. rewrite <- (like_sources _ _ L'). exact (Sub p Hp).
Qed.

Lemma link_check_saw_Inv (h : hist) (st : tstate) (g : times) :
  s_pc st = PcCompile [] -> Look h st g -> Inv h st -> Inv h (link_check_saw st g).
Proof.
  intros Hpc [LN LR LS] I. pose proof I as I0. destruct I0 as [i_next i_bound i_safe i_quiet i_run].
  assert (RI : RunInv h st) by (apply i_run; congruence). destruct RI.
  unfold Proof_TargetRun.Stage in r_stage. rewrite Hpc in r_stage. destruct r_stage.
  unfold link_check_saw. destruct (s_ok st) eqn:Eok; cbn [negb].
  2:{ constructor; stp; try assumption.
      - intros q1 q2. destruct (i_quiet q1 q2) as [_ K]. split; [discriminate|exact K].
      - intros _. constructor; stp; try assumption.
        unfold Proof_TargetRun.Stage. stp. constructor; stp; intros; congruence. }
  destruct (link_pre g (s_user st)) as [u b] eqn:Ep.
  destruct (link_pre_spec rg h _ _ _ _ _ LN r_like r_fresh Ep) as (L' & F' & E1 & E2 & HH).
  assert (BI : BufInv h (s_disk st) (s_cfg st) u (s_buf st)).
  { destruct r_buf. constructor; [rewrite E1; exact b_pch|rewrite E1, E2; exact b_src|congruence]. }
  stp. destruct b; cbn [negb].
  2:{ constructor; stp; try assumption.
      - intros q1 q2. destruct (i_quiet q1 q2) as [_ K]. split; [discriminate|exact K].
      - intros _. constructor; stp; try assumption.
        unfold Proof_TargetRun.Stage. stp. constructor; stp; intros; congruence. }
  destruct (HH eq_refl) as [H1 H2]. destruct (sc_ok eq_refl) as [Pm Pc]. cbn [il_paths map app] in Pm.
  destruct (match s_load st with None => true | Some l => s_dirty st || negb (link_same l u) end) eqn:Ed.
  - constructor; stp; try assumption.
    + intros q1 q2. split; [discriminate|reflexivity].
    + intros _. constructor; stp; try assumption.
      unfold Proof_TargetRun.Stage. stp. constructor; stp; try assumption; try reflexivity.
      * intros Fw s m1 m2 m3 Hs Hm1 Hm2 Hm3 C1 C2 C3 C4. rewrite r_load, Hs in Ed. apply orb_true_iff in Ed as [D|D].
        -- destruct (sc_forced Fw s m1 m2 Hs Hm1 Hm2 C1 C2) as [_ K]. exact (K D C3).
        -- apply negb_true_iff in D. apply (linkclean_saw h (mtof st) m3 g) in C4; [|exact (LR s Hs)|exact Hm3].
           apply (link_same_iff _ _ _ _ L' H1 H2) in C4. congruence.
      * intros E. destruct (sc_now eq_refl E) as (A & B & C & D). unfold nowAll, nowObj. stp. rewrite E1, E2.
        destruct (still _ _ _ (LS E)) as (_ & _ & _ & A1 & _ & A2).
        repeat split; auto; [exact (Hashed_agree _ _ _ _ A1 H1)|exact (Hashed_agree _ _ _ _ A2 H2)].
  - destruct (s_load st) as [l|] eqn:El; [|discriminate]. apply orb_false_iff in Ed as [D Ed].
    apply negb_false_iff in Ed. apply (link_same_iff _ _ _ _ L' H1 H2) in Ed.
    constructor; stp; try assumption.
    + intros q1 q2. destruct (i_quiet q1 q2). congruence.
    + intros _. constructor; stp; try assumption; [congruence|].
      unfold Proof_TargetRun.Stage. stp. constructor; stp; [discriminate|]. intros _ _.
      destruct (sc_clean eq_refl D) as (s & A & B). exists s. split; [congruence|]. intros E.
      assert (s = l) as -> by congruence. destruct (B E) as (B1 & B2 & B3). split; [exact B1|split; [exact B2|split; [exact B3|exact (linkclean_agree l _ g _ (LS E) Ed)]]].
Qed.
End Check.
