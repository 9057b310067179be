(** Object stage, link stage and end task preserve the invariant; what holds at
    the end of a run. *)
From Verif Require Import Prelude Proof_Prelude Model_Path Model_Json Model_Schema Spec_Json Proof_Dec
  Proof_Schema Model_Command Spec_Command Proof_Command Model_ToolchainConfig Model_Target Spec_Target
  Proof_TargetBase Proof_TargetInv Proof_TargetRun Proof_TargetStep.

Section Step.
Context (rg : regime) (e : tenv) (T : templates_ok e).

Local Notation R := (R rg).
Local Notation fresh := (fresh rg).
Local Notation Fresh := (Fresh rg).
Local Notation SafeS := (SafeS rg e).
Local Notation BufInv := (BufInv rg e).
Local Notation Inv := (Inv rg e).
Local Notation RunInv := (RunInv rg e).
Local Notation Stage := (Stage rg e).
Local Notation forcedP := (forcedP rg).
Local Notation mtof st := (d_mt (s_disk st)).

Lemma Fresh_sources (h : hist) (mt : times) (u : tschema) (i : pathinfo) :
  Fresh h mt u -> In i (ts_sources u) -> fresh h mt i.
Proof. intros F Hi. apply F. unfold all_infos. rewrite !in_app_iff. tauto. Qed.
Lemma Fresh_headers (h : hist) (mt : times) (u : tschema) (i : pathinfo) :
  Fresh h mt u -> In i (ts_headers u) -> fresh h mt i.
Proof. intros F Hi. apply F. unfold all_infos. rewrite !in_app_iff. tauto. Qed.
Lemma Fresh_cdeps (h : hist) (mt : times) (u : tschema) (i : pathinfo) :
  Fresh h mt u -> In i (ts_compile_deps u) -> fresh h mt i.
Proof. intros F Hi. apply F. unfold all_infos. rewrite !in_app_iff. tauto. Qed.
Lemma Fresh_libs (h : hist) (mt : times) (u : tschema) (i : pathinfo) :
  Fresh h mt u -> In i (ts_libs u ++ ts_link_deps u) -> fresh h mt i.
Proof. intros F Hi. apply F. unfold all_infos. rewrite !in_app_iff in *. tauto. Qed.

Lemma Hashed_lookup (mt : times) (s : tschema) (l : infolist) (i : pathinfo) :
  hashed mt (pi_path i) (pi_hash i) ->
  (il_lookup (ts_sources s) (pi_path i) = Some (pi_hash i) <-> matches s mt (pi_path i)).
Proof.
  intros H. split.
  - intros K. exists (pi_hash i). split; assumption.
  - intros (hh & K & L). rewrite K. f_equal. exact (hashed_fun _ _ _ _ L H).
Qed.

(** ** Object check *)

Lemma obj_check_Inv (h : hist) (st : tstate) :
  s_pc st = PcObj -> Inv h st -> Inv h (obj_check st).
Proof.
  intros Hpc I. pose proof I as I0. destruct I0 as [i_next i_bound i_safe i_quiet i_run].
  assert (RI : RunInv h st) by (apply i_run; congruence). destruct RI.
  unfold Proof_TargetRun.Stage in r_stage. rewrite Hpc in r_stage. destruct r_stage.
  assert (NDs : NoDup (map (obj_of e) (sources (s_cfg st)))) by exact (proj1 r_perm).
  assert (Frc : rg = Forward -> s_dirty st = true ->
    forall s m1, stored (s_disk st) = Some s -> R h (mtof st) m1 ->
    (pchs (s_cfg st) <> [] -> pchclean s (s_cfg st) m1) -> False).
  { intros Fw D s m1 Hs Hm HC. destruct (so_forced D) as [P F]. exact (F Fw s m1 Hs Hm (HC P)). }
  unfold obj_check. destruct (s_ok st) eqn:Eok; cbn [negb].
  2:{ constructor; stp; try assumption.
      - intros q1 q2. destruct (i_quiet q1 q2) as [_ K]. split; [discriminate|exact K].
      - intros _. constructor; stp; try assumption.
        unfold Proof_TargetRun.Stage. stp. constructor; stp; rewrite ?so_src; try assumption; try (intros; congruence).
        + constructor.
        + intros i [].
        + intros Fw s m1 m2 Hs H1 H2 HC OC. split; [intros i []|]. intros D. destruct (Frc Fw D s m1 Hs H1 HC). }
  destruct (obj_pre (mtof st) (s_user st)) as [u b] eqn:Ep.
  destruct (obj_pre_spec rg h _ _ _ _ _ i_next r_like r_fresh Ep) as (L' & F' & SameH & HH).
  assert (BI : BufInv h (s_disk st) (s_cfg st) u (s_buf st)).
  { destruct r_buf. constructor.
    - intros K. destruct (b_pch K) as (A & B & C). split; [exact A|]. split; [exact B|].
      destruct (so_pch A eq_refl) as (_ & HN & _). rewrite (SameH HN). exact C.
    - rewrite so_src. intros i [].
    - congruence. }
  stp. destruct b; cbn [negb].
  2:{ constructor; stp; try assumption.
      - intros q1 q2. destruct (i_quiet q1 q2) as [_ K]. split; [discriminate|exact K].
      - intros _. constructor; stp; try assumption.
        unfold Proof_TargetRun.Stage. stp. constructor; stp; rewrite ?so_src; try assumption; try (intros; congruence).
        + constructor.
        + intros i [].
        + intros Fw s m1 m2 Hs H1 H2 HC OC. split; [intros i []|]. intros D. destruct (Frc Fw D s m1 Hs H1 HC). }
  destruct (HH eq_refl) as (H1 & H2 & H3).
  assert (ND : NoDup (il_paths (ts_sources u))).
  { rewrite (like_sources _ _ L'). apply (nodup_sources e). exact NDs. }
  assert (SrcH : forall i, In i (ts_sources u) -> hashed (mtof st) (pi_path i) (pi_hash i)).
  { intros i Hi. exact (Hashed_In _ _ _ _ H1 Hi). }
  assert (PchNow : pchs (s_cfg st) <> [] -> h_edited h = false ->
                   Hashed (mtof st) (pchs (s_cfg st)) (ts_pchs (s_buf st))).
  { intros P Ed. destruct (so_pch P eq_refl) as (_ & _ & K). exact (K Ed). }
  destruct (match s_load st with None => true | Some l => s_dirty st || negb (obj_same l u) end) eqn:Ed.
  - (* everything is recompiled *)
    cbn [fold_left].
    assert (NoObj : forall s m1 m2, rg = Forward -> stored (s_disk st) = Some s -> R h (mtof st) m1 ->
      R h (mtof st) m2 -> (pchs (s_cfg st) <> [] -> pchclean s (s_cfg st) m1) -> objclean s (s_cfg st) m2 -> False).
    { intros s m1 m2 Fw Hs Hm1 Hm2 HC OC. rewrite r_load, Hs in Ed. apply orb_true_iff in Ed as [D|D].
      - exact (Frc Fw D s m1 Hs Hm1 HC).
      - apply negb_true_iff in D. apply (objclean_back rg h (mtof st)) in OC; [|exact (i_bound Fw s Hs)|exact Hm2].
        apply (obj_same_iff _ _ _ _ L' H2 H3) in OC. congruence. }
    constructor; stp; try assumption.
    + intros q1 q2. split; [discriminate|reflexivity].
    + intros _. constructor; stp; try assumption.
      unfold Proof_TargetRun.Stage. stp. constructor; stp; rewrite ?so_src; try assumption; try reflexivity.
      * rewrite app_nil_r, (like_sources _ _ L'). exact NDs.
      * intros i Hi. exact Hi.
      * intros _. rewrite app_nil_r, (like_sources _ _ L'). split; [reflexivity|].
        intros P. exact (proj1 (so_pch P eq_refl)).
      * intros Fw s m1 m2 Hs Hm1 Hm2 HC OC. destruct (NoObj s m1 m2 Fw Hs Hm1 Hm2 HC OC).
      * intros _ E. unfold nowObj. stp. rewrite so_src, app_nil_r. repeat split; auto.
      * discriminate.
  - (* selected sources *)
    destruct (s_load st) as [l|] eqn:El; [|discriminate]. apply orb_false_iff in Ed as [D Ed].
    apply negb_false_iff in Ed. apply (obj_same_iff _ _ _ _ L' H2 H3) in Ed.
    destruct (recompile_sources (ts_sources l) (ts_sources u)) as [[sel dum] ch] eqn:Er.
    destruct (recompile_sources_spec _ _ _ _ _ ND Er) as (Sel & Dum & Ch & Pm).
    assert (Hst : stored (s_disk st) = Some l) by congruence.
    pose proof (safe_now rg e h st l I D Hst (s_cfg st) r_perm) as (S1 & S2 & S3).
    assert (Obj : forall p, In p (sources (s_cfg st)) -> matches l (mtof st) p ->
               obj_current e (s_cfg st) (mtof st) (s_disk st) p).
    { intros p Hp M. destruct (contains_pch (s_cfg st)) eqn:Ec.
      - apply contains_pch_iff in Ec. destruct (so_clean Ec eq_refl D) as (s & A & B & _).
        assert (s = l) as -> by congruence. exact (B _ p (R_refl rg h _) Ed Hp M).
      - apply contains_pch_false in Ec. apply (S2 (mtof st) (mtof st)); auto using R_refl. congruence. }
    assert (Nd : nlist dum).
    { apply Forall_forall. intros i Hi. apply Dum in Hi as [Hi _].
      pose proof (sources_npath (s_cfg st)) as K. rewrite <- (like_sources _ _ L') in K.
      rewrite Forall_forall in K. apply K. apply in_map. exact Hi. }
    assert (Pp : Permutation (il_paths sel ++ il_paths dum) (sources (s_cfg st))).
    { rewrite <- (like_sources _ _ L'). unfold il_paths. rewrite <- map_app. symmetry. apply Permutation_map. exact Pm. }
    rewrite (fold_add dum _ Nd). constructor; stp; try assumption.
    + intros q1 q2. destruct (i_quiet q1 q2). congruence.
    + intros _. constructor; stp; try assumption.
      * congruence.
      * tsp. rewrite so_src. cbn [app]. intros i Hi. apply in_app_iff in Hi as [Hi|Hi].
        -- apply Dum in Hi as [Hi _]. apply (Fresh_tracked rg h _ _ u); [exact L'|exact F'|].
           unfold all_infos. apply in_app_iff. left. exact Hi.
        -- apply r_freshb. apply in_app_iff. right. exact Hi.
      * destruct BI. constructor; tsp; [exact b_pch| |congruence].
        rewrite so_src. cbn [app]. intros i Hi. apply Dum in Hi as [Hi M].
        assert (Hp : In (pi_path i) (sources (s_cfg st))).
        { rewrite <- (like_sources _ _ L'). apply in_map. exact Hi. }
        split; [exact Hp|]. apply (Hashed_lookup (mtof st) l (ts_sources u) i (SrcH i Hi)) in M.
        destruct (Obj _ Hp M) as (a & A1 & A2 & A3 & A4 & A5). exists a. repeat split; try assumption.
        intros j Hj. rewrite (A4 (pi_path j)).
        -- apply fresh_rec. destruct Hj as [<-|Hj]; [exact (Fresh_sources _ _ _ _ F' Hi)|].
           apply in_app_iff in Hj as [Hj|Hj]; [exact (Fresh_headers _ _ _ _ F' Hj)|exact (Fresh_cdeps _ _ _ _ F' Hj)].
        -- destruct Hj as [<-|Hj]; [left; reflexivity|right]. rewrite in_app_iff in *.
           destruct Hj as [Hj|Hj]; [left; rewrite <- (Hashed_paths _ _ _ H2)|right; rewrite <- (Hashed_paths _ _ _ H3)];
             apply in_map; exact Hj.
      * unfold Proof_TargetRun.Stage. stp. constructor; stp; tsp; rewrite ?so_src; cbn [app]; try assumption.
        -- rewrite Pp. exact NDs.
        -- intros i Hi. apply Sel in Hi. tauto.
        -- intros K. destruct ch; [reflexivity|]. exfalso. apply K. apply Ch. reflexivity.
        -- intros _. split; [exact Pp|]. intros P. exact (proj1 (so_pch P eq_refl)).
        -- intros Fw s m1 m2 Hs Hm1 Hm2 HC OC. assert (s = l) as -> by congruence. split.
           ++ intros i Hi M. apply Sel in Hi as [Hi K]. apply K.
              apply (Hashed_lookup (mtof st) l (ts_sources u) i (SrcH i Hi)).
              exact (matches_back rg h _ m2 l _ (i_bound Fw l Hst) Hm2 M).
           ++ intros Hch SC. apply (srcclean_back rg h (mtof st)) in SC; [|exact (i_bound Fw l Hst)|exact Hm2].
              destruct SC as [SC1 SC2].
              assert (ch = false); [|congruence]. apply Ch. split.
              ** destruct sel as [|i sel]; [reflexivity|exfalso]. destruct (proj1 (Sel i) (or_introl eq_refl)) as [Hi K].
                 apply K. apply (Hashed_lookup (mtof st) l (ts_sources u) i (SrcH i Hi)). apply SC1.
                 rewrite <- (like_sources _ _ L'). apply in_map. exact Hi.
              ** rewrite (like_sources _ _ L'). exact SC2.
        -- intros _ E. unfold nowObj. stp. tsp. rewrite ?so_src. cbn [app]. repeat split; auto.
           intros i Hi. apply SrcH. apply in_app_iff in Hi as [Hi|Hi]; [apply Sel in Hi|apply Dum in Hi]; tauto.
        -- intros _ Hch. exists l. split; [exact El|]. intros E. split; [|split].
           ++ intros P. destruct (so_clean P eq_refl D) as (s & A & _ & B). assert (s = l) as -> by congruence. exact (B E).
           ++ exact Ed.
           ++ apply Ch in Hch as [-> Sub]. split.
              ** intros p Hp. rewrite <- (like_sources _ _ L') in Hp. apply in_map_iff in Hp as (i & <- & Hi).
                 apply (Hashed_lookup (mtof st) l (ts_sources u) i (SrcH i Hi)).
                 destruct (proj1 (Dum i)) as [_ K]; [|exact K]. cbn [app] in Pm.
                 apply (Permutation_in i Pm). exact Hi.
              ** intros p Hp. rewrite <- (like_sources _ _ L'). exact (Sub p Hp).
Qed.

(** ** Compile subtasks *)

Lemma NoDup_map_inj {A B} (f : A -> B) (l : list A) (x y : A) :
  NoDup (map f l) -> In x l -> In y l -> f x = f y -> x = y.
Proof.
  induction l as [|a l IH]; intros N Hx Hy E; [contradiction|]. cbn in N. apply NoDup_cons_iff in N as [N1 N2].
  destruct Hx as [->|Hx], Hy as [->|Hy]; auto.
  - exfalso. apply N1. rewrite E. apply in_map. exact Hy.
  - exfalso. apply N1. rewrite <- E. apply in_map. exact Hx.
Qed.

Lemma upd_other {A} (f : string -> A) (k x : string) (v : A) : x <> k -> upd f k v x = f x.
Proof. intros H. unfold upd. destruct (String.eqb_spec x k); [contradiction|reflexivity]. Qed.
Lemma upd_same {A} (f : string -> A) (k : string) (v : A) : upd f k v k = v.
Proof. unfold upd. rewrite String.eqb_refl. reflexivity. Qed.

Lemma obj_current_other (c : cfg) (m : times) (d : disk) (k p : string) (a : option obj_art) (b : bool) :
  obj_of e p <> k -> obj_current e c m d p -> obj_current e c m (set_obj d k a b) p.
Proof.
  intros H (x & A1 & A2 & A3). exists x. stp. rewrite !upd_other by exact H. split; [exact A1|]. split; [exact A2|exact A3].
Qed.
Lemma ObjGood_other (h h' : hist) (c : cfg) (d : disk) (hs ds : infolist) (i : pathinfo) (k : string) (a : option obj_art) (b : bool) :
  Rsub rg h (d_mt d) h' (d_mt d) ->
  obj_of e (pi_path i) <> k -> ObjGood rg e h d c hs ds i -> ObjGood rg e h' (set_obj d k a b) c hs ds i.
Proof.
  intros HR H (x & A1 & A2 & A3 & A4 & A5). exists x. stp. rewrite !upd_other by exact H.
  repeat split; try assumption. intros j Hj. exact (rec_ok_mono rg _ _ _ _ _ _ HR (A4 j Hj)).
Qed.

Lemma compile_Inv (h : hist) (st st' : tstate) (s : string) (pend : infolist) (r : xres obj_art) :
  s_pc st = PcCompile pend -> compile_one e st s pend r = Some st' -> Inv h st ->
  Inv (h_with_taint h (s_cfg st)) st'.
Proof.
  intros Hpc Hx []. assert (RI : RunInv h st) by (apply i_run; congruence). destruct RI.
  unfold Proof_TargetRun.Stage in r_stage. rewrite Hpc in r_stage. destruct r_stage.
  set (h' := h_with_taint h (s_cfg st)).
  assert (HR : Rsub rg h (mtof st) h' (mtof st)) by (apply Rsub_next; reflexivity).
  unfold compile_one in Hx. destruct (take_pending s pend) as [[i rest]|] eqn:Et; [|discriminate].
  destruct (compile_command e (s_cfg st) s) as [cmd| |] eqn:Ec; try discriminate.
  destruct (take_pending_spec _ _ _ _ Et) as [Es Pm]. subst s.
  assert (Ii : In i pend) by (rewrite Pm; left; reflexivity).
  assert (Ir : forall j, In j rest -> In j pend) by (intros j Hj; rewrite Pm; right; exact Hj).
  assert (Dt : s_dirty st = true) by (apply sc_dirty; intros K; rewrite K in Ii; destruct Ii).
  assert (Iu : In i (ts_sources (s_user st))) by exact (sc_in i Ii).
  assert (Ip : In (pi_path i) (sources (s_cfg st))).
  { rewrite <- (like_sources _ _ r_like). apply in_map. exact Iu. }
  assert (NP : npath (pi_path i)).
  { pose proof (sources_npath (s_cfg st)) as K. rewrite Forall_forall in K. exact (K _ Ip). }
  assert (Pp : Permutation (il_paths pend) (pi_path i :: il_paths rest)) by exact (Permutation_map pi_path Pm).
  assert (ND' : NoDup (obj_of e (pi_path i) :: map (obj_of e) (il_paths rest ++ il_paths (ts_sources (s_buf st))))).
  { eapply Permutation_NoDup; [|exact sc_nd]. rewrite Pp. reflexivity. }
  apply NoDup_cons_iff in ND' as [ND1 ND2].
  assert (Oth : forall j, In j (ts_sources (s_buf st)) -> obj_of e (pi_path j) <> obj_of e (pi_path i)).
  { intros j Hj E. apply ND1. rewrite <- E. apply in_map. apply in_app_iff. right. apply in_map. exact Hj. }
  assert (SS : forall d', (d' = s_disk st \/ exists a b, d' = set_obj (s_disk st) (obj_of e (pi_path i)) a b) ->
            rg = Forward \/ h_taint h' = None ->
            forall s, stored (s_disk st) = Some s -> SafeS h' d' s).
  { intros d' Hd [Fw|K]; [|discriminate]. intros s Hs c' Hc'. apply taint_only in Hc'. subst c'.
    destruct (i_safe (or_introl Fw) s Hs (s_cfg st) r_perm) as (S1 & S2 & S3).
    assert (Hmt : d_mt d' = mtof st) by (destruct Hd as [->|(a & b & ->)]; reflexivity). rewrite !Hmt. repeat split.
    - intros m Hm P C. pose proof (S1 m (HR m Hm) P C) as G. destruct Hd as [->|(a & b & ->)]; exact G.
    - intros m1 m2 Hm1 Hm2 C1 C2 p Hp M. pose proof (S2 m1 m2 (HR _ Hm1) (HR _ Hm2) C1 C2 p Hp M) as G.
      destruct Hd as [->|(a & b & ->)]; [exact G|]. apply obj_current_other; [|exact G].
      intros E. assert (p = pi_path i) as -> by exact (NoDup_map_inj _ _ _ _ (proj1 r_perm) Hp Ip E).
      destruct (sc_forced Fw s m1 m2 Hs (HR _ Hm1) (HR _ Hm2) C1 C2) as [K _]. exact (K i Ii M).
    - intros m1 m2 m3 Hm1 Hm2 Hm3 C1 C2 C3. exfalso.
      destruct (sc_forced Fw s m1 m2 Hs (HR _ Hm1) (HR _ Hm2) C1 C2) as [_ K]. exact (K Dt C3). }
  assert (FC : rg = Forward -> forall s m1 m2, stored (s_disk st) = Some s ->
    R h' (mtof st) m1 -> R h' (mtof st) m2 ->
    (pchs (s_cfg st) <> [] -> pchclean s (s_cfg st) m1) -> objclean s (s_cfg st) m2 ->
    (forall i, In i rest -> ~ matches s m2 (pi_path i)) /\
    (s_dirty st = true -> ~ srcclean s (s_cfg st) m2)).
  { intros Fw s m1 m2 Hs Hm1 Hm2 C1 C2.
    destruct (sc_forced Fw s m1 m2 Hs (HR _ Hm1) (HR _ Hm2) C1 C2) as [K1 K2]. split; [|exact K2].
    intros j Hj. apply K1. exact (Ir j Hj). }
  assert (BIo : forall a b, BufInv h' (set_obj (s_disk st) (obj_of e (pi_path i)) a b) (s_cfg st) (s_user st) (s_buf st)).
  { intros a b. destruct r_buf. constructor.
    - intros K. destruct (b_pch K) as (A & B & C). split; [exact A|]. split; [exact B|]. exact C.
    - intros j Hj. destruct (b_src j Hj) as [A B]. split; [exact A|].
      apply (ObjGood_other h h'); [exact HR|exact (Oth j Hj)|exact B].
    - congruence. }
  injection Hx as <-. destruct (run_res cmd r) as [|lo|] eqn:Er.
  - constructor; stp; try assumption.
    + intros K s Hs. apply SS; [right; eauto|exact K|exact Hs].
    + intros _ _. split; [discriminate|exact Dt].
    + intros _. constructor; stp; try assumption.
      * apply taint_permitted. exact r_perm.
      * rewrite (add_source_npath _ _ NP). tsp. intros j Hj. rewrite !in_app_iff in Hj.
        destruct Hj as [[Hj|[<-|[]]]|Hj].
        -- apply r_freshb. apply in_app_iff. left. exact Hj.
        -- apply (Fresh_tracked rg h _ _ (s_user st)); [exact r_like|exact r_fresh|].
           unfold all_infos. apply in_app_iff. left. exact Iu.
        -- apply r_freshb. apply in_app_iff. right. exact Hj.
      * rewrite (add_source_npath _ _ NP).
        destruct (BIo (Some (OA cmd (mtof st) (d_pch (s_disk st)))) false). constructor; tsp; [exact b_pch| |congruence].
        intros j Hj. apply in_app_iff in Hj as [Hj|[<-|[]]]; [exact (b_src j Hj)|]. split; [exact Ip|].
        eexists. stp. rewrite !upd_same. split; [reflexivity|]. split; [reflexivity|]. split; [exact Ec|].
        split; [|reflexivity]. cbn [a_snap]. intros j [<-|Hj]; apply fresh_rec.
        -- exact (Fresh_sources _ _ _ _ r_fresh Iu).
        -- apply in_app_iff in Hj as [Hj|Hj]; [exact (Fresh_headers _ _ _ _ r_fresh Hj)|exact (Fresh_cdeps _ _ _ _ r_fresh Hj)].
      * unfold Proof_TargetRun.Stage. stp. rewrite (add_source_npath _ _ NP).
        assert (Pq : Permutation (il_paths rest ++ il_paths (ts_sources (s_buf st) ++ [i]))
                       (il_paths pend ++ il_paths (ts_sources (s_buf st)))).
        { rewrite Pp. unfold il_paths. rewrite map_app. cbn [map app]. rewrite app_assoc.
          symmetry. apply Permutation_cons_append. }
        constructor; stp; tsp; try assumption; auto.
        -- rewrite Pq. exact sc_nd.
        -- intros O. destruct (sc_ok O) as [A B]. split; [rewrite Pq; exact A|exact B].
        -- intros O E. destruct (sc_now O E) as (A & B & C & D). unfold nowObj. stp. tsp. repeat split; auto.
           intros j Hj. apply D. rewrite !in_app_iff in *. destruct Hj as [Hj|[Hj|[<-|[]]]]; auto.
  - constructor; stp; try assumption.
    + intros K s Hs. apply SS; [right; eauto|exact K|exact Hs].
    + intros _ _. split; [discriminate|exact Dt].
    + intros _. constructor; stp; try assumption; try (apply BIo).
      * apply taint_permitted. exact r_perm.
      * unfold Proof_TargetRun.Stage. stp. constructor; stp; tsp; try assumption; try discriminate; auto.
  - constructor; stp; try assumption.
    + intros K s Hs. apply SS; [right; eauto|exact K|exact Hs].
    + intros _ _. split; [discriminate|exact Dt].
    + intros _. constructor; stp; try assumption; try (apply BIo).
      * apply taint_permitted. exact r_perm.
      * unfold Proof_TargetRun.Stage. stp. constructor; stp; tsp; try assumption; try discriminate; auto.
Qed.

(** ** Link *)

Lemma link_check_Inv (h : hist) (st : tstate) :
  s_pc st = PcCompile [] -> Inv h st -> Inv h (link_check st).
Proof.
  intros Hpc I. pose proof I as I0. destruct I0 as [i_next i_bound i_safe i_quiet i_run].
  assert (RI : RunInv h st) by (apply i_run; congruence). destruct RI.
  unfold Proof_TargetRun.Stage in r_stage. rewrite Hpc in r_stage. destruct r_stage.
  unfold link_check. destruct (s_ok st) eqn:Eok; cbn [negb].
  2:{ constructor; stp; try assumption.
      - intros q1 q2. destruct (i_quiet q1 q2) as [_ K]. split; [discriminate|exact K].
      - intros _. constructor; stp; try assumption.
        unfold Proof_TargetRun.Stage. stp. constructor; stp; intros; congruence. }
  destruct (link_pre (mtof st) (s_user st)) as [u b] eqn:Ep.
  destruct (link_pre_spec rg h _ _ _ _ _ i_next r_like r_fresh Ep) as (L' & F' & E1 & E2 & HH).
  assert (BI : BufInv h (s_disk st) (s_cfg st) u (s_buf st)).
  { destruct r_buf. constructor; [rewrite E1; exact b_pch|rewrite E1, E2; exact b_src|congruence]. }
  stp. destruct b; cbn [negb].
  2:{ constructor; stp; try assumption.
      - intros q1 q2. destruct (i_quiet q1 q2) as [_ K]. split; [discriminate|exact K].
      - intros _. constructor; stp; try assumption.
        unfold Proof_TargetRun.Stage. stp. constructor; stp; intros; congruence. }
  destruct (HH eq_refl) as [H1 H2]. destruct (sc_ok eq_refl) as [Pm Pc]. cbn [il_paths map app] in Pm.
  destruct (match s_load st with None => true | Some l => s_dirty st || negb (link_same l u) end) eqn:Ed.
  - constructor; stp; try assumption.
    + intros q1 q2. split; [discriminate|reflexivity].
    + intros _. constructor; stp; try assumption.
      unfold Proof_TargetRun.Stage. stp. constructor; stp; try assumption; try reflexivity.
      * intros Fw s m1 m2 m3 Hs Hm1 Hm2 Hm3 C1 C2 C3 C4. rewrite r_load, Hs in Ed. apply orb_true_iff in Ed as [D|D].
        -- destruct (sc_forced Fw s m1 m2 Hs Hm1 Hm2 C1 C2) as [_ K]. exact (K D C3).
        -- apply negb_true_iff in D. apply (linkclean_back rg h (mtof st)) in C4; [|exact (i_bound Fw s Hs)|exact Hm3].
           apply (link_same_iff _ _ _ _ L' H1 H2) in C4. congruence.
      * intros E. destruct (sc_now eq_refl E) as (A & B & C & D). unfold nowAll, nowObj. stp. rewrite E1, E2. repeat split; auto.
  - destruct (s_load st) as [l|] eqn:El; [|discriminate]. apply orb_false_iff in Ed as [D Ed].
    apply negb_false_iff in Ed. apply (link_same_iff _ _ _ _ L' H1 H2) in Ed.
    constructor; stp; try assumption.
    + intros q1 q2. destruct (i_quiet q1 q2). congruence.
    + intros _. constructor; stp; try assumption; [congruence|].
      unfold Proof_TargetRun.Stage. stp. constructor; stp; [discriminate|]. intros _ _.
      destruct (sc_clean eq_refl D) as (s & A & B). exists s. split; [congruence|]. intros E.
      assert (s = l) as -> by congruence. destruct (B E) as (B1 & B2 & B3). split; [exact B1|split; [exact B2|split; [exact B3|exact Ed]]].
Qed.

Lemma link_exec_Inv (h : hist) (st st' : tstate) (r : xres tgt_art) :
  s_pc st = PcLinkExec -> link_exec e st r = Some st' -> Inv h st -> Inv (h_with_taint h (s_cfg st)) st'.
Proof.
  intros Hpc Hx []. assert (RI : RunInv h st) by (apply i_run; congruence). destruct RI.
  unfold Proof_TargetRun.Stage in r_stage. rewrite Hpc in r_stage. destruct r_stage.
  set (h' := h_with_taint h (s_cfg st)).
  assert (HR : Rsub rg h (mtof st) h' (mtof st)) by (apply Rsub_next; reflexivity).
  assert (SS : forall d', (d' = s_disk st \/ exists a b, d' = set_tgt (s_disk st) a b) ->
            rg = Forward \/ h_taint h' = None ->
            forall s, stored (s_disk st) = Some s -> SafeS h' d' s).
  { intros d' Hd [Fw|K]; [|discriminate]. intros s Hs c' Hc'. apply taint_only in Hc'. subst c'.
    destruct (i_safe (or_introl Fw) s Hs (s_cfg st) r_perm) as (S1 & S2 & S3).
    assert (Hmt : d_mt d' = mtof st) by (destruct Hd as [->|(a & b & ->)]; reflexivity). rewrite !Hmt. repeat split.
    - intros m Hm P C. pose proof (S1 m (HR m Hm) P C) as G. destruct Hd as [->|(a & b & ->)]; exact G.
    - intros m1 m2 Hm1 Hm2 C1 C2 p Hp M. pose proof (S2 m1 m2 (HR _ Hm1) (HR _ Hm2) C1 C2 p Hp M) as G.
      destruct Hd as [->|(a & b & ->)]; exact G.
    - intros m1 m2 m3 Hm1 Hm2 Hm3 C1 C2 C3 C4. exfalso.
      exact (sl_forced Fw s m1 m2 m3 Hs (HR _ Hm1) (HR _ Hm2) (HR _ Hm3) C1 C2 C3 C4). }
  assert (BIo : forall a b, BufInv h' (set_tgt (s_disk st) a b) (s_cfg st) (s_user st) (s_buf st)).
  { intros a b. destruct r_buf. constructor; [exact b_pch|exact b_src|congruence]. }
  unfold link_exec in Hx. destruct (link_command e (s_cfg st) (s_ord st)) as [cmd| |] eqn:Ec; try discriminate.
  injection Hx as <-. destruct (run_res cmd r) as [|lo|] eqn:Er.
  - constructor; stp; try assumption.
    + intros K s Hs. apply SS; [right; eauto|exact K|exact Hs].
    + intros _ _. split; [discriminate|exact sl_dirty].
    + intros _. constructor; stp; try assumption.
      * apply taint_permitted. exact r_perm.
      * destruct (BIo (Some (TA cmd (mtof st) (d_obj (s_disk st)))) false). constructor; tsp; [exact b_pch|exact b_src|].
        intros _. split.
        -- eexists. exists (s_ord st). stp. split; [reflexivity|]. split; [reflexivity|]. split; [exact r_ord|].
           split; [exact Ec|]. split; [|reflexivity]. cbn [l_snap]. intros i Hi. apply fresh_rec.
           exact (Fresh_libs _ _ _ _ r_fresh Hi).
        -- intros p Hp. rewrite sl_perm. exact Hp.
      * unfold Proof_TargetRun.Stage. stp. constructor; stp; [|congruence]. intros _ _. tsp.
        split; [exact sl_perm|]. split; [exact sl_pch|]. split; [reflexivity|].
        intros E. destruct (sl_now E) as [A B]. split; [exact A|exact B].
  - constructor; stp; try assumption.
    + intros K s Hs. apply SS; [right; eauto|exact K|exact Hs].
    + intros _ _. split; [discriminate|exact sl_dirty].
    + intros _. constructor; stp; try assumption; try (apply BIo).
      * apply taint_permitted. exact r_perm.
      * unfold Proof_TargetRun.Stage. stp. constructor; stp; discriminate.
  - constructor; stp; try assumption.
    + intros K s Hs. apply SS; [right; eauto|exact K|exact Hs].
    + intros _ _. split; [discriminate|exact sl_dirty].
    + intros _. constructor; stp; try assumption; try (apply BIo).
      * apply taint_permitted. exact r_perm.
      * unfold Proof_TargetRun.Stage. stp. constructor; stp; discriminate.
Qed.

(** ** End *)

Definition h_clean (h : hist) : hist := HS (h_next h) None (h_lang h) (h_edited h).

Lemma end_stored (h : hist) (st : tstate) (t : string) :
  s_pc st <> Idle -> Inv h st -> store_text (update_store (s_buf st) (s_user st)) = Some t ->
  let d' := set_store (s_disk st) (Some t) in
  stored d' = Some (update_store (s_buf st) (s_user st)) /\
  Fresh h (d_mt d') (update_store (s_buf st) (s_user st)) /\
  SafeS (h_clean h) d' (update_store (s_buf st) (s_user st)).
Proof using T.
  intros Hpc [] Ht. destruct (i_run Hpc). split; [|split].
  - unfold stored. cbn. apply target_text_rt. exact Ht.
  - intros i Hi. unfold all_infos in Hi. tsp. rewrite !in_app_iff in Hi.
    assert (K1 : In i (ts_sources (s_buf st)) \/ In i (ts_pchs (s_buf st)) -> fresh h (mtof st) i)
      by (rewrite <- in_app_iff; intros K; exact (proj1 (r_freshb i K))).
    assert (K2 : In i (all_infos (s_user st)) -> fresh h (mtof st) i) by exact (r_fresh i).
    unfold all_infos in K2. rewrite !in_app_iff in K2. tauto.
  - apply (BufInv_safe rg e T _ _ (s_cfg st)).
    + exact r_like.
    + apply (BufInv_mono rg e h _ (s_disk st)); [repeat split|apply Rsub_next; reflexivity|exact r_buf].
    + exact (proj1 r_perm).
    + exact r_lang.
Qed.

Lemma SafeS_store (h : hist) (d : disk) (s : tschema) (t : option string) :
  SafeS h d s -> SafeS h (set_store d t) s.
Proof. intros S. apply (SafeS_mono rg e h h d); [exact S|repeat split|apply Rsub_refl|tauto]. Qed.

Lemma end_Inv (h : hist) (st st' : tstate) (w : wres) :
  s_pc st = PcEnd -> rg = Forward \/ s_dirty st = false \/ writes_store st w = true ->
  end_task st w = Some st' -> Inv h st -> Inv (track e h st (EvEnd w)) st'.
Proof using T.
  intros Hpc Adm Hx I. pose proof I as I0. destruct I0.
  unfold end_task in Hx. cbn [track]. destruct (s_dirty st) eqn:Ed.
  - destruct (store_text (update_store (s_buf st) (s_user st))) as [t|] eqn:Et.
    + destruct w as [| |n rep].
      * assert (EW : writes_store st WOk = true) by (unfold writes_store; rewrite Ed, Et; reflexivity).
        rewrite EW. injection Hx as <-.
        assert (Hne : s_pc st <> Idle) by congruence.
        destruct (end_stored h st t Hne I Et) as (A & B & C).
        constructor; stp.
        -- exact i_next.
        -- intros Fw s Hs. rewrite A in Hs. injection Hs as <-. exact B.
        -- intros _ s Hs. rewrite A in Hs. injection Hs as <-. exact C.
        -- intros _ K. cbn in K. congruence.
        -- congruence.
      * assert (EW : writes_store st WKeep = false) by (unfold writes_store; rewrite Ed; reflexivity).
        rewrite EW in *. destruct Adm as [Fw|[K|K]]; try discriminate. injection Hx as <-.
        constructor; stp; try assumption; [congruence|congruence].
      * destruct (short n t) as [t'|] eqn:Es; [|discriminate].
        assert (EW : writes_store st (WShort n rep) = true) by (unfold writes_store; rewrite Ed, Et; reflexivity).
        rewrite EW. assert (NS : forall s, stored (set_store (s_disk st) (Some t')) = Some s -> False).
        { intros s. rewrite (stored_short _ _ _ _ _ Et Es). discriminate. }
        destruct rep; injection Hx as <-; constructor; stp; try assumption; try congruence; try (intros ? s Hs; destruct (NS s Hs)).
        -- intros _ K. cbn in K. congruence.
        -- intros _ K. cbn in K. congruence.
    + assert (EW : writes_store st w = false).
      { unfold writes_store. rewrite Ed, Et. destruct w; reflexivity. }
      rewrite EW in *. destruct Adm as [Fw|[K|K]]; try discriminate.
      destruct w; try discriminate. injection Hx as <-.
      constructor; stp; try assumption; [congruence|congruence].
  - assert (EW : writes_store st w = false) by (unfold writes_store; rewrite Ed; reflexivity). rewrite EW.
    destruct w; try discriminate. injection Hx as <-.
    constructor; stp; try assumption.
    + intros q1 q2. destruct (i_quiet q1 q2). congruence.
    + congruence.
Qed.

Lemma crash_end_Inv (h : hist) (st st' : tstate) (n : nat) :
  step e st (EvCrashEnd n) = Some st' -> Inv h st -> Inv (h_clean h) st'.
Proof.
  intros Hx []. cbn [step] in Hx. destruct (s_pc st) eqn:Hpc; try discriminate. destruct (s_dirty st); [|discriminate].
  destruct (store_text (update_store (s_buf st) (s_user st))) as [t|] eqn:Et; [|discriminate]. cbn [bind] in Hx.
  destruct (short n t) as [t'|] eqn:Es; [|discriminate]. injection Hx as <-.
  assert (NS : forall s, stored (set_store (s_disk st) (Some t')) = Some s -> False).
  { intros s. rewrite (stored_short _ _ _ _ _ Et Es). discriminate. }
  constructor; stp; try assumption; try (intros ? s Hs; destruct (NS s Hs)).
  - intros _ K. cbn in K. congruence.
  - congruence.
Qed.

Theorem step_Inv (h : hist) (st st' : tstate) (ev : event) :
  admissible rg e h st ev -> step e st ev = Some st' -> Inv h st -> Inv (track e h st ev) st'.
Proof using T.
  intros A S I. destruct ev; cbn [step] in S.
  - injection S as <-. apply edit_Inv; assumption.
  - injection S as <-. apply fail_Inv. exact I.
  - destruct (s_pc st) eqn:E; try discriminate; injection S as <-; apply crash_Inv; assumption.
  - injection S as <-. apply drop_Inv; assumption.
  - destruct A.
  - destruct A.
  - destruct A.
  - destruct (s_pc st) eqn:E; try discriminate. exact (start_Inv rg e h st st' c ord E A S I).
  - destruct (s_pc st) eqn:E; try discriminate. injection S as <-. exact (pch_check_Inv rg e h st E I).
  - destruct (s_pc st) eqn:E; try discriminate. exact (pch_exec_Inv rg e h st st' r E S I).
  - destruct (s_pc st) eqn:E; try discriminate. injection S as <-. exact (obj_check_Inv h st E I).
  - destruct (s_pc st) eqn:E; try discriminate. exact (compile_Inv h st st' s pending r E S I).
  - destruct (s_pc st) as [| | | |[|? ?]| |] eqn:E; try discriminate. injection S as <-. exact (link_check_Inv h st E I).
  - destruct (s_pc st) eqn:E; try discriminate. exact (link_exec_Inv h st st' r E S I).
  - destruct (s_pc st) eqn:E; try discriminate. exact (end_Inv h st st' w E A S I).
  - exact (crash_end_Inv h st st' n S I).
Qed.

Theorem history_Inv (d0 : disk) (evs : list event) (h : hist) (st : tstate) :
  history rg e d0 evs h st -> Inv h st.
Proof using T.
  induction 1 as [|evs h st ev st' _ IH A S]; [apply Inv_init|]. exact (step_Inv h st st' ev A S IH).
Qed.

(** ** The end of a successful run *)

Lemma written_clean (st : tstate) (c : cfg) (mt : times) (u b : tschema) :
  like c u ->
  Permutation (il_paths (ts_sources b)) (sources c) ->
  (pchs c <> [] -> ts_pch_compiled b = true) -> ts_target_linked b = true ->
  (pchs c <> [] -> Hashed mt (pchs c) (ts_pchs b)) ->
  Hashed mt (headers c) (ts_headers u) ->
  Hashed mt (compile_deps c) (ts_compile_deps u) ->
  (forall i, In i (ts_sources b) -> hashed mt (pi_path i) (pi_hash i)) ->
  Hashed mt (libs c) (ts_libs u) -> Hashed mt (link_deps c) (ts_link_deps u) ->
  allclean (update_store b u) c mt.
Proof.
  intros L P1 P2 P3 H1 H2 H3 H4 H5 H6.
  destruct (like_flags c u L) as (F1 & F2 & F3 & F4 & F5 & F6 & F7 & F8 & F9 & F10 & F11).
  split; [|split; [|split]].
  - intros P. constructor; tsp; auto.
  - constructor; tsp; auto.
  - split; tsp.
    + intros p Hp. rewrite <- P1 in Hp. destruct (lookup_Some _ _ Hp) as (hh & K). exists hh. split; [exact K|].
      apply lookup_In in K. exact (H4 _ K).
    + intros p Hp. rewrite <- P1. exact Hp.
  - constructor; tsp; auto.
Qed.

Lemma end_clean (h : hist) (st : tstate) :
  Inv h st -> s_pc st = PcEnd -> s_ok st = true -> h_edited h = false ->
  (s_dirty st = true -> allclean (update_store (s_buf st) (s_user st)) (s_cfg st) (mtof st)) /\
  (s_dirty st = false -> exists s, stored (s_disk st) = Some s /\ allclean s (s_cfg st) (mtof st)).
Proof.
  intros I Hpc O E. destruct I. assert (RI : RunInv h st) by (apply i_run; congruence). destruct RI.
  unfold Proof_TargetRun.Stage in r_stage. rewrite Hpc in r_stage. destruct r_stage. split; intros D.
  - destruct (se_dirty O D) as (A & B & C & N). destruct (N E) as ((N1 & N2 & N3 & N4) & N5 & N6).
    apply (written_clean st); assumption.
  - destruct (se_clean O D) as (s & A & B). exists s. split; [congruence|exact (B E)].
Qed.

Lemma allclean_current (h : hist) (d : disk) (s : tschema) (c : cfg) :
  permitted e h c -> SafeS h d s -> allclean s c (d_mt d) -> all_current e c d.
Proof.
  intros P S (A1 & A2 & A3 & A4). destruct (S c P) as (S1 & S2 & S3).
  pose proof (R_refl rg h (d_mt d)) as Rr. repeat split.
  - intros Hp. exact (S1 _ Rr Hp (A1 Hp)).
  - intros p Hp. exact (S2 _ _ Rr Rr A1 A2 p Hp (proj1 A3 p Hp)).
  - exact (S3 _ _ _ Rr Rr Rr A1 A2 A3 A4).
Qed.

Lemma end_current (h : hist) (st : tstate) :
  Inv h st -> s_pc st = PcEnd -> s_ok st = true -> h_edited h = false ->
  all_current e (s_cfg st) (s_disk st).
Proof using T.
  intros I Hpc O E. destruct (end_clean h st I Hpc O E) as [A B].
  assert (RI : RunInv h st) by (apply (i_run _ _ _ _ I); congruence).
  destruct (s_dirty st) eqn:D.
  - apply (allclean_current h _ (update_store (s_buf st) (s_user st))).
    + exact (r_perm _ _ _ _ RI).
    + apply (BufInv_safe rg e T _ _ (s_cfg st)).
      * exact (r_like _ _ _ _ RI).
      * exact (r_buf _ _ _ _ RI).
      * exact (proj1 (r_perm _ _ _ _ RI)).
      * exact (r_lang _ _ _ _ RI).
    + exact (A eq_refl).
  - destruct (B eq_refl) as (s & Hs & C). apply (allclean_current h _ s).
    + exact (r_perm _ _ _ _ RI).
    + exact (safe_now rg e h st s I D Hs).
    + exact C.
Qed.
End Step.
