(** Contents in whole programs. *)
From Verif Require Import Prelude Proof_Prelude Model_Path Model_Json Model_Schema Model_Command Model_ToolchainConfig Model_Target Spec_Target
  Proof_TargetBase Proof_TargetInv Proof_TargetRun Proof_TargetStep Proof_TargetStep2 Proof_TargetMain Model_Reg Spec_Reg Proof_Reg Proof_RegRun
  Model_Project Spec_Project Proof_Project Proof_Project2 Proof_Project3 Proof_Project4 Spec_Bytes Proof_Bytes Spec_ProjBytes.

(** ** Artifacts of targets that do not run *)
Definition same_art (d d' : disk) : Prop := d_pch d' = d_pch d /\ d_obj d' = d_obj d /\ d_tgt d' = d_tgt d.
Lemma BI_art t V d d' b F : same_art d d' -> sees V (d_mt d') F -> BI t V d b -> BI t V d' (BY F (b_pch b) (b_obj b) (b_tgt b)).
Proof. intros (A & B & C) S []. constructor; cbn [b_files b_pch b_obj b_tgt]; rewrite ?A, ?B, ?C; assumption. Qed.

Definition passive (ev : event) : bool :=
  match ev with EvPchExec _ | EvCompile _ _ | EvLinkExec _ | EvDelObj _ | EvDelPch | EvDelTgt => false | _ => true end.
Lemma passive_art e evs : forallb passive evs = true -> forall st st', exec e st evs = Some st' -> same_art (s_disk st) (s_disk st').
Proof.
  induction evs as [|ev evs IH]; intros P st st' X; cbn [forallb exec] in *; [injection X as <-; repeat split|].
  apply andb_true_iff in P as [P1 P2]. destruct (step e st ev) as [s1|] eqn:S; [|discriminate].
  destruct (IH P2 s1 st' X) as (A & B & C). pose proof (files_kept e st s1 ev S) as K.
  assert (same_art (s_disk st) (s_disk s1)) as (A' & B' & C').
  { destruct ev; try discriminate P1; try (destruct K as (_ & K1 & K2 & K3); repeat split; assumption).
    cbn [step] in S. injection S as <-. repeat split. }
  repeat split; congruence.
Qed.
Lemma delivered_passive p ev id st : (forall x m, ev <> PStep id x m) -> forallb passive (delivered p ev id st) = true.
Proof.
  assert (FO : forall b, forallb passive (fail_others b st) = true) by (intros b; unfold fail_others; destruct (b && running st); reflexivity).
  intros N. destruct ev as [f m|i|i c ord|w r|i|i x m|i f m|i|i okk|l]; cbn [delivered]; try reflexivity.
  - destruct (String.eqb i id); reflexivity.
  - destruct (String.eqb i id); reflexivity.
  - destruct (assoc i (p_targets p)) as [[ei si]|]; [|reflexivity]. destruct (String.eqb_spec i id) as [->|_]; [destruct (N x m eq_refl)|].
    cbn [app]. destruct m; cbn [app forallb passive andb]; apply FO.
  - apply FO.
  - destruct (assoc i (p_targets p)); [reflexivity|apply FO].
  - destruct (running st); [|reflexivity]. destruct (assoc id l); reflexivity.
Qed.

(** ** Histories whose contents are told by times *)
Section Told.
Context (t : tools) (rg : regime) (mt0 : times) (l : list (string * (tenv * disk))) (gens : list (string * list string)) (b0 : pbytes).

Definition fits (V : string -> N -> string) (p : project) (ev : pevent) (b : pbytes) : Prop :=
  forall f v, change p ev = Some (f, Some v) -> pb_files b f = Some (V f v).
Inductive told (V : string -> N -> string) : list (pevent * note) -> phist -> project -> pbytes -> Prop :=
| told_nil : (forall f v, mt0 f = Some v -> pb_files b0 f = Some (V f v)) ->
    told V [] (fun id => match assoc id l with Some (_, d) => hist0 d | None => HS (fun _ => 0%N) None None false end) (pinit l gens) b0
| told_snoc evs h p b ev n p' :
    told V evs h p b -> padmissible rg p h ev -> pnoted t p b ev n -> pstep p ev = Some p' -> fits V p ev (pwritten t p b ev n) ->
    told V (evs ++ [(ev, n)]) (ptrack p h ev) p' (pwritten t p b ev n).

Lemma bph_phistory evs h p b : bphistory t rg l gens b0 evs h p b -> phistory rg l gens (map fst evs) h p.
Proof. induction 1 as [|evs h p b ev n p' H IH A Nt S]; [constructor|]. rewrite map_app. cbn [map fst]. econstructor; eassumption. Qed.
Lemma told_bph V evs h p b : told V evs h p b -> bphistory t rg l gens b0 evs h p b.
Proof. induction 1; [constructor|econstructor; eassumption]. Qed.

Hypothesis F : fresh_project mt0 l.

Lemma outs_kept evs h p : phistory rg l gens evs h p ->
  map (fun x => (fst x, fst (snd x))) (p_targets p) = map (fun x => (fst x, fst (snd x))) l.
Proof.
  induction 1 as [|evs h p ev p' H IH A S].
  - unfold pinit. cbn [p_targets]. rewrite map_map. reflexivity.
  - unfold pstep in S. destruct (process p ev) as [[[bu ru] ok]|]; [|discriminate]. destruct (deliver p ev (p_targets p)) as [ts|] eqn:D; [|discriminate].
    injection S as <-. cbn [p_targets]. rewrite <- IH. exact (deliver_outs _ _ _ _ D).
Qed.

Lemma next_after i e st V evs h p b ev p' : told V evs h p b -> pstep p ev = Some p' -> In (i, (e, st)) (p_targets p) ->
  h_next (ptrack p h ev i) = bumped (change p ev) (h_next (h i)).
Proof.
  intros H S Hi. pose proof (phistory_PInv _ _ _ _ _ _ _ F (bph_phistory _ _ _ _ (told_bph _ _ _ _ _ H))) as P.
  unfold pstep in S. destruct (process p ev) as [[[bu ru] ok]|] eqn:E; [|discriminate]. destruct (deliver p ev (p_targets p)) as [ts|] eqn:D; [|discriminate].
  destruct (deliver_In' _ _ _ _ _ _ _ D Hi) as (st' & _ & X).
  rewrite (ptrack_at p h ev i e st (pi_ids _ _ _ _ P) Hi).
  exact (proj1 (proj2 (delivered_effect _ _ _ _ _ _ _ _ _ (h i) (pi_ids _ _ _ _ P) E Hi X))).
Qed.
Lemma in_before evs h p i e st' ev p' : phistory rg l gens evs h p -> pstep p ev = Some p' -> In (i, (e, st')) (p_targets p') ->
  exists st, In (i, (e, st)) (p_targets p).
Proof.
  intros H S Hi. unfold pstep in S. destruct (process p ev) as [[[bu ru] ok]|]; [|discriminate].
  destruct (deliver p ev (p_targets p)) as [ts|] eqn:D; [|discriminate]. injection S as <-. cbn [p_targets] in Hi.
  destruct (deliver_In _ _ _ _ _ _ _ D Hi) as (st & K & _). eauto.
Qed.

Lemma told_mono V V' evs h p b i e st : told V evs h p b -> In (i, (e, st)) (p_targets p) ->
  (forall f u, (u < h_next (h i) f)%N -> V' f u = V f u) -> told V' evs h p b.
Proof.
  intros H. revert st. induction H as [T|evs h p b ev n p' H IH A Nt S Ft]; intros st Hi M.
  - constructor. intros f v E. rewrite M; [exact (T f v E)|]. unfold pinit in Hi. cbn [p_targets] in Hi. apply in_init in Hi as (d & Hi & _).
    rewrite (assoc_NoDup_In _ _ _ (proj1 F) Hi). cbn. destruct F as (_ & _ & F3). destruct (F3 _ _ _ Hi) as (_ & -> & _). rewrite E. lia.
  - destruct (in_before _ _ _ _ _ _ _ _ (bph_phistory _ _ _ _ (told_bph _ _ _ _ _ H)) S Hi) as (st0 & H0).
    pose proof (next_after _ _ _ _ _ _ _ _ _ _ H S H0) as E. constructor; try assumption.
    + apply (IH st0 H0). intros f u K. apply M. rewrite E. pose proof (bumped_mono (change p ev) (h_next (h i)) f). lia.
    + intros f v K. rewrite M; [exact (Ft f v K)|]. rewrite E, K. cbn [bumped]. unfold upd. rewrite String.eqb_refl. lia.
Qed.

(** Times tell what links write if they tell what others write. *)
Lemma tell_all V0 evs h p b : bphistory t rg l gens b0 evs h p b -> ptimes_tell V0 mt0 b0 evs ->
  exists V, told V evs h p b /\ forall f v, ~ is_output p f -> V f v = V0 f v.
Proof.
  induction 1 as [|evs h p b ev n p' H IH A Nt S]; intros (T1 & T2 & T3).
  - exists V0. split; [constructor; exact T1|reflexivity].
  - destruct IH as (V & IH & Ag).
    { split; [exact T1|]. split; intros; [eapply T2|eapply T3]; apply in_or_app; left; eassumption. }
    pose proof (bph_phistory _ _ _ _ H) as PH. pose proof (phistory_PInv _ _ _ _ _ _ _ F PH) as P.
    assert (Ou : forall f, ~ is_output p' f -> ~ is_output p f).
    { intros f N (id & e & st & Hi & ->). apply N. unfold pstep in S. destruct (process p ev) as [[[bu ru] ok]|]; [|discriminate].
      destruct (deliver p ev (p_targets p)) as [ts|] eqn:D; [|discriminate]. injection S as <-. destruct (deliver_In' _ _ _ _ _ _ _ D Hi) as (st' & K & _).
      exists id, e, st'. auto. }
    assert (L : In (ev, n) (evs ++ [(ev, n)])) by (apply in_or_app; right; left; reflexivity).
    assert (Ez : forall Z : option (string * option N), Z = change p ev -> (forall f v, Z <> Some (f, Some v)) ->
      exists V, told V (evs ++ [(ev, n)]) (ptrack p h ev) p' (pwritten t p b ev n) /\ forall f v, ~ is_output p' f -> V f v = V0 f v).
    { intros Z -> K. exists V. split; [|intros f v O; apply Ag, Ou, O]. constructor; try assumption. intros f v E. destruct (K f v E). }
    destruct ev as [f m|i|i c ord|w r|i|i x m|i f m|i|i okk|ll]; try (apply (Ez None); [reflexivity|discriminate]).
    + destruct m as [v|]; [|apply (Ez (Some (f, None))); [reflexivity|discriminate]].
      exists V. split; [|intros g u O; apply Ag, Ou, O]. constructor; try assumption. intros g u [= <- <-].
      cbn [padmissible] in A. pose proof (T2 f v n L) as ->. cbn [pwritten pb_files]. unfold upd. rewrite String.eqb_refl.
      f_equal. symmetry. apply Ag. exact (proj1 A).
    + destruct m as [[v|]|].
      2:{ destruct (assoc i (p_targets p)) as [[e st]|] eqn:Ei; [apply (Ez (Some (out_file e, None)))|apply (Ez None)];
            first [discriminate|cbn [change]; rewrite Ei; reflexivity]. }
      2:{ apply (Ez None); [reflexivity|discriminate]. }
      destruct (assoc i (p_targets p)) as [[e st]|] eqn:Ei; [|apply (Ez None); [cbn [change]; rewrite Ei; reflexivity|discriminate]].
      pose proof (assoc_In _ _ _ Ei) as Hi.
      assert (Si : exists st1, step e st x = Some st1).
      { unfold pstep in S. cbn [process] in S. destruct (p_run p) as [[[w r] y]|]; [|discriminate]. rewrite Ei in S.
        destruct (assoc i (p_built p)); [|discriminate]. destruct (_ && _); [|discriminate]. destruct (step e st x) as [s|]; [eauto|discriminate]. }
      destruct Si as (st1 & Si). cbn [padmissible] in A. destruct (A e st st1 Hi Si) as [A1 A2].
      destruct (Nt e st Hi) as [Nt1 Nt2]. set (o := pb_tgt (pwritten t p b (PStep i x (Some (Some v))) n) i) in *.
      assert (Eo : pb_files (pwritten t p b (PStep i x (Some (Some v))) n) (out_file e) = o).
      { unfold o. cbn [pwritten]. rewrite Ei. cbn [pb_files pb_tgt]. unfold upd. rewrite !String.eqb_refl. reflexivity. }
      destruct o as [y|] eqn:Oy; [|destruct (Nt2 eq_refl)].
      exists (fun g u => if String.eqb g (out_file e) && N.eqb u v then y else V g u). split.
      * constructor; try assumption.
        -- apply (told_mono V _ _ _ _ _ i e st IH Hi). intros g u K. destruct (String.eqb_spec g (out_file e)) as [->|]; [|reflexivity].
           assert (Q : (h_next (h i) (out_file e) <= v)%N) by (apply (A2 v i eq_refl), (in_map fst _ _ Hi)).
           replace (N.eqb u v) with false by (symmetry; apply N.eqb_neq; lia). reflexivity.
        -- intros g u E. cbn [change] in E. rewrite Ei in E. injection E as <- <-. rewrite Eo, String.eqb_refl, N.eqb_refl. reflexivity.
      * intros g u O. destruct (String.eqb_spec g (out_file e)) as [->|]; [|apply Ag, Ou, O]. exfalso. apply (Ou _ O). exists i, e, st. auto.
    + destruct m as [v|]; [|apply (Ez (Some (f, None))); [reflexivity|discriminate]].
      exists V. split; [|intros g u O; apply Ag, Ou, O]. constructor; try assumption. intros g u [= <- <-].
      cbn [padmissible] in A. pose proof (T3 i f v n L) as ->. cbn [pwritten pb_files]. unfold upd. rewrite String.eqb_refl.
      f_equal. symmetry. apply Ag. exact (proj1 A).
Qed.

(** If every change gives a file a later time than it had, times tell. *)
Lemma told_tells V evs h p b : told V evs h p b -> ptimes_tell V mt0 b0 evs.
Proof.
  induction 1 as [T|evs h p b ev n p' H (I1 & I2 & I3) A Nt S Ft]; [split; [exact T|split; [intros ? ? ? []|intros ? ? ? ? []]]|].
  split; [exact I1|]. split.
  - intros f v n' I. apply in_app_or in I as [I|[I|[]]]; [exact (I2 _ _ _ I)|]. injection I as -> ->. destruct Nt as (x & ->).
    pose proof (Ft f v eq_refl) as Q. cbn [pwritten pb_files] in Q. unfold upd in Q. rewrite String.eqb_refl in Q. congruence.
  - intros i f v n' I. apply in_app_or in I as [I|[I|[]]]; [exact (I3 _ _ _ _ I)|]. injection I as -> ->. destruct Nt as (x & ->).
    pose proof (Ft f v eq_refl) as Q. cbn [pwritten pb_files] in Q. unfold upd in Q. rewrite String.eqb_refl in Q. congruence.
Qed.
Lemma forward_told evs h p b : rg = Forward -> l <> [] -> (forall f, pb_files b0 f = None <-> mt0 f = None) ->
  bphistory t rg l gens b0 evs h p b -> exists V, told V evs h p b.
Proof.
  intros Fw Ln FS. induction 1 as [|evs h p b ev n p' H (V & IH) A Nt S].
  - exists (fun f _ => match pb_files b0 f with Some x => x | None => "" end). constructor.
    intros f v E. destruct (pb_files b0 f) eqn:K; [reflexivity|]. apply FS in K. congruence.
  - pose proof (bph_phistory _ _ _ _ H) as PH.
    assert (Tg : exists i e st, In (i, (e, st)) (p_targets p)).
    { pose proof (outs_kept _ _ _ PH) as Q. destruct l as [|z zs]; [congruence|]. destruct (p_targets p) as [|[i [e st]] ts]; [discriminate Q|].
      exists i, e, st. left. reflexivity. }
    destruct Tg as (i0 & e0 & st0 & H0).
    destruct (change p ev) as [[f [v|]]|] eqn:Ch.
    2,3: exists V; constructor; try assumption; intros g u E; congruence.
    assert (K : (h_next (h i0) f <= v)%N /\ exists y, pb_files (pwritten t p b ev n) f = Some y).
    { destruct ev as [g m|i|i c ord|w r|i|i x m|i g m|i|i okk|ll]; cbn [change] in Ch; try discriminate Ch.
      - injection Ch as -> ->. destruct Nt as (x & ->). split; [|cbn [pwritten pb_files]; unfold upd; rewrite String.eqb_refl; eauto].
        cbn [padmissible] in A. pose proof (proj2 A _ _ _ H0) as Q. rewrite Fw in Q. cbn [admissible] in Q. exact (proj1 Q v eq_refl).
      - destruct m as [m|]; [|discriminate Ch]. destruct (assoc i (p_targets p)) as [[e st]|] eqn:Ei; [|discriminate Ch]. injection Ch as <- ->.
        pose proof (assoc_In _ _ _ Ei) as Hi.
        assert (Si : exists st1, step e st x = Some st1).
        { unfold pstep in S. cbn [process] in S. destruct (p_run p) as [[[w r] y]|]; [|discriminate]. rewrite Ei in S.
          destruct (assoc i (p_built p)); [|discriminate]. destruct (_ && _); [|discriminate]. destruct (step e st x) as [s|]; [eauto|discriminate]. }
        destruct Si as (st1 & Si). cbn [padmissible] in A. destruct (A e st st1 Hi Si) as [_ A2].
        destruct (Nt e st Hi) as [_ Nt2]. split; [exact (A2 v i0 eq_refl (in_map fst _ _ H0))|].
        cbn [pwritten] in *. rewrite Ei in *. cbn [pb_files pb_tgt] in *. unfold upd in *. rewrite String.eqb_refl in *.
        destruct (b_tgt _) as [y|]; [eauto|destruct (Nt2 eq_refl)].
      - injection Ch as -> ->. destruct Nt as (x & ->). split; [|cbn [pwritten pb_files]; unfold upd; rewrite String.eqb_refl; eauto].
        cbn [padmissible] in A. exact (proj2 A Fw v i0 eq_refl (in_map fst _ _ H0)). }
    destruct K as (K & y & Ey). exists (fun g u => if String.eqb g f && N.eqb u v then y else V g u). constructor; try assumption.
    + apply (told_mono V _ _ _ _ _ i0 e0 st0 IH H0). intros g u Lt. destruct (String.eqb_spec g f) as [->|]; [|reflexivity].
      replace (N.eqb u v) with false by (symmetry; apply N.eqb_neq; lia). reflexivity.
    + intros g u E. rewrite Ch in E. injection E as <- <-. rewrite Ey, String.eqb_refl, N.eqb_refl. reflexivity.
Qed.

Lemma junk_tgt_inj V x y : den_tgt t V (junk_tgt x) y -> y = x.
Proof.
  intros [H|[H _]]; [|destruct (H eq_refl)]. unfold junk_tgt in H. injection H as H.
  assert (K : only x x = only y x) by (rewrite H; reflexivity). unfold only in K. rewrite String.eqb_refl in K.
  destruct (String.eqb_spec x y); [congruence|discriminate].
Qed.

(** A link that leaves the output as it was leaves its contents as they were. *)
Lemma output_kept V e st x n st' b : step e st x = Some st' -> noted e st x n -> in_taskflow x = true -> links e st x = false ->
  d_tgt (s_disk st') = d_tgt (s_disk st) -> BI t V (s_disk st) b -> b_tgt (written t e st b x n) = b_tgt b.
Proof.
  intros S Nt T L D B. destruct x; try discriminate T; try reflexivity. cbn [written b_tgt]. cbn [step] in S.
  destruct (s_pc st) eqn:Pc; try discriminate. unfold link_exec in S. unfold links, link_runs in L.
  destruct (link_command e (s_cfg st) (s_ord st)) as [cmd| |] eqn:Ec; try discriminate. injection S as <-.
  destruct (run_res_cases cmd r) as [[-> E]|[Ne E]]; rewrite E in D; [reflexivity|]. rewrite (output_ok (den_tgt t V)) by exact Ne.
  destruct r as [|lo|]; [|destruct B as [_ _ _ Bt]|reflexivity].
  - apply String.eqb_neq in Ne. rewrite Ne in L. discriminate L.
  - cbn in D. cbn [noted] in Nt. destruct n; cbn [left_behind bytes_left] in *; try contradiction; try reflexivity.
    + subst lo. rewrite <- D in Bt. inversion Bt. reflexivity.
    + subst lo. rewrite <- D in Bt. apply orel_some_inv in Bt as (y & -> & Dy). rewrite (junk_tgt_inj _ _ _ Dy). reflexivity.
Qed.

Definition PBI (V : string -> N -> string) (p : project) (b : pbytes) : Prop :=
  forall id e st, In (id, (e, st)) (p_targets p) -> BI t V (s_disk st) (of_target b id) /\ pb_files b (out_file e) = pb_tgt b id.

Lemma told_PBI V evs h p b : pfresh_start mt0 l b0 -> told V evs h p b -> PBI V p b.
Proof.
  intros [FS1 FS2]. induction 1 as [T|evs h p b ev n p' H IH A Nt S Ft].
  - intros id e st Hi. unfold pinit in Hi. cbn [p_targets] in Hi. apply in_init in Hi as (d & Hi & ->).
    destruct F as (_ & _ & F3). destruct (F3 _ _ _ Hi) as (_ & Em & Eo & Et). destruct (FS2 _ _ _ Hi) as (G1 & G2 & G3 & G4).
    unfold of_target in *. cbn [b_files b_pch b_obj b_tgt] in *. split.
    + cbn [init s_disk]. constructor; stp; cbn [b_files b_pch b_obj b_tgt].
      * intros f. cbn. rewrite Em. destruct (mt0 f) as [v|] eqn:E; [exact (T f v E)|]. apply FS1. exact E.
      * destruct (pb_pch b0 id) as [x|]; cbn in G2 |- *; rewrite G2; constructor. left. reflexivity.
      * intros k. specialize (G3 k). cbn. destruct (pb_obj b0 id k) as [x|]; cbn in G3; rewrite G3; constructor. left. reflexivity.
      * cbn. destruct (pb_tgt b0 id) as [x|]; cbn in G4; rewrite G4; constructor. left. reflexivity.
    + destruct (pb_tgt b0 id) as [x|]; cbn in G4; [congruence|]. apply FS1. exact Eo.
  - pose proof (bph_phistory _ _ _ _ (told_bph _ _ _ _ _ H)) as PH. pose proof (phistory_PInv _ _ _ _ _ _ _ F PH) as P.
    pose proof (gi_outs _ _ (phistory_GInv _ _ _ _ _ _ _ F PH)) as Outs.
    unfold pstep in S. destruct (process p ev) as [[[bu ru] ok]|] eqn:E; [|discriminate]. destruct (deliver p ev (p_targets p)) as [ts|] eqn:D; [|discriminate].
    injection S as <-.
    (* a step of a target *)
    assert (ST : forall i x m, ev = PStep i x m -> exists e st st1, assoc i (p_targets p) = Some (e, st) /\ In (i, (e, st)) (p_targets p) /\
      step e st x = Some st1 /\ in_taskflow x = true /\ BI t V (s_disk st1) (written t e st (of_target b i) x n) /\
      b_files (written t e st (of_target b i) x n) = pb_files b).
    { intros i x m ->. cbn [process] in E. destruct (p_run p) as [[[w r] y]|]; [|discriminate].
      destruct (assoc i (p_targets p)) as [[e st]|] eqn:Ei; [|discriminate]. destruct (assoc i (p_built p)); [|discriminate].
      destruct (mem_str i (x_running y) && in_taskflow x && _) eqn:Co; [|discriminate]. apply andb_true_iff in Co as [Co _]. apply andb_true_iff in Co as [_ Cf].
      destruct (step e st x) as [st1|] eqn:Si; [|discriminate]. pose proof (assoc_In _ _ _ Ei) as Hi. exists e, st, st1. cbn [padmissible] in A.
      destruct (A e st st1 Hi Si) as [A1 _]. destruct (Nt e st Hi) as [N1 _]. pose proof (pi_tgt _ _ _ _ P i e st Hi) as TI.
      destruct (ti_hist _ _ _ _ _ _ _ _ _ TI) as (d0 & es & Hh). split; [reflexivity|]. split; [exact Hi|]. split; [exact Si|]. split; [exact Cf|]. split.
      - apply (BI_step t V rg e d0 es (h i) st (of_target b i) x n st1 (ti_temp _ _ _ _ _ _ _ _ _ TI) Hh A1 N1); [|exact Si|exact (proj1 (IH _ _ _ Hi))].
        intros f v ->. discriminate Cf.
      - destruct x; try discriminate Cf; reflexivity. }
    (* the files *)
    assert (FI : forall id e st, In (id, (e, st)) (p_targets p) -> sees V (changed (change p ev) (d_mt (s_disk st))) (pb_files (pwritten t p b ev n))).
    { intros id e st Hi. destruct (IH _ _ _ Hi) as [[B1 _ _ _] _]. unfold of_target in B1. cbn [b_files] in B1.
      destruct (change p ev) as [[f [v|]]|] eqn:Ch.
      - assert (K : exists o, pb_files (pwritten t p b ev n) = upd (pb_files b) f o).
        { destruct ev as [g m|i|i c ord|w r|i|i x m|i g m|i|i okk|ll]; cbn [change] in Ch; try discriminate Ch.
          - injection Ch as -> ->. eexists. reflexivity.
          - destruct m as [m|]; [|discriminate Ch]. destruct (ST i x _ eq_refl) as (ei & si & s1 & Ei & _). rewrite Ei in Ch. injection Ch as <- ->.
            cbn [pwritten]. rewrite Ei. eexists. reflexivity.
          - injection Ch as -> ->. eexists. reflexivity. }
        destruct K as (o & K). pose proof (Ft f v Ch) as Q. rewrite K in Q |- *. unfold upd in Q. rewrite String.eqb_refl in Q. subst o.
        intros g. cbn [changed]. unfold upd. destruct (String.eqb_spec g f) as [->|]; [reflexivity|apply B1].
      - assert (K : pb_files (pwritten t p b ev n) = upd (pb_files b) f None).
        { destruct ev as [g m|i|i c ord|w r|i|i x m|i g m|i|i okk|ll]; cbn [change] in Ch; try discriminate Ch.
          - injection Ch as -> ->. reflexivity.
          - destruct m as [m|]; [|discriminate Ch]. destruct (ST i x _ eq_refl) as (ei & si & s1 & Ei & Hi1 & Si & _ & [_ _ _ B4] & _). rewrite Ei in Ch. injection Ch as <- ->.
            cbn [pwritten]. rewrite Ei. cbn [padmissible] in A. destruct (A _ _ _ Hi1 Si) as [_ A2]. rewrite A2 in B4. inversion B4. reflexivity.
          - injection Ch as -> ->. reflexivity. }
        rewrite K. intros g. cbn [changed]. unfold upd. destruct (String.eqb_spec g f) as [->|]; [reflexivity|apply B1].
      - cbn [changed]. replace (pb_files (pwritten t p b ev n)) with (pb_files b); [exact B1|].
        destruct ev as [g m|i|i c ord|w r|i|i x m|i g m|i|i okk|ll]; cbn [change] in Ch; try discriminate Ch; try reflexivity.
        destruct (ST i x _ eq_refl) as (ei & si & s1 & Ei & _). rewrite Ei in Ch. destruct m; [discriminate Ch|]. cbn [pwritten]. rewrite Ei. reflexivity. }
    intros id e st' Hi'. cbn [p_targets] in Hi'. destruct (deliver_In _ _ _ _ _ _ _ D Hi') as (st & Hi & X).
    destruct (delivered_effect _ _ _ _ _ _ _ _ _ (h id) (pi_ids _ _ _ _ P) E Hi X) as (Mt & _ & _).
    pose proof (FI _ _ _ Hi) as SF. rewrite <- Mt in SF. destruct (IH _ _ _ Hi) as [B O].
    assert (Dc : (exists x m, ev = PStep id x m) \/ (forall x m, ev <> PStep id x m)).
    { destruct ev as [g m|i|i c ord|w r|i|i x m|i g m|i|i okk|ll]; try (right; intros; discriminate).
      destruct (String.eqb_spec i id) as [->|Ni]; [left; eauto|right; intros y m0 [= K]; contradiction]. }
    destruct Dc as [(x & m & ->)|Np].
    + destruct (ST id x m eq_refl) as (e1 & s & s1 & Ei & Hi1 & Si & Tf & Bs & Bf).
      pose proof (assoc_NoDup_In _ _ _ (pi_ids _ _ _ _ P) Hi) as Ea. rewrite Ei in Ea. injection Ea as -> ->.
      cbn [delivered] in X. rewrite Ei, String.eqb_refl, app_nil_r in X. cbn [app exec] in X. rewrite Si in X.
      assert (SA : same_art (s_disk s1) (s_disk st')) by (destruct m; cbn [exec step] in X; injection X as <-; repeat split).
      cbn [pwritten] in *. rewrite Ei in *. cbn [pb_files] in SF. unfold of_target. cbn [pb_files pb_pch pb_obj pb_tgt]. split.
      * replace (upd (pb_pch b) id _ id) with (b_pch (written t e st (of_target b id) x n)) by (unfold upd; rewrite String.eqb_refl; reflexivity).
        replace (upd (pb_obj b) id _ id) with (b_obj (written t e st (of_target b id) x n)) by (unfold upd; rewrite String.eqb_refl; reflexivity).
        replace (upd (pb_tgt b) id _ id) with (b_tgt (written t e st (of_target b id) x n)) by (unfold upd; rewrite String.eqb_refl; reflexivity).
        exact (BI_art t V _ _ _ _ SA SF Bs).
      * destruct m as [m|]; unfold upd; rewrite !String.eqb_refl; [reflexivity|]. cbn [padmissible] in A. destruct (A _ _ _ Hi1 Si) as [_ [A2 A3]].
        destruct (Nt _ _ Hi1) as [N1 _]. pose proof (output_kept V e st x n s1 (of_target b id) Si N1 Tf A2 A3 B) as Z. unfold of_target in Z. rewrite Z. exact O.
    + pose proof (passive_art e _ (delivered_passive p ev id st Np) _ _ X) as SA.
      assert (Q : pb_pch (pwritten t p b ev n) id = pb_pch b id /\ pb_obj (pwritten t p b ev n) id = pb_obj b id /\ pb_tgt (pwritten t p b ev n) id = pb_tgt b id /\
        pb_files (pwritten t p b ev n) (out_file e) = pb_files b (out_file e)).
      { destruct ev as [g m|i|i c ord|w r|i|i x m|i g m|i|i okk|ll]; try (repeat split; reflexivity); cbn [pwritten].
        - cbn [pb_files pb_pch pb_obj pb_tgt]. repeat split. unfold upd. destruct (String.eqb_spec (out_file e) g) as [<-|]; [|reflexivity].
          exfalso. apply (proj1 A). exists id, e, st. auto.
        - destruct (ST i x m eq_refl) as (e1 & s & s1 & Ei & Hi1 & _). rewrite Ei. cbn [pb_files pb_pch pb_obj pb_tgt].
          assert (Ni : String.eqb id i = false) by (apply String.eqb_neq; intros ->; exact (Np x m eq_refl)). unfold upd. rewrite Ni. repeat split.
          destruct m; [|reflexivity]. destruct (String.eqb_spec (out_file e) (out_file e1)) as [K|]; [|reflexivity].
          apply String.eqb_neq in Ni. destruct (Ni (Outs _ _ _ _ _ _ Hi Hi1 K)).
        - cbn [pb_files pb_pch pb_obj pb_tgt]. repeat split. unfold upd. destruct (String.eqb_spec (out_file e) g) as [<-|]; [|reflexivity].
          exfalso. apply (proj1 A). exists id, e, st. auto. }
      destruct Q as (Q1 & Q2 & Q3 & Q4). split; [|rewrite Q3, Q4; exact O].
      unfold of_target. rewrite Q1, Q2, Q3. exact (BI_art t V _ _ (of_target b id) _ SA SF B).
Qed.
End Told.

Lemma forward_ptells t mt0 l gens b0 evs h p b : fresh_project mt0 l -> pfresh_start mt0 l b0 -> l <> [] ->
  bphistory t Forward l gens b0 evs h p b -> exists V, ptimes_tell V mt0 b0 evs.
Proof.
  intros F FS Ln H. destruct (forward_told t Forward mt0 l gens b0 F _ _ _ _ eq_refl Ln (proj1 FS) H) as (V & T).
  exists V. exact (told_tells _ _ _ _ _ _ _ _ _ _ _ T).
Qed.

(** ** After a successful run *)
Theorem whole_run_bytes t V rg mt0 l gens b0 pre w r run h p b x n prog :
  fresh_project mt0 l -> pfresh_start mt0 l b0 -> ptimes_tell V mt0 b0 (pre ++ (PRun w r, Nothing) :: run) ->
  bphistory t rg l gens b0 (pre ++ (PRun w r, Nothing) :: run) h p b -> Forall undisturbed_run (map fst run) ->
  registers n prog r -> (forall i, ~ In (i, i) (rg_edges r)) -> 0 < w ->
  p_run p = Some (w, r, x) -> x_over w (rg_built r) (rg_edges r) x -> p_ok p = true ->
  forall id e st c, In (id, (e, st)) (p_targets p) -> In (id, c) (p_built p) -> In id (rg_built r) ->
    reads_declared t e c -> commands_nonempty e c ->
    made_from t e c (of_target b id) /\ pb_files b (out_file e) = pb_tgt b id.
Proof.
  intros F FS T H U R L W E O Ok id e st c Hi Hb Hr RD CN.
  pose proof (bph_phistory _ _ _ _ _ _ _ _ _ H) as PH. rewrite map_app in PH. cbn [map fst] in PH.
  destruct (whole_run_current _ _ _ _ _ _ _ _ _ _ _ _ _ F PH U R L W E O Ok _ _ _ _ Hi Hb Hr) as [C _].
  destruct (tell_all t rg mt0 l gens b0 F V _ _ _ _ H T) as (V' & TO & _).
  destruct (told_PBI t rg mt0 l gens b0 F V' _ _ _ _ FS TO _ _ _ Hi) as [B Q]. split; [|exact Q].
  exact (made t V' e c _ _ C B RD CN).
Qed.

(** ** Two runs *)
Lemma walk_longer g b a : before g b a -> forall p, walk g a p -> exists p', walk g b p' /\ length p < length p'.
Proof.
  induction 1 as [d y I|d m y I H IH]; intros p W.
  - exists (y :: p). split; [constructor; assumption|cbn; lia].
  - destruct (IH p W) as (p' & W' & Lt). exists (m :: p'). split; [constructor; assumption|cbn; lia].
Qed.

Theorem runs_agree t prog b1 b2 : pleaves t prog b1 -> pleaves t prog b2 -> well_behaved t prog -> same_inputs prog b1 b2 ->
  forall id e c, In (id, (e, c)) prog ->
    pb_tgt b1 id = pb_tgt b2 id /\ same_on (map (obj_of e) (sources c)) (pb_obj b1 id) (pb_obj b2 id) /\ (pchs c <> [] -> pb_pch b1 id = pb_pch b2 id) /\
    pb_files b1 (out_file e) = pb_tgt b1 id /\ pb_files b2 (out_file e) = pb_tgt b2 id.
Proof.
  intros L1 L2 WB SI.
  assert (MK : forall b, pleaves t prog b -> forall id e c, In (id, (e, c)) prog -> made_from t e c (of_target b id) /\ pb_files b (out_file e) = pb_tgt b id).
  { intros b (V & rg & mt0 & l & gens & b0 & pre & w & r & run & h & p & x & n & api & F & FS & T & H & U & R & NL & W & E & O & Ok & Pr) id e c I.
    pose proof (proj1 (Pr id e c) I) as (Ib & Ir & st & It). destruct (WB _ _ _ I) as (RD & CN & _).
    exact (whole_run_bytes t V rg mt0 l gens b0 pre w r run h p b x n api F FS T H U R NL W E O Ok id e st c It Ib Ir RD CN). }
  assert (WI : exists g, (forall y, ~ before g y y) /\
     forall a ea ca b eb cb, In (a, (ea, ca)) prog -> In (b, (eb, cb)) prog -> In (out_file eb) (tracked ca) -> before g b a).
  { destruct L1 as (V & rg & mt0 & l & gens & b0 & pre & w & r & run & h & p & x & n & api & F & FS & T & H & U & R & NL & W & E & O & Ok & Pr).
    exists (rg_edges r). split; [intros y; exact (acyclic_self _ y (fun u v => reg_acyclic n api r R u v) NL)|].
    intros a ea ca b eb cb Ia Ib K. destruct (proj1 (Pr _ _ _) Ia) as (A1 & A2 & _). destruct (proj1 (Pr _ _ _) Ib) as (B1 & B2 & st & B3).
    pose proof (phistory_PInv _ _ _ _ _ _ _ F (bph_phistory _ _ _ _ _ _ _ _ _ H)) as P. destruct (pi_run _ _ _ _ P _ _ _ E) as [_ Wi].
    apply (Wi b a (out_file eb) ca B2); [|exact A2|exact A1|exact K]. left. exists eb, st. auto. }
  destruct WI as (g & Ac & Wi).
  assert (K : forall k a pth, walk g a pth -> length g - length pth <= k -> forall ea ca, In (a, (ea, ca)) prog ->
    pb_tgt b1 a = pb_tgt b2 a /\ same_on (map (obj_of ea) (sources ca)) (pb_obj b1 a) (pb_obj b2 a) /\ (pchs ca <> [] -> pb_pch b1 a = pb_pch b2 a)).
  { induction k as [k IH] using lt_wf_ind. intros a pth Wk Hk ea ca Ia. destruct (WB _ _ _ Ia) as (RD & CN & OF).
    destruct (MK b1 L1 _ _ _ Ia) as [M1 _]. destruct (MK b2 L2 _ _ _ Ia) as [M2 _].
    assert (S : same_on (tracked ca) (pb_files b1) (pb_files b2)).
    { intros f If. destruct (in_dec string_dec f (map (fun z => out_file (fst (snd z))) prog)) as [Io|No].
      - apply in_map_iff in Io as ([b [eb cb]] & Ef & Ib). cbn [fst snd] in Ef. subst f. pose proof (Wi _ _ _ _ _ _ Ia Ib If) as Bf.
        destruct (walk_longer _ _ _ Bf _ Wk) as (p' & W' & Lt). pose proof (walk_bound g Ac _ _ W') as Bd.
        destruct (IH (length g - length p') ltac:(lia) b p' W' (Nat.le_refl _) eb cb Ib) as [Et _].
        rewrite (proj2 (MK b1 L1 _ _ _ Ib)), (proj2 (MK b2 L2 _ _ _ Ib)). exact Et.
      - apply (SI _ _ _ f Ia If). intros j ej cj Ij ->. apply No. exact (in_map (fun z => out_file (fst (snd z))) _ _ Ij). }
    destruct (bytes_agree t ea ca (of_target b1 a) (of_target b2 a) M1 M2 RD S) as (X1 & X2 & X3). auto. }
  intros id e c I. destruct (K (length g) id [] (walk_nil _ _) ltac:(cbn; lia) e c I) as (K1 & K2 & K3).
  destruct (MK b1 L1 _ _ _ I) as [_ M1]. destruct (MK b2 L2 _ _ _ I) as [_ M2]. auto.
Qed.
