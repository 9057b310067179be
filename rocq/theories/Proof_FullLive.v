(** Runs of programs with targets and generators end, and succeed if nothing goes wrong. *)
From Verif Require Import Prelude Proof_Prelude Model_Path Model_Schema Spec_Json Model_Command Model_ToolchainConfig Model_Target
  Spec_Target Proof_TargetBase Proof_TargetInv Proof_TargetRun Proof_TargetStep Proof_TargetMain Model_Gen Spec_Gen Proof_Gen Proof_GenInv Proof_GenMain
  Spec_GenLive Proof_GenLive Model_Reg Spec_Reg Proof_Reg Proof_RegRun Model_Project Spec_Project Proof_Project Proof_Project2
  Proof_Project3 Proof_Project4 Proof_Project5 Spec_ProjectLive Proof_ProjectLive Model_Full Spec_Full Proof_Full Proof_Full2 Proof_Full3
  Proof_Full4 Proof_Full5 Spec_FullLive.

Lemma fsnoc_run (pre : list fevent) (e : fevent) run ev : pre ++ e :: run ++ [ev] = (pre ++ e :: run) ++ [ev].
Proof. rewrite <- app_assoc. reflexivity. Qed.
Lemma fgoes_well_undisturbed F ev : fgoes_well F ev -> fundisturbed ev.
Proof. destruct ev; cbn; try tauto. apply goes_well_undisturbed. Qed.

(** ** Bounded *)

Definition gtodo (l : list (string * gstate)) : nat := list_sum (map (fun x => gleft (snd x)) l).
Definition gshare (objs : list (string * gobj)) (id : string) : nat :=
  match assoc id objs with Some o => 2 + 2 * length (go_ids o) | None => 0 end.
Lemma gshares (ids : list string) : NoDup ids -> forall objs, list_sum (map (gshare objs) ids) <= gwork_of objs.
Proof.
  intros Nd. induction objs as [|[i c] b IH].
  - assert (Z : list_sum (map (gshare []) ids) = 0) by (clear Nd; induction ids as [|j l IH]; [reflexivity|exact IH]). rewrite Z. cbn. lia.
  - pose proof (sum_eq ids i (2 + 2 * length (go_ids c)) Nd) as A.
    pose proof (sum_add (gshare ((i, c) :: b)) (fun id => if String.eqb id i then 2 + 2 * length (go_ids c) else 0) (gshare b) ids) as B.
    assert (C : list_sum (map (gshare ((i, c) :: b)) ids) <=
      list_sum (map (fun id => if String.eqb id i then 2 + 2 * length (go_ids c) else 0) ids) + list_sum (map (gshare b) ids)).
    { apply B. intros x. unfold gshare. cbn [assoc]. rewrite (String.eqb_sym x i). destruct (String.eqb i x); lia. }
    unfold gwork_of in *. cbn [map snd]. change (list_sum (?a :: ?m)) with (a + list_sum m). lia.
Qed.

Lemma gleft_exec u8 evs : forall g g', (forall ev, In ev evs -> ~ gown ev /\ forall o, ev <> GStart o) -> gexec u8 g evs = Some g' -> gleft g' <= gleft g.
Proof.
  induction evs as [|ev evs IH]; intros g g' N X; cbn [gexec] in X; [injection X as <-; lia|].
  destruct (gstep u8 g ev) as [g1|] eqn:S; [|discriminate]. destruct (N ev (or_introl eq_refl)) as [N1 N2].
  pose proof (gleft_other _ _ _ _ N1 N2 S). specialize (IH g1 g' (fun e I => N e (or_intror I)) X). lia.
Qed.
Lemma gfail_idle (b : bool) (g : gstate) : forall ev, In ev (gfail_others b g) -> ~ gown ev /\ forall o, ev <> GStart o.
Proof.
  unfold gfail_others. intros ev H. destruct (_ && _); [|destruct H].
  destruct H as [<-|[]]. split; [intros []|discriminate].
Qed.
Lemma delivered_idle u8 F ev j g : fundisturbed ev -> (forall x, ev <> FStep j x) ->
  forall y, In y (gdelivered u8 F ev j g) -> ~ gown y /\ forall o, y <> GStart o.
Proof.
  intros U N y H. assert (E : forall f t, ~ gown (GEdit f t) /\ forall o, GEdit f t <> GStart o) by (intros f t; split; [intros []|discriminate]).
  destruct ev as [pe|i|i o|i x]; try destruct U; cbn [gdelivered] in H.
  - destruct pe as [f t|i|i c ord|w r|i|i y' t|i f t|i|i okk|ls]; try destruct U; try destruct H.
    + destruct (assoc i _) as [[e st]|]; [|destruct H]. apply in_app_iff in H as [H|H]; [|exact (gfail_idle _ _ _ H)].
      destruct t; [destruct H as [<-|[]]; apply E|destruct H].
    + subst y. apply E.
    + destruct H.
    + exact (gfail_idle _ _ _ H).
    + destruct (assoc i _); [destruct H|exact (gfail_idle _ _ _ H)].
  - destruct (String.eqb_spec i j) as [->|Ne]; [destruct (N x eq_refl)|]. apply in_app_iff in H as [H|H]; [|exact (gfail_idle _ _ _ H)].
    apply in_map_iff in H as (z & <- & _). apply E.
Qed.

Lemma gtodo_delivered rg bd u8 l files F h ed ev p' : FInv rg bd u8 l files F h ed -> (forall j, lawful (bd j)) -> fundisturbed ev ->
  fallowed F ev = true -> pexec (f_proj F) (pdelivered u8 F ev) = Some p' ->
  forall gs gs', incl gs (f_gens F) -> gdeliver u8 F ev gs = Some gs' ->
  gtodo gs' + match ev with FStep i _ => if mem_str i (map fst gs) then 1 else 0 | _ => 0 end <= gtodo gs.
Proof.
  intros I Lw U Al P. induction gs as [|[j g] gs IH]; intros gs' In1 D; cbn [gdeliver] in D.
  - injection D as <-. destruct ev; cbn; lia.
  - destruct (gexec u8 g (gdelivered u8 F ev j g)) as [g'|] eqn:X; [|discriminate]. destruct (gdeliver u8 F ev gs) as [gs1|] eqn:D1; [|discriminate].
    injection D as <-. specialize (IH gs1 (fun y Hy => In1 y (or_intror Hy)) eq_refl). unfold gtodo in *. cbn [map snd fst].
    change (list_sum (?a :: ?m)) with (a + list_sum m).
    assert (G : gleft g' + match ev with FStep i _ => if String.eqb j i then 1 else 0 | _ => 0 end <= gleft g).
    { assert (Df : (exists x, ev = FStep j x) \/ forall x, ev <> FStep j x).
      { destruct ev as [pe|i|i o|i x]; try (right; discriminate). destruct (String.eqb_spec i j) as [->|N]; [left; eexists; reflexivity|].
        right. intros y [= E _]. exact (N E). }
      destruct Df as [(x & ->)|Df].
      - cbn [gdelivered gexec] in X. rewrite String.eqb_refl in X |- *. cbn [gexec] in X. destruct (gstep u8 g x) as [g1|] eqn:S; [|discriminate]. injection X as <-.
        cbn [fallowed] in Al. destruct (p_run (f_proj F)) as [[[w r] ex]|]; [|discriminate]. destruct (assoc j (f_gens F)); [|discriminate].
        destruct (assoc j (f_objs F)); [|discriminate]. apply andb_true_iff in Al as [_ Al].
        assert (O : gown x) by (destruct x; try discriminate Al; exact Logic.I).
        destruct (ji_hist _ _ _ _ _ _ _ _ _ _ (fi_g _ _ _ _ _ _ _ _ I _ _ (In1 _ (or_introl eq_refl)))) as (m0 & evs & Hh).
        pose proof (gown_decreases u8 _ _ _ (tasks_NoDup _ _ _ _ _ (history_inv _ _ _ _ _ _ _ (Lw j) Hh)) O S). lia.
      - pose proof (gleft_exec u8 _ _ _ (delivered_idle u8 F ev j g U Df) X).
        destruct ev as [pe|i|i o|i x]; try lia. destruct (String.eqb_spec j i) as [->|N]; [destruct (Df x eq_refl)|]. lia. }
    destruct ev as [pe|i|i o|i x]; try lia. cbn [mem_str existsb] in *. unfold mem_str in *. cbn [existsb] in *.
    rewrite (String.eqb_sym i j). destruct (String.eqb j i); cbn [orb] in *; lia.
Qed.

Lemma gtodo_start rg bd u8 l files F h ed : FInv rg bd u8 l files F h ed -> p_run (f_proj F) = None -> gtodo (f_gens F) <= gwork_of (f_objs F).
Proof.
  intros I R. eapply Nat.le_trans; [|exact (gshares _ (fi_nd _ _ _ _ _ _ _ _ I) (f_objs F))].
  unfold gtodo. rewrite map_map. assert (G : forall x, In x (f_gens F) -> gleft (snd x) <= gshare (f_objs F) (fst x)).
  { intros [j g] Hj. cbn [fst snd]. pose proof (fi_g _ _ _ _ _ _ _ _ I _ _ Hj) as J. unfold gshare.
    destruct (assoc j (f_objs F)) as [o|] eqn:Ea.
    - rewrite <- (ji_cfg _ _ _ _ _ _ _ _ _ _ J o Ea). destruct (ji_reg _ _ _ _ _ _ _ _ _ _ J o Ea R) as [B _]. unfold gleft. rewrite B. lia.
    - unfold gleft. rewrite (ji_unbuilt _ _ _ _ _ _ _ _ _ _ J Ea). lia. }
  revert G. generalize (f_gens F). intros m G. induction m as [|x m IH]; [cbn; lia|]. cbn [map]. change (list_sum (?a :: ?b)) with (a + list_sum b).
  pose proof (G x (or_introl eq_refl)). specialize (IH (fun y Hy => G y (or_intror Hy))). lia.
Qed.

Definition gsteps_of (run : list fevent) : nat := length (filter (fun ev => match ev with FStep _ _ => true | _ => false end) run).
Lemma gsteps_snoc run ev : gsteps_of (run ++ [ev]) = gsteps_of run + match ev with FStep _ _ => 1 | _ => 0 end.
Proof. unfold gsteps_of. rewrite filter_app, app_length. cbn [filter]. destruct ev; reflexivity. Qed.

Lemma prun_objs u8 F ev F' : fundisturbed ev \/ (exists w r, ev = FP (PRun w r)) -> fstep u8 F ev = Some F' -> f_objs F' = f_objs F.
Proof.
  intros U S. destruct (fstep_inv _ _ _ _ S) as (_ & _ & _ & ->).
  destruct U as [U|(w & r & ->)]; [|reflexivity]. destruct ev as [pe|i|i o|i x]; try destruct U; [|reflexivity]. destruct pe; try destruct U; reflexivity.
Qed.

Lemma full_work rg bd u8 mt0 l files gids pre w r run : (forall j, lawful (bd j)) -> fresh_full mt0 l gids ->
  forall h F, Forall fundisturbed run -> fhistory rg bd u8 mt0 l files gids (pre ++ FP (PRun w r) :: run) h F ->
  gsteps_of run + gtodo (f_gens F) <= gwork_of (f_objs F) /\
  exists pre' run', phistory rg l files (pre' ++ PRun w r :: run') (fh_p h) (f_proj F) /\ Forall undisturbed_run run' /\
    length (filter counted run') + gsteps_of run = length (filter fcounted run).
Proof.
  intros Lw Fr. induction run as [|ev run IH] using rev_ind; intros h F U H.
  - apply fhistory_snoc_inv in H as (h1 & F1 & H & A & S & ->). pose proof (fhistory_FInv _ _ _ _ _ _ _ _ _ _ Lw Fr H) as I.
    pose proof (prun_objs _ _ _ _ (or_intror (ex_intro _ w (ex_intro _ r eq_refl))) S) as Eo.
    destruct (fi_p _ _ _ _ _ _ _ _ I) as (pevs & Hp). pose proof (delivered_history _ _ _ _ _ _ _ _ _ _ A S Hp) as Hp'.
    destruct (fstep_inv _ _ _ _ S) as (Al & P & D & _). cbn [pdelivered pexec] in P.
    destruct (pstep (f_proj F1) (PRun w r)) as [p1|] eqn:Sp; [|discriminate].
    assert (R : p_run (f_proj F1) = None). { unfold pstep in Sp. cbn [process] in Sp. destruct (p_run (f_proj F1)); [discriminate|reflexivity]. }
    split; [|exists pevs, []; cbn [pdelivered] in Hp'; auto].
    assert (E : f_gens F = f_gens F1).
    { revert D. clear. generalize (f_gens F). generalize (f_gens F1). intros gs. induction gs as [|[j g] gs IH]; intros gs' D; cbn [gdeliver gdelivered gexec] in D.
      - injection D as <-. reflexivity.
      - destruct (gdeliver u8 F1 (FP (PRun w r)) gs) as [g1|] eqn:D1; [|discriminate]. injection D as <-. rewrite (IH g1 eq_refl). reflexivity. }
    rewrite E, Eo. exact (gtodo_start _ _ _ _ _ _ _ _ I R).
  - apply Forall_app in U as [U1 U2]. inversion U2 as [|? ? U3 _]; subst. rewrite fsnoc_run in H.
    apply fhistory_snoc_inv in H as (h1 & F1 & H & A & S & ->). destruct (IH h1 F1 U1 H) as (B & pre' & run' & Hp & Up & C).
    pose proof (fhistory_FInv _ _ _ _ _ _ _ _ _ _ Lw Fr H) as I. pose proof (prun_objs _ _ _ _ (or_introl U3) S) as Eo.
    destruct (fstep_inv _ _ _ _ S) as (Al & P & D & _).
    pose proof (gtodo_delivered _ _ _ _ _ _ _ _ _ _ I Lw U3 Al P (f_gens F1) (f_gens F) (incl_refl _) D) as G.
    rewrite Eo, gsteps_snoc. split.
    + destruct ev as [pe|i|i o|i x]; try lia. assert (M : mem_str i (map fst (f_gens F1)) = true).
      { apply mem_str_In. cbn [fallowed] in Al. destruct (p_run (f_proj F1)) as [[[w0 r0] ex]|]; [|discriminate].
        destruct (assoc i (f_gens F1)) as [g|] eqn:E; [|discriminate]. apply assoc_In in E. exact (in_map fst _ _ E). }
      rewrite M in G. lia.
    + exists pre', (run' ++ pdelivered u8 F1 ev). pose proof (delivered_history _ _ _ _ _ _ _ _ _ _ A S Hp) as Hp'.
      split; [rewrite app_comm_cons, app_assoc; exact Hp'|]. split; [apply Forall_app; split; [exact Up|exact (undisturbed_delivered _ _ _ U3)]|].
      rewrite !filter_app, !app_length. cbn [filter]. rewrite <- C. destruct ev as [pe|i|i o|i x]; try destruct U3; cbn [pdelivered fcounted].
      * cbn [filter]. destruct (counted pe); cbn [length]; lia.
      * assert (Z : filter counted (map (fun w0 : string * option N => PWrite i (fst w0) (snd w0)) (writes_of x) ++ (if gfails u8 F1 i x then [PFail i] else [])) = []).
        { rewrite filter_app. assert (Z : filter counted (if gfails u8 F1 i x then [PFail i] else []) = []) by (destruct (gfails u8 F1 i x); reflexivity).
          rewrite Z, app_nil_r. generalize (writes_of x). intros m. induction m as [|y m IHm]; [reflexivity|exact IHm]. }
        rewrite Z. cbn [length]. lia.
Qed.

Theorem full_bounded rg bd u8 mt0 l files gids pre w r run h F : (forall j, lawful (bd j)) -> fresh_full mt0 l gids ->
  fhistory rg bd u8 mt0 l files gids (pre ++ FP (PRun w r) :: run) h F -> Forall fundisturbed run ->
  length (filter fcounted run) <= 2 * length (rg_built r) + work_of (p_built (f_proj F)) + gwork_of (f_objs F).
Proof.
  intros Lw Fr H U. destruct (full_work _ _ _ _ _ _ _ _ _ _ _ Lw Fr _ _ U H) as (B & pre' & run' & Hp & Up & C).
  pose proof (whole_run_bounded _ _ _ _ _ _ _ _ _ _ (proj1 Fr) Hp Up). lia.
Qed.

(** ** Never stuck *)

Lemma gdeliver_all u8 F ev (gs : list (string * gstate)) :
  (forall j g, In (j, g) gs -> exists g', gexec u8 g (gdelivered u8 F ev j g) = Some g') -> exists gs', gdeliver u8 F ev gs = Some gs'.
Proof.
  induction gs as [|[j g] gs IH]; intros H; [eexists; reflexivity|]. cbn [gdeliver].
  destruct (H j g (or_introl eq_refl)) as (g' & ->). destruct IH as (gs' & ->); [|eexists; reflexivity].
  intros i gi Hi. exact (H i gi (or_intror Hi)).
Qed.
Lemma gfail_possible u8 b g0 g : exists g', gexec u8 g0 (gfail_others b g) = Some g'.
Proof. unfold gfail_others. destruct (_ && _); eexists; reflexivity. Qed.
Lemma fhistory_files rg bd u8 mt0 l files gids evs h F : fhistory rg bd u8 mt0 l files gids evs h F ->
  p_gens (f_proj F) = files /\ map fst (f_gens F) = gids.
Proof.
  induction 1 as [|evs h F ev F' H [IH1 IH2] A S].
  - split; [reflexivity|]. cbn [finit f_gens]. rewrite map_map, map_id. reflexivity.
  - destruct (fstep_inv _ _ _ _ S) as (_ & P & D & _). split; [rewrite (proj2 (pexec_outs _ _ _ P)); exact IH1|].
    rewrite (gdeliver_ids _ _ _ _ _ D). exact IH2.
Qed.
Lemma fstep_some u8 F ev p gs : fallowed F ev = true -> pexec (f_proj F) (pdelivered u8 F ev) = Some p -> gdeliver u8 F ev (f_gens F) = Some gs ->
  exists F', fstep u8 F ev = Some F'.
Proof. intros A B C. unfold fstep. rewrite A, B, C. eexists. reflexivity. Qed.
Lemma gupper (h : fhist) (f : string) (ids : list string) : exists v, forall j, In j ids -> (gh_next (fh_g h j) f <= v)%N.
Proof.
  induction ids as [|i ids (v & IH)]; [exists 0%N; intros i []|]. exists (N.max v (gh_next (fh_g h i) f)).
  intros j [->|Hj]; [lia|]. specialize (IH j Hj). lia.
Qed.

Theorem full_never_stuck bd u8 mt0 l files gids evs h F w r x :
  (forall j, lawful (bd j)) -> fresh_full mt0 l gids -> incl gids (map fst files) ->
  fhistory Forward bd u8 mt0 l files gids evs h F -> p_run (f_proj F) = Some (w, r, x) ->
  ~ x_over w (rg_built r) (rg_edges r) x ->
  exists ev F', fgoes_well F ev /\ fcounted ev = true /\ fadmissible Forward bd F h ev /\ fstep u8 F ev = Some F'.
Proof.
  intros Lw Fr Inc H Er Ov. pose proof (fhistory_FInv _ _ _ _ _ _ _ _ _ _ Lw Fr H) as I. destruct (fi_p _ _ _ _ _ _ _ _ I) as (pevs & Hp).
  destruct (fhistory_files _ _ _ _ _ _ _ _ _ _ H) as [Ef Eg]. pose proof (proj1 Fr) as Fp.
  destruct (x_running x) as [|i run] eqn:Ex.
  - destruct (over_dec w (rg_built r) (rg_edges r) x) as [K|([i|i ok] & x' & Xs)]; [contradiction| |].
    + destruct (deliver_all (f_proj F) (PBegin i) (p_targets (f_proj F))) as (ts & D); [intros; eexists; reflexivity|].
      destruct (pstep_some (f_proj F) (PBegin i) (p_built (f_proj F)) (Some (w, r, x')) (p_ok (f_proj F)) ts) as (p' & S); [cbn [process]; rewrite Er, Xs; reflexivity|exact D|].
      destruct (gdeliver_all u8 F (FP (PBegin i)) (f_gens F)) as (gs & G); [intros; eexists; reflexivity|].
      destruct (fstep_some u8 F (FP (PBegin i)) p' gs) as (F' & SF); [reflexivity|cbn [pdelivered pexec]; rewrite S; reflexivity|exact G|].
      exists (FP (PBegin i)), F'. repeat split. exact SF.
    + cbn [xstep] in Xs. rewrite Ex in Xs. discriminate.
  - assert (Ri : In i (x_running x)) by (rewrite Ex; left; reflexivity).
    destruct (assoc i (f_gens F)) as [g|] eqn:Ei.
    + pose proof (assoc_In _ _ _ Ei) as Hi. pose proof (fi_g _ _ _ _ _ _ _ _ I _ _ Hi) as J.
      assert (Nt : assoc i (p_targets (f_proj F)) = None).
      { apply assoc_None. exact (fi_dis _ _ _ _ _ _ _ _ I i (in_map fst _ _ Hi)). }
      destruct (grunning g) eqn:Rg.
      * assert (Pc : g_pc g <> GIdle) by (unfold grunning in Rg; destruct (g_pc g); discriminate).
        destruct (assoc i (f_objs F)) as [o|] eqn:Eo; [|destruct (Pc (ji_unbuilt _ _ _ _ _ _ _ _ _ _ J Eo))].
        destruct (ji_hist _ _ _ _ _ _ _ _ _ _ J) as (m0 & gevs & Hh).
        destruct (never_stuck_inv u8 g (KeyInv_of _ _ _ _ _ (history_inv _ _ _ _ _ _ _ (Lw i) Hh)) Pc) as (y & g' & O & G & Nw & S).
        rewrite (ji_cfg _ _ _ _ _ _ _ _ _ _ J o Eo) in G.
        assert (Wn : writes_of y = []) by (destruct y; try reflexivity; cbn [writes_of]; exact (Nw _ _ _ eq_refl)).
        assert (Pp : exists p', pexec (f_proj F) (pdelivered u8 F (FStep i y)) = Some p').
        { cbn [pdelivered]. rewrite Wn. cbn [map app]. destruct (gfails u8 F i y); [|eexists; reflexivity].
          destruct (deliver_all (f_proj F) (PFail i) (p_targets (f_proj F))) as (ts & D); [intros; cbn [delivered]; apply fail_others_possible|].
          destruct (assoc i (p_gens (f_proj F))) as [fs|] eqn:Efs.
          - destruct (pstep_some (f_proj F) (PFail i) (p_built (f_proj F)) (p_run (f_proj F)) false ts) as (p' & Sp).
            { cbn [process]. rewrite Er, Nt, Efs. apply mem_str_In in Ri. rewrite Ri. reflexivity. } { exact D. }
            exists p'. cbn [pexec]. rewrite Sp. reflexivity.
          - apply assoc_None in Efs. destruct Efs. rewrite Ef. apply Inc. rewrite <- Eg. exact (in_map fst _ _ Hi). }
        destruct Pp as (p' & Pp). destruct (gdeliver_all u8 F (FStep i y) (f_gens F)) as (gs & Gd).
        { intros j gj Hj. cbn [gdelivered]. destruct (String.eqb_spec i j) as [<-|N].
          - rewrite (assoc_NoDup_In _ _ _ (fi_nd _ _ _ _ _ _ _ _ I) Hj) in Ei. injection Ei as ->. exists g'. cbn [gexec]. rewrite S. reflexivity.
          - rewrite Wn. cbn [map app]. apply gfail_possible. }
        destruct (fstep_some u8 F (FStep i y) p' gs) as (F' & SF); [|exact Pp|exact Gd|].
        { cbn [fallowed]. rewrite Er, Ei, Eo. apply mem_str_In in Ri. rewrite Ri. destruct y; try destruct O; reflexivity. }
        exists (FStep i y), F'. split; [split; [exact O|]|].
        { intros o' Ho. rewrite (assoc_NoDup_In _ _ _ (fi_objs _ _ _ _ _ _ _ _ I) Ho) in Eo. injection Eo as ->. exact G. }
        split; [reflexivity|]. split; [|exact SF]. cbn [fadmissible]. rewrite Wn. split; [|split; [constructor|intros f t []]].
        intros g1 Hg1. destruct y; try destruct O; cbn [gadmissible]; try exact Logic.I; [|left; reflexivity].
        rewrite (Nw _ _ _ eq_refl). intros f t [].
      * destruct (running_step Forward mt0 l files pevs (fh_p h) (f_proj F) w r x i 0%N Fp Hp Er Ri) as (ev & p' & K & G & C & A & S).
        assert (K' : exists ok, ev = PEnd i ok /\ ok = p_ok (f_proj F)).
        { destruct K as [(y & t & -> & _)|(ok & -> & Ko)].
          - unfold pstep in S. cbn [process] in S. rewrite Er, Nt in S. discriminate.
          - exists ok. split; [reflexivity|]. destruct (p_ok (f_proj F)) eqn:Ok; [exact (Ko eq_refl)|]. unfold pstep in S. cbn [process] in S.
            rewrite Er, Nt, Ok in S. destruct ok; [|reflexivity]. destruct (xstep _ _ _ _ _); discriminate. }
        destruct K' as (ok & -> & Eok). destruct (gdeliver_all u8 F (FP (PEnd i ok)) (f_gens F)) as (gs & Gd).
        { intros j gj Hj. cbn [gdelivered]. rewrite Nt. apply gfail_possible. }
        destruct (fstep_some u8 F (FP (PEnd i ok)) p' gs) as (F' & SF); [|cbn [pdelivered pexec]; rewrite S; reflexivity|exact Gd|].
        { cbn [fallowed]. rewrite Ei, Rg, Eok, Bool.eqb_reflx. reflexivity. }
        exists (FP (PEnd i ok)), F'. split; [exact G|]. split; [reflexivity|]. split; [|exact SF]. split; exact Logic.I.
    + destruct (gupper h (match assoc i (p_targets (f_proj F)) with Some (e, _) => out_file e | None => "" end) (map fst (f_gens F))) as (v0 & Hv0).
      destruct (running_step Forward mt0 l files pevs (fh_p h) (f_proj F) w r x i v0 Fp Hp Er Ri) as (ev & p' & K & G & C & A & S).
      specialize (A (or_introl eq_refl)).
      assert (Gd : exists gs, gdeliver u8 F (FP ev) (f_gens F) = Some gs).
      { apply gdeliver_all. intros j gj Hj. destruct K as [(y & t & -> & _)|(ok & -> & _)]; cbn [gdelivered].
        - destruct (assoc i (p_targets (f_proj F))) as [[e st]|]; [|eexists; reflexivity]. destruct t; cbn [app gexec gstep]; apply gfail_possible.
        - destruct (assoc i (p_targets (f_proj F))); [eexists; reflexivity|apply gfail_possible]. }
      destruct Gd as (gs & Gd). destruct (fstep_some u8 F (FP ev) p' gs) as (F' & SF); [|cbn [pdelivered pexec]; rewrite S; reflexivity|exact Gd|].
      { destruct K as [(y & t & -> & _)|(ok & -> & _)]; cbn [fallowed]; [reflexivity|]. rewrite Ei. reflexivity. }
      exists (FP ev), F'. split; [exact G|]. split; [exact C|]. split; [|exact SF]. split; [exact A|].
      destruct K as [(y & t & -> & Kt)|(ok & -> & _)]; [|exact Logic.I]. destruct t as [t|]; [|exact Logic.I]. intros e st Hi _.
      destruct Kt as [Kt|(v & [= ->] & Lv)]; [discriminate|].
      pose proof (phistory_PInv _ _ _ _ _ _ _ Fp Hp) as P. pose proof (assoc_NoDup_In _ _ _ (pi_ids _ _ _ _ P) Hi) as Ea. rewrite Ea in Hv0.
      split.
      * unfold pstep in S. cbn [process] in S. rewrite Er, Ea in S. destruct (assoc i (p_built (f_proj F))); [|discriminate].
        destruct (_ && _); [|discriminate]. destruct (step e st y) as [st'|] eqn:Sp; [|discriminate].
        exact (proj2 (A e st st' Hi Sp)).
      * intros j Hj v1 [= <-]. specialize (Hv0 j Hj). lia.
Qed.

Lemma fhistory_deterministic rg bd u8 mt0 l files gids evs : forall h F h' F', fhistory rg bd u8 mt0 l files gids evs h F ->
  fhistory rg bd u8 mt0 l files gids evs h' F' -> h = h' /\ F = F'.
Proof.
  induction evs as [|ev evs IH] using rev_ind; intros h F h' F' A B.
  - inversion A as [|? ? ? ? ? ? ? ? E]; [|destruct evs; discriminate]. inversion B as [|? ? ? ? ? ? ? ? E2]; [|destruct evs; discriminate]. auto.
  - apply fhistory_snoc_inv in A as (h1 & F1 & A & _ & SA & ->). apply fhistory_snoc_inv in B as (h2 & F2 & B & _ & SB & ->).
    destruct (IH _ _ _ _ A B) as [-> ->]. rewrite SA in SB. injection SB as ->. auto.
Qed.

Lemma counted_built rg bd u8 F ev F' h : fadmissible rg bd F h ev -> fundisturbed ev -> fstep u8 F ev = Some F' -> p_built (f_proj F') = p_built (f_proj F).
Proof.
  intros _ U S. destruct (fstep_inv _ _ _ _ S) as (_ & P & _ & _). destruct ev as [pe|i|i o|i x]; try destruct U.
  - cbn [pdelivered pexec] in P. destruct (pstep (f_proj F) pe) as [p'|] eqn:Sp; [|discriminate]. injection P as <-. exact (proj1 (pstep_run _ _ _ U Sp)).
  - exact (proj1 (proj2 (gen_effect _ _ _ _ _ P))).
Qed.

Theorem full_completes bd u8 mt0 l files gids pre w r run h F :
  (forall j, lawful (bd j)) -> fresh_full mt0 l gids -> incl gids (map fst files) ->
  fhistory Forward bd u8 mt0 l files gids (pre ++ FP (PRun w r) :: run) h F -> Forall fundisturbed run ->
  exists more h' F' x', fhistory Forward bd u8 mt0 l files gids (pre ++ FP (PRun w r) :: run ++ more) h' F' /\
    fsmoothly Forward bd u8 mt0 l files gids (pre ++ FP (PRun w r) :: run) more /\
    p_run (f_proj F') = Some (w, r, x') /\ x_over w (rg_built r) (rg_edges r) x'.
Proof.
  intros Lw Fr Inc. remember (2 * length (rg_built r) + work_of (p_built (f_proj F)) + gwork_of (f_objs F) - length (filter fcounted run)) as k eqn:Ek.
  revert run h F Ek. induction k as [k IH] using lt_wf_ind. intros run h F Ek H U.
  destruct (fundisturbed_run _ _ _ _ _ _ _ _ _ _ _ _ _ U H) as (x & Er).
  destruct (over_dec w (rg_built r) (rg_edges r) x) as [Ov|(xe & xs & Xs)].
  - exists [], h, F, x. rewrite app_nil_r. split; [exact H|]. split; [|auto]. intros a ev b h1 p1 E. destruct a; discriminate.
  - destruct (full_never_stuck _ _ _ _ _ _ _ _ _ _ _ _ Lw Fr Inc H Er) as (ev & F1 & G & C & A & S).
    { intros Ov. rewrite (Ov xe) in Xs. discriminate. }
    pose proof (fhistory_snoc _ _ _ _ _ _ _ _ _ _ _ _ H A S) as H1. rewrite <- fsnoc_run in H1. pose proof (fgoes_well_undisturbed _ _ G) as Ue.
    assert (U1 : Forall fundisturbed (run ++ [ev])) by (apply Forall_app; split; [exact U|constructor; [exact Ue|constructor]]).
    pose proof (counted_built _ _ _ _ _ _ _ A Ue S) as Eb. pose proof (prun_objs _ _ _ _ (or_introl Ue) S) as Eo.
    pose proof (full_bounded _ _ _ _ _ _ _ _ _ _ _ _ _ Lw Fr H1 U1) as B. rewrite Eb, Eo in B.
    assert (Len : length (filter fcounted (run ++ [ev])) = length (filter fcounted run) + 1).
    { rewrite filter_app, app_length. cbn [filter]. rewrite C. reflexivity. }
    destruct (IH (2 * length (rg_built r) + work_of (p_built (f_proj F1)) + gwork_of (f_objs F1) - length (filter fcounted (run ++ [ev])))) with (run := run ++ [ev]) (h := ftrack u8 F h ev) (F := F1)
      as (more & h' & F' & x' & K1 & K2 & K3 & K4); try assumption; try reflexivity.
    + rewrite Eb, Eo. lia.
    + exists (ev :: more), h', F', x'. rewrite <- app_assoc in K1. cbn [app] in K1. split; [exact K1|]. split; [|auto].
      intros a ev1 b h1 F2 E H2. destruct a as [|a0 a]; cbn [app] in E; injection E as -> E.
      * rewrite app_nil_r in H2. destruct (fhistory_deterministic _ _ _ _ _ _ _ _ _ _ _ _ H H2) as [_ <-]. exact G.
      * apply (K2 a ev1 b h1 F2 E). rewrite fsnoc_run, <- app_assoc. exact H2.
Qed.

(** ** Success *)

Definition outside (x : gevent) : Prop := match x with GEdit _ _ | GFail => True | _ => False end.
Lemma outside_load u8 evs : forall g g', Forall outside evs -> gexec u8 g evs = Some g' -> g_load g' = g_load g.
Proof.
  induction evs as [|x evs IH]; intros g g' O X; cbn [gexec] in X; [injection X as <-; reflexivity|]. inversion O as [|? ? O1 O2]; subst.
  destruct (gstep u8 g x) as [g1|] eqn:S; [|discriminate]. rewrite (IH g1 g' O2 X). destruct x; try destruct O1; cbn [gstep] in S; injection S as <-; reflexivity.
Qed.
Lemma fail_outside b g : Forall outside (gfail_others b g).
Proof. unfold gfail_others. destruct (_ && _); repeat constructor. Qed.
Lemma delivered_outside u8 F ev j g : fundisturbed ev -> (forall x, ev <> FStep j x) -> Forall outside (gdelivered u8 F ev j g).
Proof.
  intros U N. destruct ev as [pe|i|i o|i x]; try destruct U; cbn [gdelivered].
  - destruct pe as [f t|i|i c ord|w r|i|i y' t|i f t|i|i okk|ls]; try destruct U; try (repeat constructor; fail).
    + destruct (assoc i _) as [[e st]|]; [|constructor]. apply Forall_app. split; [destruct t; repeat constructor|apply fail_outside].
    + apply fail_outside.
    + destruct (assoc i _); [constructor|apply fail_outside].
  - destruct (String.eqb_spec i j) as [->|Ne]; [destruct (N x eq_refl)|]. apply Forall_app. split; [|apply fail_outside].
    apply Forall_forall. intros z Hz. apply in_map_iff in Hz as (y & <- & _). exact Logic.I.
Qed.

(** What a running builder writes is no input of other generators that have started. *)
Lemma gwrite_elsewhere rg bd u8 l files mt0 F h ed w r x b f j o k gi : fresh_project mt0 l -> FInv rg bd u8 l files F h ed -> p_run (f_proj F) = Some (w, r, x) ->
  In b (x_running x) -> writes (f_proj F) b f -> b <> j -> In (j, o) (f_objs F) -> In j (starts (x_log x)) -> In (k, gi) (go_ids o) -> ~ In f (inputs_of gi).
Proof.
  intros Fp I Er Ru W N Ho K M1 M2. destruct (fi_p _ _ _ _ _ _ _ _ I) as (pevs & Hp). pose proof (phistory_PInv _ _ _ _ _ _ _ Fp Hp) as P.
  destruct (pi_run _ _ _ _ P w r x Er) as [X _].
  assert (Ir : In j (rg_built r)) by (exact (xi_built _ _ _ _ X _ K)).
  assert (Br : In b (rg_built r)) by (apply (xi_built _ _ _ _ X); exact (running_started _ _ _ _ _ X Ru)).
  exact (running_not_finished _ _ _ _ _ X Ru (started_deps _ _ _ _ _ _ X K (fi_wired _ _ _ _ _ _ _ _ I w r x Er b j f o k gi Br W N Ir Ho M1 M2))).
Qed.

Lemma fsmoothly_snoc rg bd u8 mt0 l files gids before run ev : fsmoothly rg bd u8 mt0 l files gids before (run ++ [ev]) -> fsmoothly rg bd u8 mt0 l files gids before run.
Proof. intros S a x b h p E H. apply (S a x (b ++ [ev]) h p); [rewrite E, <- app_assoc; reflexivity|exact H]. Qed.
Lemma ffiles_snoc rg bd u8 mt0 l files gids r before run ev : ffiles_there rg bd u8 mt0 l files gids r before (run ++ [ev]) -> ffiles_there rg bd u8 mt0 l files gids r before run.
Proof. intros S a x b h p E H. apply (S a x (b ++ [ev]) h p); [rewrite E, <- app_assoc; reflexivity|exact H]. Qed.

Lemma split_snoc {A} (run : list A) (y : A) a x b : run ++ [y] = a ++ x :: b -> (exists b', b = b' ++ [y] /\ run = a ++ x :: b') \/ (a = run /\ x = y /\ b = []).
Proof.
  intros E. destruct (exists_last (l := x :: b)) as (m & z & Em); [discriminate|]. destruct b as [|b0 b1] using rev_ind.
  - right. apply app_inj_tail in E as [-> ->]. auto.
  - clear IHb1 m z Em. left. exists b1. rewrite app_comm_cons, app_assoc in E. apply app_inj_tail in E as [-> ->]. auto.
Qed.
Lemma smoothly_add rg l gens before run ev h p : smoothly rg l gens before run -> phistory rg l gens (before ++ run) h p -> goes_well p ev ->
  smoothly rg l gens before (run ++ [ev]).
Proof.
  intros S H G a x b h1 p1 E H1. destruct (split_snoc _ _ _ _ _ E) as [(b' & -> & E')|(-> & -> & ->)]; [exact (S a x b' h1 p1 E' H1)|].
  destruct (phistory_deterministic _ _ _ _ _ _ _ _ H H1) as [_ <-]. exact G.
Qed.
Lemma files_add rg l gens r before run ev h p : files_there rg l gens r before run -> phistory rg l gens (before ++ run) h p ->
  (forall i e st c f, ev = PBegin i -> In (i, (e, st)) (p_targets p) -> In (i, c) (p_built p) -> In f (tracked c) ->
     d_mt (s_disk st) f <> None \/ made_by_target p r f) ->
  files_there rg l gens r before (run ++ [ev]).
Proof.
  intros S H G a i b h1 p1 E H1. destruct (split_snoc _ _ _ _ _ E) as [(b' & -> & E')|(-> & <- & ->)]; [exact (S a i b' h1 p1 E' H1)|].
  destruct (phistory_deterministic _ _ _ _ _ _ _ _ H H1) as [_ <-]. intros e st c f. exact (G i e st c f eq_refl).
Qed.
Lemma writes_smoothly rg l gens r before i ws : forall run h p p', phistory rg l gens (before ++ run) h p ->
  padmissibles rg p h (pwrites i ws) -> pexec p (pwrites i ws) = Some p' ->
  smoothly rg l gens before run -> files_there rg l gens r before run ->
  smoothly rg l gens before (run ++ pwrites i ws) /\ files_there rg l gens r before (run ++ pwrites i ws).
Proof.
  induction ws as [|y ws IH]; intros run h p p' H A X S Fi; cbn [pwrites map pexec padmissibles] in *; [rewrite app_nil_r; auto|].
  destruct A as [A1 A2]. destruct (pstep p (PWrite i (fst y) (snd y))) as [p1|] eqn:Sp; [|discriminate].
  pose proof (phistory_snoc _ _ _ _ _ _ _ _ H A1 Sp) as H1. rewrite <- app_assoc in H1.
  destruct (IH (run ++ [PWrite i (fst y) (snd y)]) _ p1 p' H1 A2 X) as [K1 K2].
  - apply (smoothly_add _ _ _ _ _ _ _ _ S H). exact Logic.I.
  - apply (files_add _ _ _ _ _ _ _ _ _ Fi H). discriminate.
  - unfold pwrites in K1, K2. rewrite <- app_assoc in K1, K2. auto.
Qed.

Theorem full_succeeds rg bd u8 mt0 l files gids pre w r run : (forall j, lawful (bd j)) -> fresh_full mt0 l gids -> forall h F,
  fhistory rg bd u8 mt0 l files gids (pre ++ FP (PRun w r) :: run) h F ->
  fsmoothly rg bd u8 mt0 l files gids (pre ++ [FP (PRun w r)]) run ->
  ffiles_there rg bd u8 mt0 l files gids r (pre ++ [FP (PRun w r)]) run ->
  (forall id e st c, In (id, (e, st)) (p_targets (f_proj F)) -> In (id, c) (p_built (f_proj F)) -> In id (rg_built r) -> usable e c) ->
  (forall h0 F0, fhistory rg bd u8 mt0 l files gids pre h0 F0 -> gens_usable u8 F0) ->
  Forall fundisturbed run /\ p_ok (f_proj F) = true /\
  (exists pre' run', phistory rg l files (pre' ++ PRun w r :: run') (fh_p h) (f_proj F) /\
     smoothly rg l files (pre' ++ [PRun w r]) run' /\ files_there rg l files r (pre' ++ [PRun w r]) run') /\
  (forall x j g o, p_run (f_proj F) = Some (w, r, x) -> In (j, g) (f_gens F) -> In (j, o) (f_objs F) ->
     gstorable o /\ accepts_own o /\ accepts_stored (g_load g) o /\ (In j (starts (x_log x)) -> inputs_there (gd_mt (g_disk g)) o)).
Proof.
  intros Lw Fr. pose proof (proj1 Fr) as Fp. induction run as [|ev run IH] using rev_ind; intros h F H Sm Fi Us Gu.
  - apply fhistory_snoc_inv in H as (h1 & F1 & H & A & S & ->). pose proof (fhistory_FInv _ _ _ _ _ _ _ _ _ _ Lw Fr H) as I.
    pose proof (prun_objs _ _ _ _ (or_intror (ex_intro _ w (ex_intro _ r eq_refl))) S) as Eo.
    destruct (fi_p _ _ _ _ _ _ _ _ I) as (pevs & Hp). pose proof (delivered_history _ _ _ _ _ _ _ _ _ _ A S Hp) as Hp'.
    destruct (fstep_inv _ _ _ _ S) as (Al & P & D & _). cbn [pdelivered pexec] in P, Hp'.
    destruct (pstep (f_proj F1) (PRun w r)) as [p1|] eqn:Sp; [|discriminate]. injection P as ->.
    assert (Sm' : smoothly rg l files (pevs ++ [PRun w r]) []) by (intros a x b h2 p2 E; destruct a; discriminate).
    assert (Fi' : files_there rg l files r (pevs ++ [PRun w r]) []) by (intros a x b h2 p2 E; destruct a; discriminate).
    destruct (smooth_run_succeeds _ _ _ _ pevs w r [] Fp _ _ Hp' Sm' Fi' Us) as (_ & Ok & _).
    split; [constructor|]. split; [exact Ok|]. split; [exists pevs, []; auto|].
    unfold pstep in Sp. cbn [process] in Sp. destruct (p_run (f_proj F1)) eqn:R; [discriminate|].
    destruct (deliver (f_proj F1) (PRun w r) (p_targets (f_proj F1))) as [ts|] eqn:Dd; [|discriminate]. injection Sp as Sp.
    intros x j g o Er Hj Ho. rewrite <- Sp in Er. cbn [p_run] in Er. injection Er as <-. rewrite Eo in Ho.
    destruct (gdeliver_In _ _ _ _ _ _ _ D Hj) as (g1 & Hj1 & X). cbn [gdelivered gexec] in X. injection X as <-.
    pose proof (fi_g _ _ _ _ _ _ _ _ I _ _ Hj1) as J. pose proof (assoc_NoDup_In _ _ _ (fi_objs _ _ _ _ _ _ _ _ I) Ho) as Ea.
    destruct (ji_reg _ _ _ _ _ _ _ _ _ _ J o Ea R) as [B _]. destruct (ji_hist _ _ _ _ _ _ _ _ _ _ J) as (m0 & gevs & Hh).
    destruct (Gu _ _ H j g1 o Hj1 Ho) as (G1 & G2 & G3).
    rewrite (gv_load _ _ _ _ _ (history_inv _ _ _ _ _ _ _ (Lw j) Hh)); [|rewrite B; discriminate]. split; [exact G1|]. split; [exact G2|]. split; [exact G3|]. intros [].
  - rewrite fsnoc_run in H. apply fhistory_snoc_inv in H as (h1 & F1 & H & Ad & S & ->).
    pose proof (Sm run ev [] h1 F1 eq_refl) as Gw. rewrite <- app_assoc in Gw. specialize (Gw H). pose proof (fgoes_well_undisturbed _ _ Gw) as Ue.
    pose proof (fhistory_FInv _ _ _ _ _ _ _ _ _ _ Lw Fr H) as I. pose proof (counted_built _ _ _ _ _ _ _ Ad Ue S) as Eb.
    pose proof (prun_objs _ _ _ _ (or_introl Ue) S) as Eo. destruct (fstep_inv _ _ _ _ S) as (Al & Pe & D & _).
    assert (Us1 : forall id e st c, In (id, (e, st)) (p_targets (f_proj F1)) -> In (id, c) (p_built (f_proj F1)) -> In id (rg_built r) -> usable e c).
    { intros id e st c Hi Hb Hr. rewrite <- Eb in Hb. pose proof (proj1 (pexec_outs _ _ _ Pe)) as So. unfold same_outs in So.
      pose proof (in_map (fun x : string * (tenv * tstate) => (fst x, fst (snd x))) _ _ Hi) as Hm. rewrite <- So in Hm.
      apply in_map_iff in Hm as ([id' [e' st']] & E & Hi'). cbn [fst snd] in E. injection E as -> ->. exact (Us id e st' c Hi' Hb Hr). }
    destruct (IH h1 F1 H (fsmoothly_snoc _ _ _ _ _ _ _ _ _ _ Sm) (ffiles_snoc _ _ _ _ _ _ _ _ _ _ _ Fi) Us1 Gu) as (U1 & Ok & (pre' & run' & Hp & Sp & Fp') & Gg).
    destruct (fundisturbed_run _ _ _ _ _ _ _ _ _ _ _ _ _ U1 H) as (x & Er).
    pose proof (phistory_PInv _ _ _ _ _ _ _ Fp Hp) as PI. destruct (pi_run _ _ _ _ PI _ _ _ Er) as [XI Wi].
    assert (Hp0 : phistory rg l files ((pre' ++ [PRun w r]) ++ run') (fh_p h1) (f_proj F1)) by (rewrite <- app_assoc; exact Hp).
    (* own steps of a generator *)
    assert (Own : forall j g o y, ev = FStep j y -> In (j, g) (f_gens F1) -> In (j, o) (f_objs F1) -> forall g', gstep u8 g y = Some g' ->
       g_load g' = g_load g /\ g_ok g' = true /\ inputs_there (gd_mt (g_disk g')) o).
    { intros j g o y -> Hj Ho g' Sg. destruct Gw as [_ Gw]. pose proof (fi_g _ _ _ _ _ _ _ _ I _ _ Hj) as J.
      pose proof (assoc_NoDup_In _ _ _ (fi_objs _ _ _ _ _ _ _ _ I) Ho) as Ea. destruct (Gg x j g o Er Hj Ho) as (G1 & G2 & G3 & G4).
      cbn [fallowed] in Al. rewrite Er in Al. destruct (assoc j (f_gens F1)); [|discriminate]. rewrite Ea in Al. apply andb_true_iff in Al as [Al _].
      apply mem_str_In in Al. destruct (ggood_step u8 o g y g' Sg (Gw o Ho) (ji_cfg _ _ _ _ _ _ _ _ _ _ J o Ea) G3 G2 G1 (ji_ok _ _ _ _ _ _ _ _ _ _ J o w r x Ea Er Ok)
        (G4 (running_started _ _ _ _ _ XI Al))) as (_ & K1 & K2 & K3). auto. }
    assert (Proj : exists run'', phistory rg l files (pre' ++ PRun w r :: run'') (fh_p (ftrack u8 F1 h1 ev)) (f_proj F) /\
       smoothly rg l files (pre' ++ [PRun w r]) run'' /\ files_there rg l files r (pre' ++ [PRun w r]) run'').
    { exists (run' ++ pdelivered u8 F1 ev). pose proof (delivered_history _ _ _ _ _ _ _ _ _ _ Ad S Hp) as Hd.
      split; [rewrite app_comm_cons, app_assoc; exact Hd|]. destruct ev as [pe|i|i o|i y]; try destruct Ue; cbn [pdelivered].
      - split; [exact (smoothly_add _ _ _ _ _ _ _ _ Sp Hp0 Gw)|]. apply (files_add _ _ _ _ _ _ _ _ _ Fp' Hp0). intros i e st c f -> Hi Hb Hf.
        pose proof (Fi run i [] h1 F1 eq_refl) as Fj. rewrite <- app_assoc in Fj. exact (proj1 (Fj H) e st c f Hi Hb Hf).
      - assert (Nf : gfails u8 F1 i y = false).
        { unfold gfails. destruct (assoc i (f_gens F1)) as [g|] eqn:Eg; [|reflexivity]. destruct (gstep u8 g y) as [g'|] eqn:Sg; [|reflexivity].
          cbn [fallowed] in Al. rewrite Er, Eg in Al. destruct (assoc i (f_objs F1)) as [o|] eqn:Ea; [|discriminate].
          destruct (Own i g o y eq_refl (assoc_In _ _ _ Eg) (assoc_In _ _ _ Ea) g' Sg) as (_ & K & _). rewrite K. reflexivity. }
        cbn [pdelivered] in Pe. rewrite Nf, app_nil_r in Pe |- *. destruct Ad as (_ & Nd & Aw).
        pose proof (gen_admissible rg i false (writes_of y) (f_proj F1) (fh_p h1) Nd (fun f t Hf => conj (proj1 (Aw f t Hf)) (fun R => proj1 (proj2 (Aw f t Hf) R)))) as Pa.
        rewrite app_nil_r in Pa. exact (writes_smoothly _ _ _ _ _ i (writes_of y) run' _ _ _ Hp0 Pa Pe Sp Fp'). }
    destruct Proj as (run'' & Hd & Sd & Fd). split; [apply Forall_app; split; [exact U1|constructor; [exact Ue|constructor]]|].
    destruct (smooth_run_succeeds _ _ _ _ pre' w r run'' Fp _ _ Hd Sd Fd Us) as (_ & Ok' & _). split; [exact Ok'|]. split; [exists pre', run''; auto|].
    intros x' j g' o Er' Hj' Ho. rewrite Eo in Ho. destruct (gdeliver_In _ _ _ _ _ _ _ D Hj') as (g & Hj & X).
    destruct (Gg x j g o Er Hj Ho) as (G1 & G2 & G3 & G4). split; [exact G1|]. split; [exact G2|].
    assert (Df : (exists y, ev = FStep j y) \/ forall y, ev <> FStep j y).
    { destruct ev as [pe|i|i o'|i y]; try (right; discriminate). destruct (String.eqb_spec i j) as [->|N]; [left; eexists; reflexivity|].
      right. intros z [= E _]. exact (N E). }
    destruct Df as [(y & ->)|Df].
    + cbn [gdelivered] in X. rewrite String.eqb_refl in X. cbn [gexec] in X. destruct (gstep u8 g y) as [g1|] eqn:Sg; [|discriminate]. injection X as <-.
      destruct (Own j g o y eq_refl Hj Ho g1 Sg) as (K1 & _ & K3). rewrite K1. auto.
    + rewrite (outside_load _ _ _ _ (delivered_outside u8 F1 ev j g Ue Df) X). split; [exact G3|]. intros Hs k gi f Hk Hf.
      rewrite (gdelivered_mt _ _ _ _ _ _ _ Al Pe X).
      assert (Old : In j (starts (x_log x)) -> write_all (gd_mt (g_disk g)) (fchange F1 ev) f <> None).
      { intros K. rewrite write_all_other; [exact (G4 K k gi f Hk Hf)|]. intros t Ht.
        assert (W : exists b, In b (x_running x) /\ writes (f_proj F1) b f /\ b <> j).
        { destruct ev as [pe|i|i o'|i y]; try destruct Ue; cbn [fchange] in Ht.
          - destruct (change (f_proj F1) pe) as [ch|] eqn:Ech; [|destruct Ht]. destruct Ht as [->|[]].
            cbn [pdelivered pexec] in Pe. destruct (pstep (f_proj F1) pe) as [p1|] eqn:Sp1; [|discriminate]. unfold pstep in Sp1.
            destruct pe as [f0 t0|i|i c ord|w0 r0|i|i y' t0|i f0 t0|i|i okk|ls]; try destruct Ue; cbn [change] in Ech; try discriminate.
            + destruct t0 as [t0|]; [|discriminate]. cbn [process] in Sp1. rewrite Er in Sp1. destruct (assoc i (p_targets (f_proj F1))) as [[e st]|] eqn:Ei; [|discriminate].
              injection Ech as <- <-. destruct (assoc i (p_built (f_proj F1))); [|discriminate]. destruct (mem_str i (x_running x)) eqn:M; [|discriminate].
              apply mem_str_In in M. exists i. split; [exact M|]. split; [left; exists e, st; split; [exact (assoc_In _ _ _ Ei)|reflexivity]|].
              intros ->. exact (fi_dis _ _ _ _ _ _ _ _ I j (in_map fst _ _ Hj) (in_map fst _ _ (assoc_In _ _ _ Ei))).
            + injection Ech as -> ->. cbn [process] in Sp1. rewrite Er in Sp1. destruct (assoc i (p_gens (f_proj F1))) as [fs|] eqn:Ei; [|discriminate].
              destruct (mem_str i (x_running x) && mem_str f fs) eqn:M; [|discriminate]. apply andb_true_iff in M as [M1 M2]. apply mem_str_In in M1, M2.
              exists i. split; [exact M1|]. split; [right; exists fs; split; [exact (assoc_In _ _ _ Ei)|exact M2]|]. intros ->.
              cbn [fallowed] in Al. rewrite (assoc_NoDup_In _ _ _ (fi_nd _ _ _ _ _ _ _ _ I) Hj) in Al. discriminate.
          - exists i. cbn [fallowed] in Al. rewrite Er in Al. destruct (assoc i (f_gens F1)); [|discriminate]. destruct (assoc i (f_objs F1)); [|discriminate].
            apply andb_true_iff in Al as [Al _]. apply mem_str_In in Al. split; [exact Al|]. split; [|intros ->; exact (Df y eq_refl)].
            exact (proj2 (proj2 (proj2 (gen_effect _ _ _ _ _ Pe))) f t Ht). }
        destruct W as (b & B1 & B2 & B3). exact (gwrite_elsewhere _ _ _ _ _ _ _ _ _ _ _ _ _ _ _ _ _ _ Fp I Er B1 B2 B3 Ho K Hk Hf). }
      destruct (in_dec string_dec j (starts (x_log x))) as [K|K]; [exact (Old K)|].
      assert (Eb' : ev = FP (PBegin j) /\ exists x1, xstep w (rg_built r) (rg_edges r) x (XStart j) = Some x1 /\ x' = x1).
      { destruct ev as [pe|i|i o'|i y]; try destruct Ue.
        - cbn [pdelivered pexec] in Pe. destruct (pstep (f_proj F1) pe) as [p1|] eqn:Sp1; [|discriminate]. injection Pe as ->. unfold pstep in Sp1.
          destruct (process (f_proj F1) pe) as [[[b rn] ok]|] eqn:E; [|discriminate]. destruct (deliver _ _ _) as [ts|]; [|discriminate]. injection Sp1 as Sp1. rewrite <- Sp1 in Er'.
          cbn [p_run] in Er'. subst rn. destruct pe as [f0 t0|i|i c ord|w0 r0|i|i y' t0|i f0 t0|i|i okk|ls]; try destruct Ue; cbn [process] in E; rewrite Er in E.
          + destruct (xstep _ _ _ _ _) as [x1|] eqn:Xs; [|discriminate]. injection E as _ <- _. pose proof Xs as Xs'. cbn [xstep] in Xs. destruct (_ && _); [|discriminate].
            injection Xs as <-. cbn [x_log] in Hs. rewrite starts_app in Hs. apply in_app_iff in Hs as [Hs|[<-|[]]]; [contradiction|]. split; [reflexivity|]. eexists. split; [exact Xs'|reflexivity].
          + exfalso. apply K. destruct (assoc i (p_targets _)) as [[e st]|]; [|discriminate]. destruct (assoc i (p_built _)); [|discriminate].
            destruct (_ && _); [|discriminate]. destruct (step e st y'); [|discriminate]. injection E as _ <- _. exact Hs.
          + exfalso. apply K. destruct (assoc i (p_gens _)); [|discriminate]. destruct (_ && _); [|discriminate]. injection E as _ <- _. exact Hs.
          + exfalso. apply K. destruct (assoc i (p_targets _)); [discriminate|]. destruct (assoc i (p_gens _)); [|discriminate]. destruct (mem_str _ _); [|discriminate]. injection E as _ <- _. exact Hs.
          + exfalso. apply K. destruct (xstep _ _ _ _ _) as [x1|] eqn:Xs; [|discriminate].
            assert (Ex : x1 = x') by (destruct (assoc i (p_targets (f_proj F1))) as [[e st]|]; [destruct (assoc i (p_built (f_proj F1))); [destruct (_ && _)|destruct okk]|destruct (implb _ _)]; try discriminate; congruence).
            subst x1. cbn [xstep] in Xs. destruct (mem_str _ _); [|discriminate]. injection Xs as <-. cbn [x_log] in Hs. rewrite starts_app in Hs. cbn in Hs. rewrite app_nil_r in Hs. exact Hs.
        - exfalso. apply K. rewrite (proj1 (gen_effect _ _ _ _ _ Pe)), Er in Er'. injection Er' as <-. exact Hs. }
      destruct Eb' as (-> & x1 & Xs & ->). cbn [fchange change write_all].
      pose proof (Fi run j [] h1 F1 eq_refl) as Fj. rewrite <- app_assoc in Fj.
      destruct (proj2 (Fj H) g o k gi f Hj Ho Hk Hf) as [Kf|(m & em & sm & cm & Hm & Hbm & Hrm & ->)]; [exact Kf|].
      pose proof (XInv_step _ _ _ _ _ _ XI Xs) as XI'.
      assert (Nm : m <> j). { intros ->. exact (fi_dis _ _ _ _ _ _ _ _ I j (in_map fst _ _ Hj) (in_map fst _ _ Hm)). }
      assert (Fm : In m (finishes (x_log x1))).
      { apply (started_deps _ _ _ _ _ _ XI' Hs). refine (fi_wired _ _ _ _ _ _ _ _ I w r x Er m j (out_file em) o k gi Hrm _ Nm (xi_built _ _ _ _ XI' _ Hs) Ho Hk Hf).
        left. exists em, sm. auto. }
      cbn [xstep] in Xs. destruct (_ && _); [|discriminate]. injection Xs as <-. cbn [x_log] in Fm. rewrite finishes_app in Fm. cbn [finishes flat_map app] in Fm. rewrite app_nil_r in Fm.
      destruct (fhistory_one_time _ _ _ _ _ _ _ _ _ _ Lw Fr H) as (mt & Mt & Mg). cbn [app]. rewrite (Mg _ _ Hj), <- (Mt _ _ _ Hm).
      assert (Up : Forall undisturbed_run run') by (exact (proj1 (smooth_run_succeeds _ _ _ _ pre' w r run' Fp _ _ Hp Sp Fp' Us1))).
      exact (output_there _ _ _ _ _ _ _ _ _ _ _ _ _ _ _ _ _ _ Fp Hp Up Er Ok Hm Hbm Fm Hm).
Qed.
