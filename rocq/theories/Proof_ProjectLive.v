(** Runs of whole programs end, and succeed if nothing goes wrong. *)
From Verif Require Import Prelude Proof_Prelude Model_Path Model_Schema Spec_Json Model_Command Model_ToolchainConfig Model_Target
  Spec_Target Proof_TargetBase Proof_TargetInv Proof_TargetRun Proof_TargetStep Proof_TargetStep2 Proof_TargetMain Proof_TargetLive
  Model_Reg Spec_Reg Proof_Reg Proof_RegRun Model_Project Spec_Project Proof_Project Proof_Project2 Proof_Project3 Proof_Project4
  Proof_Project5 Spec_ProjectLive.

(** ** Bounded *)

Definition todo (l : list (string * (tenv * tstate))) : nat := list_sum (map (fun x => left_to_do (snd (snd x))) l).

Lemma left_edit e st f t st' : step e st (EvEdit f t) = Some st' -> left_to_do st' = left_to_do st.
Proof. cbn [step]. intros [= <-]. reflexivity. Qed.
Lemma left_fail_others e st b st0 st' : exec e st (fail_others b st0) = Some st' -> left_to_do st' = left_to_do st.
Proof. unfold fail_others. destruct (_ && _); cbn [exec step]; intros [= <-]; reflexivity. Qed.
Lemma taskflow_own ev : in_taskflow ev = true -> own ev.
Proof. destruct ev; try discriminate; intros _; exact Logic.I. Qed.

Lemma left_delivered p ev built run ok id e st st' :
  undisturbed_run ev -> NoDup (map fst (p_targets p)) -> process p ev = Some (built, run, ok) -> In (id, (e, st)) (p_targets p) ->
  exec e st (delivered p ev id st) = Some st' ->
  left_to_do st' + match ev with PStep i _ _ => if String.eqb i id then 1 else 0 | _ => 0 end <= left_to_do st.
Proof.
  intros U Nd E Hi X. pose proof (assoc_NoDup_In _ _ _ Nd Hi) as Ha.
  destruct ev as [f t|i|i c ord|w r|i|i ev t|i f t|i|i okk|l]; try destruct U; cbn [process delivered] in *.
  - injection X as <-. lia.
  - destruct (p_run p) as [[[w r] x]|] eqn:Er; [|discriminate].
    destruct (assoc i (p_targets p)) as [[ei sti]|] eqn:Ei; [|discriminate].
    destruct (assoc i (p_built p)) as [ci|] eqn:Eb; [|discriminate].
    destruct (mem_str i (x_running x) && in_taskflow ev && _) eqn:Co; [|discriminate].
    apply andb_true_iff in Co as [Co Ct]. apply andb_true_iff in Co as [Cr Cf].
    destruct (step ei sti ev) as [sti'|] eqn:Si; [|discriminate].
    destruct (String.eqb_spec i id) as [->|N].
    + rewrite Ha in Ei. injection Ei as <- <-. rewrite app_nil_r in X. cbn [app exec] in X. rewrite Si in X.
      pose proof (own_decreases _ _ _ _ Si (taskflow_own _ Cf)) as D.
      destruct t as [t'|]; cbn [exec] in X.
      * destruct (step e sti' _) as [s2|] eqn:S2; [|discriminate]. injection X as <-. rewrite (left_edit _ _ _ _ _ S2). lia.
      * injection X as <-. lia.
    + cbn [app] in X. destruct t as [t'|]; cbn [app exec] in X.
      * destruct (step e st _) as [s2|] eqn:S2; [|discriminate]. rewrite (left_fail_others _ _ _ _ _ X), (left_edit _ _ _ _ _ S2). lia.
      * rewrite (left_fail_others _ _ _ _ _ X). lia.
  - cbn [exec] in X. destruct (step e st _) as [s2|] eqn:S2; [|discriminate]. injection X as <-. rewrite (left_edit _ _ _ _ _ S2). lia.
  - rewrite (left_fail_others _ _ _ _ _ X). lia.
  - destruct (assoc i (p_targets p)).
    + injection X as <-. lia.
    + rewrite (left_fail_others _ _ _ _ _ X). lia.
Qed.

Lemma todo_delivered p ev built run ok :
  undisturbed_run ev -> NoDup (map fst (p_targets p)) -> process p ev = Some (built, run, ok) ->
  forall l l', incl l (p_targets p) -> deliver p ev l = Some l' ->
  todo l' + match ev with PStep i _ _ => if mem_str i (map fst l) then 1 else 0 | _ => 0 end <= todo l.
Proof.
  intros U Nd E. induction l as [|[id [e st]] l IH]; intros l' In1 D; cbn [deliver] in D.
  - injection D as <-. destruct ev; cbn; lia.
  - destruct (exec e st (delivered p ev id st)) as [st'|] eqn:X; [|discriminate]. destruct (deliver p ev l) as [l1|] eqn:D1; [|discriminate].
    injection D as <-.
    assert (Hi : In (id, (e, st)) (p_targets p)) by (apply In1; left; reflexivity).
    pose proof (left_delivered _ _ _ _ _ _ _ _ _ U Nd E Hi X) as A.
    assert (B : incl l (p_targets p)) by (intros y Hy; apply In1; right; exact Hy). specialize (IH l1 B eq_refl).
    unfold todo in *. cbn [map list_sum fold_right fst snd] in *. unfold list_sum in *.
    destruct ev; try lia. cbn [mem_str existsb map]. unfold mem_str in *. cbn [existsb]. rewrite (String.eqb_sym id0 id) in A |- *.
    destruct (String.eqb id id0); cbn [orb] in *; [|lia]. destruct (existsb _ _); lia.
Qed.

Definition share (built : list (string * cfg)) (id : string) : nat :=
  match assoc id built with Some c => length (sources c) + 6 | None => 0 end.
Lemma sum_eq (ids : list string) (i : string) (k : nat) : NoDup ids -> list_sum (map (fun id => if String.eqb id i then k else 0) ids) <= k.
Proof.
  induction 1 as [|j ids Nj _ IH]; cbn; [lia|]. destruct (String.eqb_spec j i) as [->|N]; [|exact IH].
  assert (Z : list_sum (map (fun id => if String.eqb id i then k else 0) ids) = 0).
  { clear IH. induction ids as [|m ids IHm]; [reflexivity|]. cbn. destruct (String.eqb_spec m i) as [->|]; [destruct Nj; left; reflexivity|].
    apply IHm. intros K. apply Nj. right. exact K. }
  unfold list_sum in *. lia.
Qed.
Lemma sum_add {A} (f g k : A -> nat) (l : list A) : (forall x, f x <= g x + k x) ->
  list_sum (map f l) <= list_sum (map g l) + list_sum (map k l).
Proof. intros H. induction l as [|x l IH]; cbn; [lia|]. specialize (H x). unfold list_sum in *. lia. Qed.
Lemma shares (ids : list string) : NoDup ids -> forall built, list_sum (map (share built) ids) <= work_of built.
Proof.
  intros Nd. induction built as [|[i c] b IH].
  - assert (Z : list_sum (map (share []) ids) = 0) by (clear Nd; induction ids as [|j l IH]; [reflexivity|exact IH]). rewrite Z. cbn. lia.
  - pose proof (sum_eq ids i (length (sources c) + 6) Nd) as A.
    pose proof (sum_add (share ((i, c) :: b)) (fun id => if String.eqb id i then length (sources c) + 6 else 0) (share b) ids) as B.
    assert (C : list_sum (map (share ((i, c) :: b)) ids) <=
      list_sum (map (fun id => if String.eqb id i then length (sources c) + 6 else 0) ids) + list_sum (map (share b) ids)).
    { apply B. intros x. unfold share. cbn [assoc]. rewrite (String.eqb_sym x i). destruct (String.eqb i x); lia. }
    unfold work_of in *. cbn [map snd]. change (list_sum (?a :: ?m)) with (a + list_sum m). lia.
Qed.

Lemma todo_start rg p h ed : PInv rg p h ed -> p_run p = None -> todo (p_targets p) <= work_of (p_built p).
Proof.
  intros P R. eapply Nat.le_trans; [|exact (shares _ (pi_ids _ _ _ _ P) (p_built p))].
  unfold todo. rewrite map_map. assert (G : forall x, In x (p_targets p) -> left_to_do (snd (snd x)) <= share (p_built p) (fst x)).
  { intros [id [e st]] Hi. cbn [fst snd]. pose proof (pi_tgt _ _ _ _ P _ _ _ Hi) as T. unfold share.
    destruct (assoc id (p_built p)) as [c|] eqn:Ea.
    - destruct (ti_reg _ _ _ _ _ _ _ _ _ T c Ea R) as (B & _). destruct (ti_hist _ _ _ _ _ _ _ _ _ T) as (d0 & evs & H).
      pose proof (history_Inv rg e (ti_temp _ _ _ _ _ _ _ _ _ T) _ _ _ _ H) as Iv.
      pose proof (like_sources _ _ (r_like _ _ _ _ (i_run _ _ _ _ Iv (before_not_idle _ B)))) as L.
      rewrite (ti_cfg _ _ _ _ _ _ _ _ _ T c Ea) in L. unfold il_paths in L. apply (f_equal (@length _)) in L. rewrite map_length in L.
      unfold left_to_do. destruct B as [B|[B _]]; rewrite B; lia.
    - unfold left_to_do. rewrite (ti_unbuilt _ _ _ _ _ _ _ _ _ T Ea). lia. }
  clear P R. revert G. generalize (p_targets p). intros l G. induction l as [|x l IH]; cbn; [lia|].
  pose proof (G x (or_introl eq_refl)). unfold list_sum in *. specialize (IH (fun y Hy => G y (or_intror Hy))). lia.
Qed.

Definition steps (run : list pevent) : nat := length (filter counted run).
Lemma steps_snoc run ev : steps (run ++ [ev]) = steps run + if counted ev then 1 else 0.
Proof. unfold steps. rewrite filter_app, app_length. cbn [filter]. destruct (counted ev); reflexivity. Qed.

Lemma run_work rg mt0 l gens pre w r run : fresh_project mt0 l -> forall h p, Forall undisturbed_run run ->
  phistory rg l gens (pre ++ PRun w r :: run) h p ->
  exists x, p_run p = Some (w, r, x) /\ steps run + todo (p_targets p) <= length (x_log x) + work_of (p_built p).
Proof.
  intros F. induction run as [|ev run IH] using rev_ind; intros h p U H.
  - apply phistory_snoc_inv in H as (h1 & p1 & H & _ & S & _). pose proof (phistory_PInv _ _ _ _ _ _ _ F H) as P.
    unfold pstep in S. cbn [process] in S. destruct (p_run p1) eqn:Er; [discriminate|].
    destruct (deliver p1 (PRun w r) (p_targets p1)) as [ts|] eqn:D; [|discriminate]. injection S as <-. cbn [p_run p_targets p_built].
    eexists. split; [reflexivity|]. cbn [x_log x_init length steps filter].
    assert (E : ts = p_targets p1).
    { revert ts D. generalize (p_targets p1) at 1 2. intros tl. induction tl as [|[i [e st]] tl IH]; intros ts D; cbn [deliver delivered exec] in D; [congruence|].
      destruct (deliver _ _ tl) as [t1|]; [|discriminate]. rewrite (IH t1 eq_refl) in D. congruence. }
    subst ts. pose proof (todo_start _ _ _ _ P Er). unfold steps. cbn. lia.
  - rewrite snoc_run in H. apply phistory_snoc_inv in H as (h1 & p1 & H & _ & S & _). apply Forall_app in U as [U1 U2]. apply Forall_inv in U2.
    destruct (IH h1 p1 U1 H) as (x & Er & B). pose proof (phistory_PInv _ _ _ _ _ _ _ F H) as P.
    destruct (pstep_run _ _ _ U2 S) as [Eb Rn]. destruct (Rn _ _ _ Er) as (x' & Er'). exists x'. split; [exact Er'|]. rewrite Eb, steps_snoc.
    unfold pstep in S. destruct (process p1 ev) as [[[b rn] ok]|] eqn:E; [|discriminate].
    destruct (deliver p1 ev (p_targets p1)) as [ts|] eqn:D; [|discriminate]. injection S as <-. cbn [p_run p_targets p_built] in *. subst rn.
    pose proof (todo_delivered _ _ _ _ _ U2 (pi_ids _ _ _ _ P) E _ _ (incl_refl _) D) as T.
    destruct ev as [f t|i|i c ord|w' r'|i|i ev t|i f t|i|i okk|lst]; try destruct U2; cbn [process counted] in *; rewrite Er in E.
    + destruct (xstep _ _ _ _ _) as [x1|] eqn:X; [|discriminate]. injection E as <- <- <-.
      cbn [xstep] in X. destruct (_ && _); [|discriminate]. injection X as <-. cbn [x_log]. rewrite app_length. cbn [length]. lia.
    + destruct (assoc i (p_targets p1)) as [[ei sti]|] eqn:Ei; [|discriminate].
      destruct (assoc i (p_built p1)) as [ci|]; [|discriminate]. destruct (_ && _); [|discriminate]. destruct (step _ _ _); [|discriminate].
      injection E as <- <- <-. assert (M : mem_str i (map fst (p_targets p1)) = true).
      { apply mem_str_In. apply (in_map fst _ _ (assoc_In _ _ _ Ei)). }
      rewrite M in T. lia.
    + destruct (assoc i (p_gens p1)); [|discriminate]. destruct (_ && _); [|discriminate]. injection E as <- <- <-. lia.
    + destruct (assoc i (p_targets p1)); [discriminate|]. destruct (assoc i (p_gens p1)); [|discriminate]. destruct (mem_str _ _); [|discriminate].
      injection E as <- <- <-. lia.
    + destruct (xstep _ _ _ _ _) as [x1|] eqn:X; [|discriminate].
      assert (Ex : x1 = x').
      { destruct (assoc i (p_targets p1)) as [[e st]|]; [destruct (assoc i (p_built p1)); [destruct (_ && _)|destruct okk]|destruct (implb _ _)];
        try discriminate; injection E as _ E _; exact E. }
      subst x1. cbn [xstep] in X. destruct (mem_str _ _); [|discriminate]. injection X as <-. cbn [x_log]. rewrite app_length. cbn [length]. lia.
Qed.

Theorem whole_run_bounded rg mt0 l gens pre w r run h p :
  fresh_project mt0 l -> phistory rg l gens (pre ++ PRun w r :: run) h p -> Forall undisturbed_run run ->
  length (filter counted run) <= 2 * length (rg_built r) + work_of (p_built p).
Proof.
  intros F H U. destruct (run_work _ _ _ _ _ _ _ _ F _ _ U H) as (x & Er & B).
  pose proof (phistory_logged _ _ _ _ _ _ H) as L. unfold logged in L. specialize (L _ _ _ Er).
  pose proof (execution_bounded _ _ _ _ _ L) as K. unfold steps in B. lia.
Qed.

(** ** Smooth runs succeed *)

Lemma goes_well_undisturbed p ev : goes_well p ev -> undisturbed_run ev.
Proof. destruct ev; cbn; tauto. Qed.
Lemma smoothly_snoc rg l gens before run ev : smoothly rg l gens before (run ++ [ev]) -> smoothly rg l gens before run.
Proof. intros S a x b h p E H. apply (S a x (b ++ [ev]) h p); [rewrite E, <- app_assoc; reflexivity|exact H]. Qed.
Lemma files_snoc rg l gens r before run ev : files_there rg l gens r before (run ++ [ev]) -> files_there rg l gens r before run.
Proof. intros S a x b h p E H. apply (S a x (b ++ [ev]) h p); [rewrite E, <- app_assoc; reflexivity|exact H]. Qed.

(** What a running builder writes is not tracked by targets that have started. *)
Lemma write_elsewhere rg p h ed w r x b f id e st c :
  PInv rg p h ed -> p_run p = Some (w, r, x) -> In b (x_running x) -> writes p b f ->
  In (id, (e, st)) (p_targets p) -> In (id, c) (p_built p) -> In id (starts (x_log x)) -> ~ In f (tracked c).
Proof.
  intros P Er Ru W Hi Hb K M. destruct (pi_run _ _ _ _ P w r x Er) as [X Wi].
  assert (Ir : In id (rg_built r)) by (exact (xi_built _ _ _ _ X _ K)).
  assert (Br : In b (rg_built r)) by (apply (xi_built _ _ _ _ X); exact (running_started _ _ _ _ _ X Ru)).
  exact (running_not_finished _ _ _ _ _ X Ru (started_deps _ _ _ _ _ _ X K (Wi b id f c Br W Ir Hb M))).
Qed.

(** The output of a target that is done exists. *)
Lemma output_there rg mt0 l gens pre w r run h p x j e st c i ei sti :
  fresh_project mt0 l -> phistory rg l gens (pre ++ PRun w r :: run) h p -> Forall undisturbed_run run ->
  p_run p = Some (w, r, x) -> p_ok p = true ->
  In (j, (e, st)) (p_targets p) -> In (j, c) (p_built p) -> In j (finishes (x_log x)) ->
  In (i, (ei, sti)) (p_targets p) -> d_mt (s_disk sti) (out_file e) <> None.
Proof.
  intros F H U Er Ok Hj Hb Hf Hi.
  destruct (finished_current _ _ _ _ _ _ _ _ _ _ _ _ _ _ _ F H U Er Ok Hj Hb Hf) as (_ & _ & k & ord & T & _).
  destruct (phistory_GInv _ _ _ _ _ _ _ F H) as [_ (mt & V & G1 & _)].
  destruct (G1 _ _ _ Hj) as (_ & V0 & V1). rewrite (proj1 (G1 _ _ _ Hi)). intros N. rewrite N in V1. congruence.
Qed.

Theorem smooth_run_succeeds rg mt0 l gens pre w r run : fresh_project mt0 l -> forall h p,
  phistory rg l gens (pre ++ PRun w r :: run) h p ->
  smoothly rg l gens (pre ++ [PRun w r]) run -> files_there rg l gens r (pre ++ [PRun w r]) run ->
  (forall id e st c, In (id, (e, st)) (p_targets p) -> In (id, c) (p_built p) -> In id (rg_built r) -> usable e c) ->
  Forall undisturbed_run run /\ p_ok p = true /\
  forall x id e st c f, p_run p = Some (w, r, x) -> In (id, (e, st)) (p_targets p) -> In (id, c) (p_built p) ->
    In id (starts (x_log x)) -> In f (tracked c) -> d_mt (s_disk st) f <> None.
Proof.
  intros F. induction run as [|ev run IH] using rev_ind; intros h p H Sm Fi Us.
  - split; [constructor|]. apply phistory_snoc_inv in H as (h1 & p1 & H & _ & S & _).
    pose proof (phistory_PInv _ _ _ _ _ _ _ F H) as P. unfold pstep in S. cbn [process] in S.
    destruct (p_run p1) eqn:Er; [discriminate|]. destruct (deliver _ _ _) as [ts|]; [|discriminate]. injection S as <-.
    cbn [p_ok p_run]. split; [exact (pi_none _ _ _ _ P Er)|]. intros x id e st c f [= <-] _ _ [].
  - rewrite snoc_run in H. apply phistory_snoc_inv in H as (h1 & p1 & H & Ad & S & _).
    pose proof (Sm run ev [] h1 p1 eq_refl) as Gw. rewrite <- app_assoc in Gw. specialize (Gw H).
    pose proof (goes_well_undisturbed _ _ Gw) as Ue. pose proof (phistory_PInv _ _ _ _ _ _ _ F H) as P.
    destruct (pstep_run _ _ _ Ue S) as [Eb Rn].
    unfold pstep in S. destruct (process p1 ev) as [[[b rn] ok]|] eqn:E; [|discriminate].
    destruct (deliver p1 ev (p_targets p1)) as [ts|] eqn:D; [|discriminate]. injection S as <-. cbn [p_run p_ok p_targets p_built] in *. subst b.
    destruct (IH h1 p1 H (smoothly_snoc _ _ _ _ _ _ Sm) (files_snoc _ _ _ _ _ _ _ Fi)) as (U1 & Ok & Fe).
    { intros id e st c Hi Hb Hr. destruct (deliver_In' _ _ _ _ _ _ _ D Hi) as (st' & Hi' & _). exact (Us id e st' c Hi' Hb Hr). }
    destruct (run_in_progress _ _ _ _ _ _ _ _ _ U1 H) as (x & Er). destruct (Rn _ _ _ Er) as (x' & Er'). subst rn.
    split; [apply Forall_app; split; [exact U1|constructor; [exact Ue|constructor]]|].
    assert (Keep : forall i e st' c f, In (i, (e, st')) ts -> In (i, c) (p_built p1) -> In i (starts (x_log x)) -> In f (tracked c) ->
       d_mt (s_disk st') f <> None).
    { intros i e st' c f Hi' Hb Hs Hf. destruct (deliver_In _ _ _ _ _ _ _ D Hi') as (st & Hi & X).
      destruct (delivered_effect _ _ _ _ _ _ _ _ _ (h1 i) (pi_ids _ _ _ _ P) E Hi X) as (M & _). rewrite M.
      pose proof (Fe x i e st c f Er Hi Hb Hs Hf) as Old. unfold change.
      destruct ev as [g t|j|j cc ord|w' r'|j|j ev t|j g t|j|j okk|lst]; try destruct Ue; cbn [changed]; try exact Old.
      - cbn [process] in E. rewrite Er in E. destruct (assoc j (p_targets p1)) as [[ej sj]|] eqn:Ej; [|discriminate].
        destruct (assoc j (p_built p1)) as [cj|] eqn:Ebj; [|discriminate]. destruct (mem_str j (x_running x) && in_taskflow ev && _) eqn:Co; [|discriminate].
        apply andb_true_iff in Co as [Co _]. apply andb_true_iff in Co as [Cr _]. apply mem_str_In in Cr.
        destruct t as [t'|]; cbn [changed]; [|exact Old]. unfold upd. destruct (String.eqb_spec f (out_file ej)) as [->|]; [|exact Old].
        exfalso. refine (write_elsewhere _ _ _ _ _ _ _ _ _ _ _ _ _ P Er Cr _ Hi Hb Hs Hf).
        left. exists ej, sj. split; [exact (assoc_In _ _ _ Ej)|reflexivity].
      - cbn [process] in E. rewrite Er in E. destruct (assoc j (p_gens p1)) as [fs|] eqn:Ej; [|discriminate].
        destruct (mem_str j (x_running x) && mem_str g fs) eqn:Co; [|discriminate]. apply andb_true_iff in Co as [Cr Cg].
        apply mem_str_In in Cr, Cg. unfold upd. destruct (String.eqb_spec f g) as [->|]; [|exact Old].
        exfalso. refine (write_elsewhere _ _ _ _ _ _ _ _ _ _ _ _ _ P Er Cr _ Hi Hb Hs Hf).
        right. exists fs. split; [exact (assoc_In _ _ _ Ej)|exact Cg]. }
    assert (Same : starts (x_log x') = starts (x_log x) -> forall y i e st c f, Some (w, r, x') = Some (w, r, y) ->
       In (i, (e, st)) ts -> In (i, c) (p_built p1) -> In i (starts (x_log y)) -> In f (tracked c) -> d_mt (s_disk st) f <> None).
    { intros Es y i e st c f [= <-] Hi Hb Hs Hf. rewrite Es in Hs. exact (Keep i e st c f Hi Hb Hs Hf). }
    destruct ev as [g t|j|j cc ord|w' r'|j|j ev t|j g t|j|j okk|lst]; try destruct Ue; cbn [goes_well] in Gw.
    + (* PBegin *)
      cbn [process] in E. rewrite Er in E. destruct (xstep _ _ _ _ _) as [x1|] eqn:Xs; [|discriminate]. injection E as -> <-.
      split; [exact Ok|]. intros y i e st c f [= <-] Hi' Hb Hs Hf.
      pose proof Xs as Xs'. cbn [xstep] in Xs. destruct (_ && _); [|discriminate]. injection Xs as <-. cbn [x_log] in Hs. rewrite starts_app in Hs.
      apply in_app_iff in Hs as [Hs|[<-|[]]]; [exact (Keep i e st c f Hi' Hb Hs Hf)|].
      destruct (deliver_In _ _ _ _ _ _ _ D Hi') as (st0 & Hi & X). cbn [delivered exec] in X. injection X as <-.
      pose proof (Fi run j [] h1 p1 eq_refl) as Fj. rewrite <- app_assoc in Fj.
      destruct (Fj H e st0 c f Hi Hb Hf) as [K|(k & ek & sk & ck & Hk & Hbk & Hrk & ->)]; [exact K|].
      destruct (pi_run _ _ _ _ P _ _ _ Er) as [XI Wi].
      pose proof (XInv_step _ _ _ _ _ _ XI Xs') as XI'.
      assert (Sj : In j (starts (x_log x ++ [XStart j]))) by (rewrite starts_app; apply in_app_iff; right; left; reflexivity).
      assert (Kf : In k (finishes (x_log x ++ [XStart j]))).
      { apply (started_deps _ _ _ _ _ _ XI' Sj).
        refine (Wi k j (out_file ek) c Hrk _ (xi_built _ _ _ _ XI' _ Sj) Hb Hf). left. exists ek, sk. auto. }
      rewrite finishes_app in Kf. cbn [finishes flat_map app] in Kf. rewrite app_nil_r in Kf.
      exact (output_there _ _ _ _ _ _ _ _ _ _ _ _ _ _ _ _ _ _ F H U1 Er Ok Hk Hbk Kf Hi).
    + (* PStep *)
      cbn [process] in E. rewrite Er in E. destruct (assoc j (p_targets p1)) as [[ej sj]|] eqn:Ej; [|discriminate].
      destruct (assoc j (p_built p1)) as [cj|] eqn:Ebj; [|discriminate]. destruct (mem_str j (x_running x) && in_taskflow ev && _) eqn:Co; [|discriminate].
      apply andb_true_iff in Co as [Co _]. apply andb_true_iff in Co as [Cr Cf]. apply mem_str_In in Cr.
      destruct (step ej sj ev) as [sj'|] eqn:Sj; [|discriminate]. injection E as E1 <-.
      split; [|apply Same; rewrite E1; reflexivity]. rewrite Ok. cbn [andb].
      pose proof (assoc_In _ _ _ Ej) as Hj. pose proof (assoc_In _ _ _ Ebj) as Hb. pose proof (pi_tgt _ _ _ _ P _ _ _ Hj) as T.
      destruct (ti_hist _ _ _ _ _ _ _ _ _ T) as (d0 & evs & Hh). pose proof (ti_cfg _ _ _ _ _ _ _ _ _ T _ Ebj) as Ec.
      destruct (pi_run _ _ _ _ P _ _ _ Er) as [XI _]. pose proof (running_started _ _ _ _ _ XI Cr) as St.
      destruct (deliver_In' _ _ _ _ _ _ _ D Hj) as (st' & Hj' & _).
      destruct (Us j ej st' cj Hj' Hb (xi_built _ _ _ _ XI _ St)) as [U2 U3]. rewrite <- Ec in U2, U3.
      apply (good_step_ok rg ej d0 evs (h1 j) sj ev sj' (ti_temp _ _ _ _ _ _ _ _ _ T) Hh Sj Gw); try assumption.
      * exact (ti_ok _ _ _ _ _ _ _ _ _ T _ _ _ _ Ebj Er Ok).
      * intros f Hf. rewrite Ec in Hf. exact (Fe x j ej sj cj f Er Hj Hb St Hf).
    + (* PWrite *)
      cbn [process] in E. rewrite Er in E. destruct (assoc j (p_gens p1)); [|discriminate]. destruct (_ && _); [|discriminate].
      injection E as E1 <-. split; [exact Ok|]. apply Same. rewrite E1. reflexivity.
    + destruct Gw.
    + (* PEnd *)
      cbn [process] in E. rewrite Er in E. destruct Gw as [->|Gw]; [|congruence].
      destruct (xstep _ _ _ _ _) as [x1|] eqn:Xs; [|discriminate].
      assert (K : ok = p_ok p1 /\ x1 = x').
      { destruct (assoc j (p_targets p1)) as [[e st]|]; [destruct (assoc j (p_built p1)); [destruct (_ && _)|]|destruct (implb _ _)];
        try discriminate; injection E as E1 E2; rewrite ?andb_true_r in E2; auto. }
      destruct K as [-> ->]. split; [exact Ok|]. apply Same.
      cbn [xstep] in Xs. destruct (mem_str _ _); [|discriminate]. injection Xs as <-. cbn [x_log]. rewrite starts_app. cbn. rewrite app_nil_r. reflexivity.
Qed.

(** ** Never stuck *)

Lemma deliver_all p ev (l : list (string * (tenv * tstate))) :
  (forall id e st, In (id, (e, st)) l -> exists st', exec e st (delivered p ev id st) = Some st') -> exists l', deliver p ev l = Some l'.
Proof.
  induction l as [|[id [e st]] l IH]; intros H; [eexists; reflexivity|]. cbn [deliver].
  destruct (H id e st (or_introl eq_refl)) as (st' & ->). destruct IH as (l' & ->); [|eexists; reflexivity].
  intros i ei si Hi. exact (H i ei si (or_intror Hi)).
Qed.
Lemma fail_others_possible e st0 b st : exists st', exec e st0 (fail_others b st) = Some st'.
Proof. unfold fail_others. destruct (_ && _); eexists; reflexivity. Qed.
Lemma upper_bound (h : phist) (f : string) (ids : list string) : exists v, forall i, In i ids -> (h_next (h i) f <= v)%N.
Proof.
  induction ids as [|i ids (v & IH)]; [exists 0%N; intros i []|]. exists (N.max v (h_next (h i) f)).
  intros j [->|Hj]; [lia|]. specialize (IH j Hj). lia.
Qed.
Lemma pstep_some p ev built run ok ts : process p ev = Some (built, run, ok) -> deliver p ev (p_targets p) = Some ts -> exists p', pstep p ev = Some p'.
Proof. intros A B. unfold pstep. rewrite A, B. eexists. reflexivity. Qed.

Lemma good_link_false e st st' : step e st (EvLinkExec XOk) = Some st' -> links e st (EvLinkExec XOk) = false -> d_tgt (s_disk st') = d_tgt (s_disk st).
Proof.
  cbn [step]. destruct (s_pc st); try discriminate. unfold link_exec, links, link_runs, run_res.
  destruct (link_command _ _ _) as [cmd| |]; try discriminate. intros [= <-] L. apply negb_false_iff in L. rewrite L. reflexivity.
Qed.

Lemma good_taskflow ev : good ev -> in_taskflow ev = true.
Proof. destruct ev; cbn; intros G; try destruct G; reflexivity. Qed.

(** A running builder can go on; an output it writes can be given any late time. *)
Lemma running_step rg mt0 l gens evs h p w r x i v0 :
  fresh_project mt0 l -> phistory rg l gens evs h p -> p_run p = Some (w, r, x) -> In i (x_running x) ->
  exists ev p', ((exists y t, ev = PStep i y t /\ (t = None \/ exists v, t = Some (Some v) /\ (v0 <= v)%N)) \/ exists ok, ev = PEnd i ok /\ (p_ok p = true -> ok = true)) /\
    goes_well p ev /\ counted ev = true /\
    (rg = Forward \/ (forall id c, In (id, c) (p_built p) -> Forall valid_utf8 (target_strings (user_of c))) -> padmissible rg p h ev) /\
    pstep p ev = Some p'.
Proof.
  intros F H Er Ri. pose proof (phistory_PInv _ _ _ _ _ _ _ F H) as P.
  assert (Fin : forall i ok, In i (x_running x) -> exists x', xstep w (rg_built r) (rg_edges r) x (XFinish i ok) = Some x').
  { intros j ok Hi. cbn [xstep]. apply mem_str_In in Hi. rewrite Hi. eexists. reflexivity. }
  destruct (assoc i (p_targets p)) as [[e st]|] eqn:Ei.
  + pose proof (assoc_In _ _ _ Ei) as Hi. pose proof (pi_tgt _ _ _ _ P _ _ _ Hi) as T.
    assert (Dn : forall ok, exists ts, deliver p (PEnd i ok) (p_targets p) = Some ts).
    { intros ok. apply deliver_all. intros j ej sj _. cbn [delivered]. rewrite Ei. eexists. reflexivity. }
    destruct (assoc i (p_built p)) as [c|] eqn:Eb.
    * destruct (running st) eqn:Rs.
      -- assert (Pc : s_pc st <> Idle) by (unfold running in Rs; destruct (s_pc st); discriminate).
         destruct (ti_hist _ _ _ _ _ _ _ _ _ T) as (d0 & evs0 & Hh).
         destruct (never_stuck rg e d0 evs0 (h i) st (ti_temp _ _ _ _ _ _ _ _ _ T) Hh Pc) as (ev & st' & G & Sp).
         destruct (upper_bound h (out_file e) (map fst (p_targets p))) as (v & Hv).
         set (t := if links e st ev then Some (Some (N.max v v0)) else None).
         assert (Ct : match t with Some _ => link_runs e st ev | None => true end = true).
         { unfold t. destruct (links e st ev) eqn:L; [|reflexivity]. unfold links in L. destruct ev; try discriminate. destruct r0; try discriminate. exact L. }
         destruct (deliver_all p (PStep i ev t) (p_targets p)) as (ts & D).
         { intros j ej sj Hj. cbn [delivered]. rewrite Ei, Sp. destruct (String.eqb_spec i j) as [->|N].
           - rewrite (assoc_NoDup_In _ _ _ (pi_ids _ _ _ _ P) Hj) in Ei. injection Ei as -> ->. rewrite app_nil_r. cbn [app exec]. rewrite Sp.
             destruct t; eexists; reflexivity.
           - cbn [app]. destruct t as [t'|]; cbn [app exec step]; apply fail_others_possible. }
         destruct (pstep_some p (PStep i ev t) (p_built p) (p_run p) (p_ok p && s_ok st') ts) as (p' & S); [|exact D|].
         { cbn [process]. rewrite Er, Ei, Eb. apply mem_str_In in Ri. rewrite Ri, (good_taskflow _ G), Ct, Sp. reflexivity. }
         exists (PStep i ev t), p'. split; [left; exists ev, t; split; [reflexivity|]; unfold t; destruct (links e st ev); [right; eexists; split; [reflexivity|lia]|left; reflexivity]|].
         split; [exact G|]. split; [reflexivity|]. split; [intros V|exact S].
         intros e1 st1 st1' Hi1 S1. rewrite (assoc_NoDup_In _ _ _ (pi_ids _ _ _ _ P) Hi1) in Ei. injection Ei as -> ->.
         rewrite Sp in S1. injection S1 as <-. split.
         ++ destruct ev; try destruct G; try exact Logic.I. cbn [admissible]. destruct w0; try destruct G.
            destruct V as [V|V]; [left; exact V|right]. destruct (s_dirty st) eqn:Dy; [right|left; reflexivity]. unfold writes_store.
            destruct (storable rg e d0 evs0 (h i) st (ti_temp _ _ _ _ _ _ _ _ _ T) Hh Pc) as (txt & ->).
            { rewrite (ti_cfg _ _ _ _ _ _ _ _ _ T _ Eb). apply (V i c). exact (assoc_In _ _ _ Eb). }
            rewrite Dy. reflexivity.
         ++ unfold t. destruct (links e st ev) eqn:L.
            ** intros v1 j [= <-] Hj. specialize (Hv j Hj). lia.
            ** split; [reflexivity|]. destruct (touches_tgt ev) eqn:Tt; [|exact (proj1 (step_tgt _ _ _ _ Sp Tt))].
               destruct ev; try discriminate; try destruct G. destruct r0; try destruct G. exact (good_link_false _ _ _ Sp L).
      -- destruct (Fin i (s_ok st) Ri) as (x' & Xs). destruct (Dn (s_ok st)) as (ts & D).
         destruct (pstep_some p (PEnd i (s_ok st)) (p_built p) (Some (w, r, x')) (p_ok p) ts) as (p' & S); [|exact D|].
         { cbn [process]. rewrite Er, Xs, Ei, Eb, Rs, Bool.eqb_reflx. reflexivity. }
         assert (Ko : p_ok p = true -> s_ok st = true) by (exact (ti_ok _ _ _ _ _ _ _ _ _ T _ _ _ _ Eb Er)).
         exists (PEnd i (s_ok st)), p'. split; [right; eauto|]. repeat split; [|exact S]. cbn [goes_well]. destruct (p_ok p) eqn:Ok; [left|right; reflexivity].
         exact (ti_ok _ _ _ _ _ _ _ _ _ T _ _ _ _ Eb Er eq_refl).
    * destruct (Fin i true Ri) as (x' & Xs). destruct (Dn true) as (ts & D).
      destruct (pstep_some p (PEnd i true) (p_built p) (Some (w, r, x')) (p_ok p) ts) as (p' & S); [|exact D|].
      { cbn [process]. rewrite Er, Xs, Ei, Eb. reflexivity. }
      exists (PEnd i true), p'. split; [right; eauto|]. repeat split; [|exact S]. left. reflexivity.
  + destruct (Fin i (p_ok p) Ri) as (x' & Xs).
    destruct (deliver_all p (PEnd i (p_ok p)) (p_targets p)) as (ts & D).
    { intros j ej sj _. cbn [delivered]. rewrite Ei. apply fail_others_possible. }
    destruct (pstep_some p (PEnd i (p_ok p)) (p_built p) (Some (w, r, x')) (p_ok p && p_ok p) ts) as (p' & S); [|exact D|].
    { cbn [process]. rewrite Er, Xs, Ei. destruct (p_ok p); reflexivity. }
    exists (PEnd i (p_ok p)), p'. split; [right; eauto|]. repeat split; [|exact S]. cbn [goes_well]. destruct (p_ok p); [left|right]; reflexivity.
Qed.

Theorem always_a_step rg mt0 l gens evs h p w r x :
  fresh_project mt0 l -> phistory rg l gens evs h p -> p_run p = Some (w, r, x) ->
  rg = Forward \/ (forall id c, In (id, c) (p_built p) -> Forall valid_utf8 (target_strings (user_of c))) ->
  ~ x_over w (rg_built r) (rg_edges r) x ->
  exists ev p', goes_well p ev /\ counted ev = true /\ padmissible rg p h ev /\ pstep p ev = Some p'.
Proof.
  intros F H Er V Ov. pose proof (phistory_PInv _ _ _ _ _ _ _ F H) as P.
  destruct (x_running x) as [|i run] eqn:Ex.
  - destruct (over_dec w (rg_built r) (rg_edges r) x) as [K|([i|i ok] & x' & Xs)]; [contradiction| |].
    + exists (PBegin i). destruct (deliver_all p (PBegin i) (p_targets p)) as (ts & D); [intros; eexists; reflexivity|].
      destruct (pstep_some p (PBegin i) (p_built p) (Some (w, r, x')) (p_ok p) ts) as (p' & S); [cbn [process]; rewrite Er, Xs; reflexivity|exact D|].
      exists p'. repeat split. exact S.
    + cbn [xstep] in Xs. rewrite Ex in Xs. discriminate.
  - destruct (running_step _ _ _ _ _ _ _ _ _ _ i 0%N F H Er) as (ev & p' & _ & A & B & C & D); [rewrite Ex; left; reflexivity|].
    exists ev, p'. auto.
Qed.

(** ** Every run can be completed *)

Lemma phistory_deterministic rg l gens evs : forall h p h' p', phistory rg l gens evs h p -> phistory rg l gens evs h' p' -> h = h' /\ p = p'.
Proof.
  induction evs as [|ev evs IH] using rev_ind; intros h p h' p' A B.
  - inversion A as [|? ? ? ? ? ? ? ? E]; [|destruct evs; discriminate]. inversion B as [|? ? ? ? ? ? ? ? E2]; [|destruct evs; discriminate]. auto.
  - apply phistory_snoc_inv in A as (h1 & p1 & A & _ & SA & ->). apply phistory_snoc_inv in B as (h2 & p2 & B & _ & SB & ->).
    destruct (IH _ _ _ _ A B) as [-> ->]. rewrite SA in SB. injection SB as ->. auto.
Qed.

Theorem run_completes rg mt0 l gens pre w r run h p :
  fresh_project mt0 l -> phistory rg l gens (pre ++ PRun w r :: run) h p -> Forall undisturbed_run run ->
  rg = Forward \/ (forall id c, In (id, c) (p_built p) -> Forall valid_utf8 (target_strings (user_of c))) ->
  exists more h' p' x', phistory rg l gens (pre ++ PRun w r :: run ++ more) h' p' /\
    smoothly rg l gens (pre ++ PRun w r :: run) more /\
    p_run p' = Some (w, r, x') /\ x_over w (rg_built r) (rg_edges r) x'.
Proof.
  intros F. remember (2 * length (rg_built r) + work_of (p_built p) - length (filter counted run)) as k eqn:Ek.
  revert run h p Ek. induction k as [k IH] using lt_wf_ind. intros run h p Ek H U V.
  destruct (run_in_progress _ _ _ _ _ _ _ _ _ U H) as (x & Er).
  destruct (over_dec w (rg_built r) (rg_edges r) x) as [Ov|(xe & xs & Xs)].
  - exists [], h, p, x. rewrite app_nil_r. split; [exact H|]. split; [|auto]. intros a ev b h1 p1 E. destruct a; discriminate.
  - destruct (always_a_step _ _ _ _ _ _ _ _ _ _ F H Er V) as (ev & p1 & G & C & A & S).
    { intros Ov. rewrite (Ov xe) in Xs. discriminate. }
    pose proof (phistory_snoc _ _ _ _ _ _ _ _ H A S) as H1. rewrite <- snoc_run in H1.
    assert (U1 : Forall undisturbed_run (run ++ [ev])) by (apply Forall_app; split; [exact U|constructor; [exact (goes_well_undisturbed _ _ G)|constructor]]).
    destruct (pstep_run _ _ _ (goes_well_undisturbed _ _ G) S) as [Eb _].
    pose proof (whole_run_bounded _ _ _ _ _ _ _ _ _ _ F H1 U1) as B. rewrite Eb in B.
    assert (Len : length (filter counted (run ++ [ev])) = length (filter counted run) + 1).
    { rewrite filter_app, app_length. cbn [filter]. rewrite C. reflexivity. }
    destruct (IH (2 * length (rg_built r) + work_of (p_built p1) - length (filter counted (run ++ [ev])))) with (run := run ++ [ev]) (h := ptrack p h ev) (p := p1)
      as (more & h' & p' & x' & K1 & K2 & K3 & K4); try assumption; try reflexivity.
    + rewrite Eb. lia.
    + rewrite Eb. exact V.
    + exists (ev :: more), h', p', x'. rewrite <- app_assoc in K1. cbn [app] in K1. split; [exact K1|]. split; [|auto].
      intros a ev1 b h1 p2 E H2. destruct a as [|a0 a]; cbn [app] in E; injection E as -> E.
      * rewrite app_nil_r in H2. destruct (phistory_deterministic _ _ _ _ _ _ _ _ H H2) as [_ <-]. exact G.
      * apply (K2 a ev1 b h1 p2 E). rewrite snoc_run, <- app_assoc. exact H2.
Qed.
