(** The compilation database over several runs: every history. *)
From Verif Require Import Prelude Proof_Prelude Model_Path Model_Json Model_Schema Spec_Json Proof_Dec
  Proof_Schema Model_Command Spec_Command Proof_Command Model_ToolchainConfig Model_Target Spec_Target
  Proof_TargetBase Proof_TargetInv Proof_TargetRun Proof_TargetStep Proof_TargetMain Proof_TargetDup
  Model_Reg Spec_Reg Model_Project Proof_Project Proof_Project3 Model_CompileCommands Model_Database Spec_Database
  Proof_Database Proof_Database2.

Definition commands_ok (e : tenv) (c : cfg) : Prop := forall s, In s (sources c) -> exists t, compile_command e c s = FOk t.

Record WI (added used : list string) (w : wstate) : Prop := {
  wi_nd : NoDup (map fst (p_targets (w_p w)));
  wi_add : forall i, In i added -> In i (map fst (p_targets (w_p w)));
  wi_t : forall id e st, In (id, (e, st)) (p_targets (w_p w)) ->
    TW (assoc id (p_built (w_p w))) (p_ok (w_p w)) (In id (w_built w)) (In id used) st;
  wi_cmd : forall id e st c, In (id, (e, st)) (p_targets (w_p w)) -> assoc id (p_built (w_p w)) = Some c -> commands_ok e c;
  wi_fin : forall k r x id e st, p_run (w_p w) = Some (k, r, x) -> In id (finishes (x_log x)) ->
    In (id, (e, st)) (p_targets (w_p w)) -> s_pc st = Idle }.

(** The file speaks of targets whose state files, if they tell of a finished build, tell of the same one. *)
Definition DBok (build : string) (added : list string) (w : wstate) : Prop :=
  exists ts, w_db w = Some (cc_text build ts) /\
    Forall2 (fun id t => exists e st c, In (id, (e, st)) (p_targets (w_p w)) /\
      (forall s, In s (cc_sources t) <-> In s (sources c)) /\
      (forall s, In s (sources c) -> compile_command e c s = FOk (cc_command t s)) /\
      (forall l, stored (s_disk st) = Some l -> ts_target_linked l = true -> Full l c)) added ts.

Definition pending_work (added : list string) (w : wstate) : Prop :=
  (exists id, In id added /\ In id (w_built w)) \/
  (exists id e st, In id added /\ In (id, (e, st)) (p_targets (w_p w)) /\ unfinished st).

Definition J (build : string) (added : list string) (w : wstate) : Prop :=
  match w_stage w with
  | WDone => DBok build added w /\ database_current build added (w_p w) (w_db w) /\ p_built (w_p w) <> []
  | _ => DBok build added w \/ pending_work added w
  end.

Lemma built_mono p wb ev id : (forall l, ev <> PStop l) -> In id wb -> In id (built_after p wb ev).
Proof.
  intros N H. destruct ev; cbn [built_after]; try exact H; [|destruct (N _ eq_refl)].
  destruct ev; try exact H. destruct (assoc id0 (p_targets p)) as [[e st]|]; [|exact H]. destruct (completes st w); [right|]; exact H.
Qed.

Lemma idle_kept e st evs st' : s_pc st = Idle -> exec e st evs = Some st' ->
  (forall x, In x evs -> (exists f t, x = EvEdit f t) \/ x = EvDropStore) -> s_pc st' = Idle.
Proof.
  revert st. induction evs as [|x evs IH]; intros st P X A; cbn [exec] in X; [injection X as <-; exact P|].
  destruct (step e st x) as [s1|] eqn:S; [|discriminate]. apply (IH s1); [|exact X|intros y Hy; apply A; right; exact Hy].
  destruct (A x (or_introl eq_refl)) as [(f & t & ->)| ->]; cbn [step] in S; injection S as <-; exact P.
Qed.
Lemma idle_no_fail b st : s_pc st = Idle -> fail_others b st = [].
Proof. intros P. unfold fail_others, running. rewrite P, andb_false_r. reflexivity. Qed.

Lemma finishes_app a b : finishes (a ++ b) = finishes a ++ finishes b.
Proof. unfold finishes. apply flat_map_app. Qed.

(** A target at rest rests until Build() is called or the process is over. *)
Lemma idle_event p ev built run ok id e st st' : NoDup (map fst (p_targets p)) ->
  process p ev = Some (built, run, ok) -> run <> None -> In (id, (e, st)) (p_targets p) ->
  exec e st (delivered p ev id st) = Some st' -> s_pc st = Idle -> s_pc st' = Idle.
Proof.
  intros ND P R Hi X Id. apply (idle_kept e st (delivered p ev id st) st' Id X). clear X.
  destruct ev as [f t|i|i c ord|k r|i|i x t|i f t|i|i okk|l]; cbn [delivered process] in *; intros y Hy.
  - destruct Hy as [<-|[]]. left. eauto.
  - destruct (String.eqb i id); [|destruct Hy]. destruct Hy as [<-|[]]. right. reflexivity.
  - exfalso. destruct (p_run p); [discriminate|]. destruct (assoc i (p_targets p)) as [[? ?]|]; [|discriminate].
    destruct (assoc i (p_built p)); [discriminate|]. destruct (forallb _ _); [|discriminate]. injection P as _ <- _. exact (R eq_refl).
  - destruct Hy.
  - destruct Hy.
  - destruct (assoc i (p_targets p)) as [[e1 s1]|] eqn:Ea; [|destruct Hy]. apply in_app_iff in Hy as [Hy|Hy].
    + exfalso. destruct (String.eqb_spec i id) as [->|]; [|destruct Hy].
      pose proof (assoc_NoDup_In _ _ _ ND Hi) as Ea'. rewrite Ea in Ea'. injection Ea' as -> ->.
      destruct (p_run p) as [[[k r] z]|]; [|discriminate]. destruct (assoc id (p_built p)); [|discriminate].
      destruct (mem_str id (x_running z) && in_taskflow x && _) eqn:Ec; [|discriminate].
      apply andb_true_iff in Ec as [Ec _]. apply andb_true_iff in Ec as [_ Fx].
      destruct (step e st x) as [s2|] eqn:S; [|discriminate]. destruct (taskflow_step _ _ _ _ Fx S) as (_ & _ & K & _). exact (K Id).
    + apply in_app_iff in Hy as [Hy|Hy]; [destruct t; [|destruct Hy]; destruct Hy as [<-|[]]; left; eauto|].
      destruct (String.eqb i id); [destruct Hy|]. rewrite (idle_no_fail _ _ Id) in Hy. destruct Hy.
  - destruct Hy as [<-|[]]. left. eauto.
  - rewrite (idle_no_fail _ _ Id) in Hy. destruct Hy.
  - destruct (assoc i (p_targets p)); [destruct Hy|]. rewrite (idle_no_fail _ _ Id) in Hy. destruct Hy.
  - unfold running in Hy. rewrite Id in Hy. destruct Hy.
Qed.

(** Who has finished after an event. *)
Lemma finished_event p ev built k r x ok id e st : NoDup (map fst (p_targets p)) ->
  (assoc id (p_built p) = None -> s_pc st = Idle) ->
  process p ev = Some (built, Some (k, r, x), ok) -> In id (finishes (x_log x)) -> In (id, (e, st)) (p_targets p) ->
  s_pc st = Idle \/ exists k0 r0 x0, p_run p = Some (k0, r0, x0) /\ In id (finishes (x_log x0)).
Proof.
  intros ND Un P F Hi.
  destruct ev as [f t|i|i c ord|k' r'|i|i y t|i f t|i|i okk|l]; cbn [process] in P.
  - injection P as _ P _. right. eauto.
  - destruct (mem_str i _); [|discriminate]. injection P as _ P _. right. eauto.
  - destruct (p_run p); [discriminate|]. destruct (assoc i (p_targets p)) as [[? ?]|]; [|discriminate].
    destruct (assoc i (p_built p)); [discriminate|]. destruct (forallb _ _); discriminate.
  - destruct (p_run p); [discriminate|]. injection P as _ _ _ <- _. destruct F.
  - destruct (p_run p) as [[[k0 r0] x0]|]; [|discriminate]. cbn [xstep] in P. destruct (_ && _); [|discriminate].
    injection P as _ _ _ <- _. cbn [x_log] in F. rewrite finishes_app in F. apply in_app_iff in F as [F|[]]. right. eauto 6.
  - right. destruct (p_run p) as [[[k0 r0] x0]|]; [|discriminate]. destruct (assoc i (p_targets p)) as [[e1 s1]|]; [|discriminate].
    destruct (assoc i (p_built p)); [|discriminate]. destruct (_ && _); [|discriminate]. destruct (step _ _ _); [|discriminate].
    injection P as _ <- <- <- _. eauto 6.
  - right. destruct (p_run p) as [[[k0 r0] x0]|]; [|discriminate]. destruct (assoc i (p_gens p)); [|discriminate].
    destruct (_ && _); [|discriminate]. injection P as _ <- <- <- _. eauto 6.
  - right. destruct (p_run p) as [[[k0 r0] x0]|]; [|discriminate]. destruct (assoc i (p_targets p)); [discriminate|].
    destruct (assoc i (p_gens p)); [|discriminate]. destruct (mem_str _ _); [|discriminate]. injection P as _ <- <- <- _. eauto 6.
  - destruct (p_run p) as [[[k0 r0] x0]|]; [|discriminate].
    destruct (xstep k0 (rg_built r0) (rg_edges r0) x0 (XFinish i okk)) as [x1|] eqn:Sx; [|discriminate].
    assert (Ex : x = x1).
    { destruct (assoc i (p_targets p)) as [[? ?]|]; [destruct (assoc i (p_built p)); [destruct (_ && _)|destruct okk]|destruct (implb _ _)];
        try discriminate; injection P as _ _ _ <- _; reflexivity. }
    subst x1. cbn [xstep] in Sx. destruct (mem_str i (x_running x0)); [|discriminate]. injection Sx as <-. cbn [x_log] in F.
    rewrite finishes_app in F. apply in_app_iff in F as [F|F]; [right; eauto 6|]. destruct F as [<-|[]]. left.
    rewrite (assoc_NoDup_In _ _ _ ND Hi) in P. destruct (assoc i (p_built p)) eqn:Eb; [|exact (Un eq_refl)].
    destruct (negb (running st) && _) eqn:Er; [|discriminate]. apply andb_true_iff in Er as [Er _]. unfold running in Er.
    destruct (s_pc st); try discriminate. reflexivity.
  - discriminate.
Qed.

(** New in the list of built targets. *)
Lemma built_event p ev built run ok id c : process p ev = Some (built, run, ok) -> assoc id built = Some c ->
  assoc id (p_built p) = Some c \/
  exists ord e st, ev = PBuild id c ord /\ assoc id (p_targets p) = Some (e, st) /\ forallb is_fok (all_commands e c ord) = true.
Proof.
  intros P H. destruct ev as [f t|i|i c0 ord|k' r'|i|i y t|i f t|i|i okk|l]; cbn [process] in P.
  - injection P as <- _ _. auto.
  - destruct (mem_str i _); [|discriminate]. injection P as <- _ _. auto.
  - destruct (p_run p); [discriminate|]. destruct (assoc i (p_targets p)) as [[e1 s1]|] eqn:Ea; [|discriminate].
    destruct (assoc i (p_built p)) eqn:Eb; [discriminate|]. destruct (forallb _ _) eqn:Ef; [|discriminate]. injection P as <- _ _.
    rewrite assoc_app in H. destruct (assoc id (p_built p)) eqn:Ei; [left; exact H|]. cbn [assoc] in H.
    destruct (String.eqb_spec id i) as [->|]; [|discriminate]. injection H as <-. right. eauto 6.
  - destruct (p_run p); [discriminate|]. injection P as <- _ _. auto.
  - destruct (p_run p) as [[[k0 r0] x0]|]; [|discriminate]. destruct (xstep _ _ _ _ _); [|discriminate]. injection P as <- _ _. auto.
  - destruct (p_run p) as [[[k0 r0] x0]|]; [|discriminate]. destruct (assoc i (p_targets p)) as [[e1 s1]|]; [|discriminate].
    destruct (assoc i (p_built p)); [|discriminate]. destruct (_ && _); [|discriminate]. destruct (step _ _ _); [|discriminate]. injection P as <- _ _. auto.
  - destruct (p_run p) as [[[k0 r0] x0]|]; [|discriminate]. destruct (assoc i (p_gens p)); [|discriminate].
    destruct (_ && _); [|discriminate]. injection P as <- _ _. auto.
  - destruct (p_run p) as [[[k0 r0] x0]|]; [|discriminate]. destruct (assoc i (p_targets p)); [discriminate|].
    destruct (assoc i (p_gens p)); [|discriminate]. destruct (mem_str _ _); [|discriminate]. injection P as <- _ _. auto.
  - destruct (p_run p) as [[[k0 r0] x0]|]; [|discriminate]. destruct (xstep _ _ _ _ _); [|discriminate].
    destruct (assoc i (p_targets p)) as [[? ?]|]; [destruct (assoc i (p_built p)); [destruct (_ && _)|destruct okk]|destruct (implb _ _)];
        try discriminate; injection P as <- _ _; auto.
  - injection P as <- _ _. discriminate.
Qed.

Lemma started_commands e st c ord st' : step e st (EvStart c ord) = Some st' -> forallb is_fok (all_commands e c ord) = true -> commands_ok e c.
Proof.
  intros S F s Hs. cbn [step] in S. destruct (s_pc st); try discriminate. unfold start in S.
  destruct (ord_ok ord (sources c)) eqn:Eo; [|discriminate].
  assert (Hi : In s ord). { unfold ord_ok in Eo. repeat (apply andb_true_iff in Eo as [Eo ?]). 
    match goal with H : forallb _ (sources c) = true |- _ => rewrite forallb_forall in H; apply mem_str_In; exact (H s Hs) end. }
  rewrite forallb_forall in F. assert (K : is_fok (compile_command e c s) = true).
  { apply F. unfold all_commands. apply in_app_iff. right. apply in_app_iff. left. exact (in_map (compile_command e c) _ _ Hi). }
  destruct (compile_command e c s) as [t| |]; try discriminate. eauto.
Qed.

(** Where the state files stand while Generate has been called. *)
Lemma still_event p ev id e st st' : after_generate ev = true -> (forall i, ev <> PForget i) ->
  exec e st (delivered p ev id st) = Some st' -> stored (s_disk st') = stored (s_disk st) \/ unfinished st'.
Proof.
  intros A N X. destruct ev; try discriminate.
  - cbn [delivered exec step] in X. injection X as <-. left. reflexivity.
  - destruct (N _ eq_refl).
  - destruct (stop_events p _ _ _ _ _ X) as [_ [K|[K _]]]; auto.
Qed.

Section Steps.
Context (build : string) (added : list string) (Ne : added <> []).

Lemma pstep_parts p ev p' : pstep p ev = Some p' ->
  process p ev = Some (p_built p', p_run p', p_ok p') /\ deliver p ev (p_targets p) = Some (p_targets p').
Proof using Type.
  unfold pstep. destruct (process p ev) as [[[b r] o]|]; [|discriminate]. destruct (deliver p ev (p_targets p)) as [ts|]; [|discriminate].
  intros [= <-]. split; reflexivity.
Qed.

Lemma WI_run used w pe p' stage : WI added used w -> pstep (w_p w) pe = Some p' ->
  (forall i, pe = PForget i -> p_built (w_p w) = []) ->
  (forall i c o, pe = PBuild i c o -> In i used -> pchs c <> []) ->
  WI added (wtrack used (WRun pe)) (WS p' (w_db w) (built_after (w_p w) (w_built w) pe) stage).
Proof using Type.
  intros [ND Ad Ts Cm Fi] S AF AB. destruct (pstep_parts _ _ _ S) as [P D].
  constructor; cbn [w_p w_built].
  - rewrite (deliver_ids _ _ _ _ D). exact ND.
  - intros i Hi. rewrite (deliver_ids _ _ _ _ D). exact (Ad i Hi).
  - intros id e st' Hi. destruct (deliver_In _ _ _ _ _ _ _ D Hi) as (st & Hs & X).
    exact (proj1 (event_target _ ND _ _ _ _ _ _ _ _ _ _ P Hs X AF AB (Ts _ _ _ Hs))).
  - intros id e st' c Hi Hc. destruct (deliver_In _ _ _ _ _ _ _ D Hi) as (st & Hs & X).
    destruct (built_event _ _ _ _ _ _ _ P Hc) as [K|(ord & e1 & s1 & -> & Ea & Ef)]; [exact (Cm _ _ _ _ Hs K)|].
    rewrite (assoc_NoDup_In _ _ _ ND Hs) in Ea. injection Ea as <- <-. cbn [delivered] in X. rewrite String.eqb_refl in X.
    cbn [exec] in X. destruct (step e st (EvStart c ord)) eqn:Ss; [|discriminate]. exact (started_commands _ _ _ _ _ Ss Ef).
  - intros k r x id e st' Er F Hi. destruct (deliver_In _ _ _ _ _ _ _ D Hi) as (st & Hs & X).
    rewrite Er in P.
    assert (I0 : s_pc st = Idle).
    { destruct (finished_event _ _ _ _ _ _ _ _ _ _ ND (tw_none _ _ _ _ _ (Ts _ _ _ Hs)) P F Hs) as [K|(k0 & r0 & x0 & E0 & F0)]; [exact K|exact (Fi _ _ _ _ _ _ E0 F0 Hs)]. }
    apply (idle_event _ _ _ _ _ _ _ _ _ ND P (fun h => match h in _ = y return match y with None => False | _ => True end with eq_refl => Logic.I end) Hs X I0).
Qed.

Lemma Forall2_weak {A B} (R R' : A -> B -> Prop) (l : list A) (m : list B) :
  (forall a b, In a l -> R a b -> R' a b) -> Forall2 R l m -> Forall2 R' l m.
Proof using Type.
  intros K F. induction F as [|a b l m H F IH]; constructor.
  - apply K; [left; reflexivity|exact H].
  - apply IH. intros x y Hx. apply K. right. exact Hx.
Qed.
Lemma Forall2_map_self {A B} (R : A -> B -> Prop) (f : A -> B) (l : list A) : (forall a, In a l -> R a (f a)) -> Forall2 R l (map f l).
Proof using Type.
  induction l as [|a l IH]; intros K; cbn [map]; constructor; [apply K; left; reflexivity|]. apply IH. intros x Hx. apply K. right. exact Hx.
Qed.

Lemma DBok_kept w p' wb' stage ev : deliver (w_p w) ev (p_targets (w_p w)) = Some (p_targets p') ->
  (forall id e st st', In id added -> In (id, (e, st)) (p_targets (w_p w)) -> exec e st (delivered (w_p w) ev id st) = Some st' ->
     stored (s_disk st') = stored (s_disk st) \/ unfinished st') ->
  DBok build added w -> DBok build added (WS p' (w_db w) wb' stage).
Proof using Type.
  intros D K (ts & E & F). exists ts. cbn [w_db w_p]. split; [exact E|]. revert F. apply Forall2_weak.
  intros id t Hid (e & st & c & H1 & H2 & H3 & H4). destruct (deliver_In' _ _ _ _ _ _ _ D H1) as (st' & H1' & X).
  exists e, st', c. split; [exact H1'|]. split; [exact H2|]. split; [exact H3|]. intros l Hl Hk.
  destruct (K _ _ _ _ Hid H1 X) as [Q|Q]; [apply H4; [congruence|exact Hk]|]. rewrite (Q l Hl) in Hk. discriminate.
Qed.

Lemma added_target used w id : WI added used w -> In id added -> exists e st, In (id, (e, st)) (p_targets (w_p w)).
Proof using Type.
  intros I H. apply (wi_add _ _ _ I) in H. apply in_map_iff in H as ([i [e st]] & <- & H). eauto.
Qed.

Lemma J_run used w pe p' : WI added used w -> J build added w -> pstep (w_p w) pe = Some p' ->
  match w_stage w with WBefore => true | _ => after_generate pe end = true ->
  let w' := WS p' (w_db w) (built_after (w_p w) (w_built w) pe) (match pe with PStop _ => WBefore | _ => w_stage w end) in
  wadmissible added used w (WRun pe) w' -> J build added w'.
Proof using Ne.
  intros I HJ S G w' A. destruct (pstep_parts _ _ _ S) as [P D].
  assert (AF : forall i, pe = PForget i -> p_built (w_p w) = []) by (intros i ->; exact A).
  assert (AB : forall i c o, pe = PBuild i c o -> In i used -> pchs c <> []) by (intros i c o ->; exact A).
  assert (Ev : forall id e st st', In (id, (e, st)) (p_targets (w_p w)) -> exec e st (delivered (w_p w) pe id st) = Some st' ->
     stored (s_disk st') = stored (s_disk st) \/ unfinished st' \/ In id (built_after (w_p w) (w_built w) pe)).
  { intros id e st st' Hs X. exact (proj2 (event_target _ (wi_nd _ _ _ I) _ _ _ _ _ _ _ _ _ _ P Hs X AF AB (wi_t _ _ _ I _ _ _ Hs))). }
  assert (Un : forall id e st, In id added -> In (id, (e, st)) (p_targets (w_p w)) -> unfinished st -> pending_work added w').
  { intros id e st Hid Hs U. destruct (deliver_In' _ _ _ _ _ _ _ D Hs) as (st' & Hs' & X).
    destruct (Ev _ _ _ _ Hs X) as [K|[K|K]].
    - right. exists id, e, st'. split; [exact Hid|]. split; [exact Hs'|]. intros l Hl. apply U. congruence.
    - right. exists id, e, st'. auto.
    - left. exists id. auto. }
  assert (Dk : DBok build added w -> DBok build added w' \/ pending_work added w').
  { intros Hd. destruct (existsb (fun i => mem_str i (w_built w')) added) eqn:Eb.
    - right. left. apply existsb_exists in Eb as (i & H1 & H2). apply mem_str_In in H2. eauto.
    - left. apply (DBok_kept w p' _ _ pe D); [|exact Hd]. intros id e st st' Hid Hs X.
      destruct (Ev _ _ _ _ Hs X) as [K|[K|K]]; [auto|auto|]. exfalso.
      assert (Z : existsb (fun i => mem_str i (w_built w')) added = true) by (apply existsb_exists; exists id; split; [exact Hid|apply mem_str_In; exact K]). congruence. }
  assert (Stop : (exists l, pe = PStop l) \/ forall l, pe <> PStop l) by (destruct pe; try (right; discriminate); left; eauto).
  destruct Stop as [[l ->]|NS].
  - unfold J. cbn [w' w_stage]. fold w'. destruct (w_stage w) eqn:Es; unfold J in HJ; rewrite Es in HJ.
    + destruct A as [A|[A|(i & e & st & A1 & A2 & A3)]]; [congruence| |right; right; exists i, e, st; auto].
      destruct HJ as [Hd|[(i & H1 & H2)|(i & e & st & H1 & H2 & H3)]]; [exact (Dk Hd)|destruct (A i H1 H2)|right; exact (Un _ _ _ H1 H2 H3)].
    + exact (Dk (proj1 HJ)).
    + destruct A as [A|[A|(i & e & st & A1 & A2 & A3)]]; [congruence| |right; right; exists i, e, st; auto].
      destruct HJ as [Hd|[(i & H1 & H2)|(i & e & st & H1 & H2 & H3)]]; [exact (Dk Hd)|destruct (A i H1 H2)|right; exact (Un _ _ _ H1 H2 H3)].
  - assert (Es' : w_stage w' = w_stage w) by (cbn [w' w_stage]; destruct pe; try reflexivity; destruct (NS _ eq_refl)).
    unfold J in *. rewrite Es'. destruct (w_stage w) eqn:Es.
    1, 3: destruct HJ as [Hd|[(i & H1 & H2)|(i & e & st & H1 & H2 & H3)]]; [exact (Dk Hd)| |right; exact (Un _ _ _ H1 H2 H3)];
      right; left; exists i; (split; [exact H1|exact (built_mono _ _ _ _ NS H2)]).
    destruct HJ as (Hd & Hc & Hb).
    assert (NF : forall i, pe <> PForget i) by (intros i ->; exact (Hb (AF i eq_refl))).
    assert (Pb : p_built p' = p_built (w_p w)).
    { destruct pe; try discriminate G; [|destruct (NF _ eq_refl)|destruct (NS _ eq_refl)]. cbn [process] in P. injection P as P _ _. auto. }
    split; [|split].
    + apply (DBok_kept w p' _ _ pe D); [|exact Hd]. intros id e st st' _ _ X. exact (still_event _ _ _ _ _ _ G NF X).
    + destruct Hc as (ts & E & F). exists ts. cbn [w' w_db w_p]. split; [exact E|]. revert F. apply Forall2_weak.
      intros id t _ (e & st & c & H1 & H2 & H3). destruct (deliver_In' _ _ _ _ _ _ _ D H1) as (st' & H1' & _).
      exists e, st', c. rewrite Pb. auto.
    + cbn [w' w_p]. rewrite Pb. exact Hb.
Qed.

Lemma finished_of r x id : forallb (fun i => existsb (fun ev => match ev with XFinish j _ => String.eqb i j | _ => false end) (x_log x)) (rg_built r) = true ->
  In id (rg_built r) -> In id (finishes (x_log x)).
Proof using Type.
  intros H Hi. rewrite forallb_forall in H. specialize (H id Hi). apply existsb_exists in H as (ev & H1 & H2).
  destruct ev as [|j o]; [discriminate|]. apply String.eqb_eq in H2. subst j. apply in_flat_map. exists (XFinish id o). split; [exact H1|left; reflexivity].
Qed.

(** When Generate is called every target of the database has been brought up to date. *)
Lemma at_generate used w : WI added used w -> run_returned (w_p w) = true ->
  (forall i, In i added -> In i (map fst (p_built (w_p w))) /\ exists k r x, p_run (w_p w) = Some (k, r, x) /\ In i (rg_built r)) ->
  forall id, In id added -> exists e st c, In (id, (e, st)) (p_targets (w_p w)) /\ assoc id (p_built (w_p w)) = Some c /\
    commands_ok e c /\
    (forall l, stored (s_disk st) = Some l -> ts_target_linked l = true -> Full l c) /\
    (~ In id (w_built w) -> exists l, stored (s_disk st) = Some l /\ ts_target_linked l = true).
Proof using Type.
  intros I R A id Hid. destruct (added_target _ _ _ I Hid) as (e & st & Hs). destruct (A id Hid) as [Hb (k & r & x & Er & Hr)].
  destruct (assoc id (p_built (w_p w))) as [c|] eqn:Ec; [|destruct (proj1 (assoc_None _ _) Ec Hb)].
  unfold run_returned in R. rewrite Er in R. apply andb_true_iff in R as [R R3]. apply andb_true_iff in R as [R1 _].
  pose proof (wi_t _ _ _ I _ _ _ Hs) as T. rewrite Ec in T.
  pose proof (wi_fin _ _ _ I _ _ _ _ _ _ Er (finished_of _ _ _ R3 Hr) Hs) as Pc.
  destruct (tw_end _ _ _ _ _ T c eq_refl Pc (tw_ok _ _ _ _ _ T c eq_refl R1)) as [F1 F2].
  exists e, st, c. split; [exact Hs|]. split; [reflexivity|]. split; [exact (wi_cmd _ _ _ I _ _ _ _ Hs Ec)|]. split; assumption.
Qed.

Lemma J_generate used w r w' : WI added used w -> J build added w -> wstep build added w (WGenerate r) = Some w' ->
  wadmissible added used w (WGenerate r) w' -> J build added w' /\ w_p w' = w_p w /\ w_built w' = w_built w.
Proof using Ne.
  intros I HJ S [A1 A2]. cbn [wstep] in S. destruct (w_stage w) eqn:Es; try discriminate.
  destruct (run_returned (w_p w)) eqn:R; [|discriminate]. pose proof (at_generate _ _ I R A2) as K.
  assert (NB : p_built (w_p w) <> []).
  { destruct added as [|i rest]; [destruct (Ne eq_refl)|]. destruct (A2 i (or_introl eq_refl)) as [H _]. intros E. rewrite E in H. destruct H. }
  unfold J in HJ. rewrite Es in HJ. unfold cc_generate in S. destruct (existsb cc_built _) eqn:Eb.
  - apply existsb_exists in Eb as (t & H1 & H2). apply in_map_iff in H1 as (i & <- & H1).
    assert (Hi : In i (w_built w)).
    { unfold cc_of in H2. destruct (assoc i (p_targets (w_p w))) as [[? ?]|]; [|discriminate]. destruct (assoc i (p_built (w_p w))); [|discriminate].
      apply mem_str_In. exact H2. }
    destruct r as [|kept|n]; [| |destruct (A1 n eq_refl)]; injection S as <-; (split; [|split; reflexivity]); unfold J; cbn [w_stage].
    2: { right. left. exists i. auto. }
    split; [|split; [|exact NB]].
    + exists (map (cc_of (w_p w) (w_built w)) added). cbn [w_db w_p]. split; [reflexivity|]. apply Forall2_map_self. intros id Hid.
      destruct (K id Hid) as (e & st & c & Hs & Ec & Hc & F & _). exists e, st, c. unfold cc_of.
      rewrite (assoc_NoDup_In _ _ _ (wi_nd _ _ _ I) Hs), Ec. cbn [cc_sources cc_command]. split; [exact Hs|]. split; [reflexivity|]. split; [|exact F].
      intros s Hx. destruct (Hc s Hx) as [t0 ->]. reflexivity.
    + exists (map (cc_of (w_p w) (w_built w)) added). cbn [w_db w_p]. split; [reflexivity|]. apply Forall2_map_self. intros id Hid.
      destruct (K id Hid) as (e & st & c & Hs & Ec & Hc & F & _). exists e, st, c. unfold cc_of.
      rewrite (assoc_NoDup_In _ _ _ (wi_nd _ _ _ I) Hs), Ec. cbn [cc_sources cc_command]. split; [exact Hs|]. split; [exact (assoc_In _ _ _ Ec)|]. split; [reflexivity|].
      intros s Hx. destruct (Hc s Hx) as [t0 ->]. reflexivity.
  - assert (NBd : forall id, In id added -> ~ In id (w_built w)).
    { intros id Hid Hb. destruct (K id Hid) as (e & st & c & Hs & Ec & _).
      assert (Z : existsb cc_built (map (cc_of (w_p w) (w_built w)) added) = true); [|congruence].
      apply existsb_exists. exists (cc_of (w_p w) (w_built w) id). split; [exact (in_map (cc_of (w_p w) (w_built w)) _ _ Hid)|].
      unfold cc_of. rewrite (assoc_NoDup_In _ _ _ (wi_nd _ _ _ I) Hs), Ec. apply mem_str_In. exact Hb. }
    destruct r as [|kept|n]; [|discriminate|destruct (A1 n eq_refl)]. injection S as <-. split; [|split; reflexivity]. unfold J. cbn [w_stage].
    assert (Hd : DBok build added w).
    { destruct HJ as [Hd|[(i & H1 & H2)|(i & e & st & H1 & H2 & H3)]]; [exact Hd|destruct (NBd i H1 H2)|]. exfalso.
      destruct (K i H1) as (e' & st' & c & Hs & _ & _ & _ & F). destruct (F (NBd i H1)) as (l & Hl & Hk).
      pose proof (assoc_NoDup_In _ _ _ (wi_nd _ _ _ I) Hs) as Q1. rewrite (assoc_NoDup_In _ _ _ (wi_nd _ _ _ I) H2) in Q1. injection Q1 as <- <-.
      rewrite (H3 l Hl) in Hk. discriminate. }
    split; [exact Hd|]. split; [|exact NB]. destruct Hd as (ts & E & F). exists ts. cbn [w_db w_p]. split; [exact E|]. revert F. apply Forall2_weak.
    intros id t Hid (e & st & c0 & H1 & H2 & H3 & H4). destruct (K id Hid) as (e' & st' & c & Hs & Ec & Hc & F1 & F2).
    pose proof (assoc_NoDup_In _ _ _ (wi_nd _ _ _ I) Hs) as Q1. rewrite (assoc_NoDup_In _ _ _ (wi_nd _ _ _ I) H1) in Q1. injection Q1 as <- <-.
    destruct (F2 (NBd id Hid)) as (l & Hl & Hk). destruct (same_commands e l c0 c (H4 l Hl Hk) (F1 l Hl Hk)) as [Q2 Q3].
    exists e, st, c. split; [exact Hs|]. split; [exact (assoc_In _ _ _ Ec)|]. split.
    + intros s. rewrite H2. apply Q2.
    + intros s Hx. rewrite <- Q3. apply H3. apply Q2. exact Hx.
Qed.

Lemma history_inv l gens db evs used w : NoDup (map fst l) -> (forall i, In i added -> In i (map fst l)) ->
  whistory build added l gens db evs used w -> WI added used w /\ J build added w.
Proof using Ne.
  intros ND Ad H. induction H as [|evs used w ev w' H [I HJ] S A].
  - split.
    + constructor; cbn [winit w_p w_built pinit p_targets p_built p_ok p_run].
      * rewrite map_map. cbn [fst]. exact ND.
      * rewrite map_map. cbn [fst]. exact Ad.
      * intros id e st Hi. apply in_init in Hi as (d & _ & ->). cbn [assoc]. constructor; try discriminate; try reflexivity.
        intros K. destruct (K eq_refl).
      * intros id e st c _ K. discriminate.
      * intros k r x id e st K. discriminate.
    + unfold J. cbn [winit w_stage]. right. right. destruct added as [|i rest] eqn:Ea; [destruct (Ne eq_refl)|].
      pose proof (Ad i (or_introl eq_refl)) as K. apply in_map_iff in K as ([i' [e d]] & <- & K).
      exists i', e, (init d). split; [left; reflexivity|]. split; [|intros s Hs; discriminate].
      cbn [w_p pinit p_targets]. exact (in_map (fun x : string * (tenv * disk) => (fst x, (fst (snd x), init (snd (snd x))))) _ _ K).
  - destruct ev as [pe|r|t]; [| |destruct A].
    + pose proof S as S0. cbn [wstep] in S. destruct (match w_stage w with WBefore => true | _ => after_generate pe end) eqn:G; [|discriminate].
      destruct (pstep (w_p w) pe) as [p'|] eqn:Sp; [|discriminate]. injection S as <-. split.
      * apply WI_run; [exact I|exact Sp|intros i ->; exact A|intros i c o ->; exact A].
      * exact (J_run _ _ _ _ I HJ Sp G A).
    + destruct (J_generate _ _ _ _ I HJ S A) as (K1 & K2 & K3). split; [|exact K1]. cbn [wtrack].
      destruct I as [I1 I2 I3 I4 I5]. constructor; rewrite ?K2, ?K3; assumption.
Qed.

Lemma database_fresh l gens db evs used w : NoDup (map fst l) -> (forall i, In i added -> In i (map fst l)) ->
  whistory build added l gens db evs used w -> w_stage w = WDone -> database_current build added (w_p w) (w_db w).
Proof using Ne.
  intros ND Ad H E. destruct (history_inv _ _ _ _ _ _ ND Ad H) as [_ HJ]. unfold J in HJ. rewrite E in HJ. tauto.
Qed.
End Steps.
