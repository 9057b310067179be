(** Build() called twice on one target: concrete runs. *)
From Verif Require Import Prelude Proof_Prelude Model_Path Model_Json Model_Schema Proof_Schema Model_Command Spec_Command
  Model_ToolchainConfig Model_Target Spec_Target Proof_TargetBase Proof_TargetInv Proof_TargetRun
  Proof_TargetStep Proof_TargetStep2 Proof_TargetMain Proof_TargetCase Model_Two Spec_Two Proof_Two Proof_TwoMain Proof_TwoCase
  Model_Dup Spec_Dup Proof_Dup.

Definition smoothb (x : duevent) : bool :=
  match x with
  | DuTask _ ev =>
      match ev with
      | EvPchCheck | EvObjCheck | EvLinkCheck | EvPchExec XOk | EvCompile _ XOk | EvLinkExec XOk | EvEnd WOk | EvEnd WKeep => true
      | _ => false
      end
  | DuStart _ _ _ => false
  end.
Lemma smoothb_sound x : smoothb x = true -> smooth x.
Proof.
  destruct x as [n c ord|i ev]; [discriminate|]. destruct ev; cbn [smoothb smooth]; try discriminate; auto.
  - destruct r; try discriminate; reflexivity.
  - destruct r; try discriminate; reflexivity.
  - destruct r; try discriminate; reflexivity.
  - destruct w; try discriminate; auto.
Qed.
Lemma smooth_all l : forallb smoothb l = true -> Forall smooth l.
Proof. intros H. rewrite forallb_forall in H. apply Forall_forall. intros x Hx. apply smoothb_sound. exact (H x Hx). Qed.

Definition outside (s : dup) : Prop := forall i, du_n s <= i -> du_pc s i = Idle.
Lemma outside_step e s x s' : outside s -> smooth x \/ (exists n c ord, x = DuStart n c ord) -> du_step e s x = Some s' -> outside s'.
Proof.
  intros B Sm S. destruct x as [n c ord|i ev]; cbn [du_step] in S.
  - destruct (all_idle s); [|discriminate S]. destruct (start e (with_pc (du_st s) Idle) c ord) as [st|]; [|discriminate S].
    injection S as <-. intros j Hj. cbn [du_n du_pc] in *. apply Nat.ltb_ge in Hj. rewrite Hj. reflexivity.
  - destruct Sm as [Sm|(? & ? & ? & [=])]. destruct (step e (with_pc (du_st s) (du_pc s i)) ev) as [st|] eqn:E; [|discriminate S].
    assert (N : du_pc s i <> Idle).
    { intros K. rewrite K in E. destruct ev; cbn [smooth] in Sm; try contradiction; cbn [step with_pc s_pc] in E; discriminate E. }
    assert (G : forall st' p, outside (DU st' (du_n s) (fun j => if Nat.eqb j i then p else du_pc s j))).
    { intros st' p j Hj. cbn [du_n du_pc] in *. destruct (Nat.eqb_spec j i) as [->|]; [destruct (N (B i Hj))|exact (B j Hj)]. }
    destruct ev; cbn [smooth] in Sm; try contradiction; injection S as <-; apply G.
Qed.
Lemma outside_exec e l : forall s s', outside s -> Forall smooth l -> du_exec e s l = Some s' -> outside s'.
Proof.
  induction l as [|x l IH]; intros s s' B F X; cbn [du_exec] in X; [injection X as <-; exact B|].
  inversion F; subst. destruct (du_step e s x) as [s1|] eqn:E; [|discriminate X].
  apply (IH s1); auto. apply (outside_step e s x); auto.
Qed.
Lemma ended_sound e st n c ord l s : Forall smooth l -> du_exec e (du_begin st) (DuStart n c ord :: l) = Some s ->
  all_idle s = true -> all_ended s.
Proof.
  intros F X A i. cbn [du_exec] in X. destruct (du_step e (du_begin st) (DuStart n c ord)) as [s1|] eqn:E; [|discriminate X].
  assert (B : outside s1) by (apply (outside_step e (du_begin st) (DuStart n c ord)); [intros j _; reflexivity|right; eauto|exact E]).
  pose proof (outside_exec e l s1 s B F X) as Bs. destruct (Nat.lt_ge_cases i (du_n s)) as [H|H]; [|exact (Bs i H)].
  unfold all_idle in A. rewrite forallb_forall in A. specialize (A i). rewrite in_seq in A. specialize (A (conj (Nat.le_0_l i) H)).
  destruct (du_pc s i); [reflexivity|discriminate A..].
Qed.
Lemma du_case e s l (P : dup -> bool) :
  match du_exec e s l with Some s' => P s' | None => false end = true -> exists s', du_exec e s l = Some s' /\ P s' = true.
Proof. destruct (du_exec e s l) as [s'|]; [|discriminate]. intros H. exists s'. split; [reflexivity|exact H]. Qed.

(** ** A first build with two chains: every command is executed twice *)
Definition twice : list duevent :=
  [DuTask 0 EvObjCheck; DuTask 1 EvObjCheck; DuTask 0 (EvCompile "/p/a.cpp" XOk); DuTask 1 (EvCompile "/p/a.cpp" XOk);
   DuTask 1 (EvCompile "/p/b.cpp" XOk); DuTask 0 (EvCompile "/p/b.cpp" XOk); DuTask 1 EvLinkCheck; DuTask 0 EvLinkCheck;
   DuTask 0 (EvLinkExec XOk); DuTask 1 (EvLinkExec XOk); DuTask 1 (EvEnd WOk); DuTask 0 (EvEnd WOk)].
Lemma twice_run : exists s, du_exec e0 (du_begin (init disk0)) (DuStart 2 cA ordA :: twice) = Some s /\ all_ended s /\
  s_ok (du_st s) = true /\ Forall smooth twice /\
  (exists cmd, compile_command e0 cA "/p/a.cpp" = FOk cmd /\ executed cmd (s_log (du_st s)) = 2) /\
  (exists cmd, link_command e0 cA ordA = FOk cmd /\ executed cmd (s_log (du_st s)) = 2).
Proof.
  destruct (du_case e0 (du_begin (init disk0)) (DuStart 2 cA ordA :: twice) (fun s => s_ok (du_st s) && all_idle s &&
    match compile_command e0 cA "/p/a.cpp" with FOk cmd => Nat.eqb (executed cmd (s_log (du_st s))) 2 | _ => false end &&
    match link_command e0 cA ordA with FOk cmd => Nat.eqb (executed cmd (s_log (du_st s))) 2 | _ => false end)) as (s & X & P).
  { vm_compute. reflexivity. }
  apply andb_true_iff in P as [P P4]. apply andb_true_iff in P as [P P3]. apply andb_true_iff in P as [P1 P2].
  assert (F : Forall smooth twice) by (apply smooth_all; reflexivity).
  exists s. split; [exact X|]. split; [exact (ended_sound _ _ _ _ _ _ _ F X P2)|]. split; [exact P1|]. split; [exact F|]. split.
  - destruct (compile_command e0 cA "/p/a.cpp") as [cmd| |]; try discriminate P3. exists cmd. split; [reflexivity|apply Nat.eqb_eq; exact P3].
  - destruct (link_command e0 cA ordA) as [cmd| |]; try discriminate P4. exists cmd. split; [reflexivity|apply Nat.eqb_eq; exact P4].
Qed.

(** ** A command of the second chain fails after the first chain has stored the state *)
Definition spoilt : list duevent :=
  [DuTask 0 EvObjCheck; DuTask 1 EvObjCheck; DuTask 0 (EvCompile "/p/a.cpp" XOk); DuTask 0 (EvCompile "/p/b.cpp" XOk);
   DuTask 0 EvLinkCheck; DuTask 0 (EvLinkExec XOk); DuTask 0 (EvEnd WOk); DuTask 1 (EvCompile "/p/a.cpp" (XFail None));
   DuTask 1 EvCrash].
Lemma spoilt_run : exists s st2, du_exec e0 (du_begin (init disk0)) (DuStart 2 cA ordA :: spoilt) = Some s /\
  s_ok (du_st s) = false /\ exec e0 (with_pc (du_st s) Idle) (idle_run cA ordA) = Some st2 /\ s_ok st2 = true /\
  s_log st2 = s_log (du_st s) /\ ~ all_current e0 cA (s_disk st2).
Proof.
  destruct (du_case e0 (du_begin (init disk0)) (DuStart 2 cA ordA :: spoilt) (fun s => negb (s_ok (du_st s)) &&
    match exec e0 (with_pc (du_st s) Idle) (idle_run cA ordA) with
    | Some st2 => s_ok st2 && Nat.eqb (length (s_log st2)) (length (s_log (du_st s))) && obj_staleb e0 cA (s_disk st2) "/p/a.cpp"
    | None => false end)) as (s & X & P).
  { vm_compute. reflexivity. }
  apply andb_true_iff in P as [P1 P2]. apply negb_true_iff in P1.
  destruct (exec e0 (with_pc (du_st s) Idle) (idle_run cA ordA)) as [st2|] eqn:X2; [|discriminate P2].
  apply andb_true_iff in P2 as [P2 P4]. apply andb_true_iff in P2 as [P2 P3].
  exists s, st2. split; [exact X|]. split; [exact P1|]. split; [exact X2|]. split; [exact P2|]. split.
  - assert (K : match du_exec e0 (du_begin (init disk0)) (DuStart 2 cA ordA :: spoilt) with
       | Some s => match exec e0 (with_pc (du_st s) Idle) (idle_run cA ordA) with Some st2 => Some (s_log st2, s_log (du_st s)) | None => None end
       | None => None end = Some (s_log st2, s_log (du_st s))) by (rewrite X, X2; reflexivity).
    vm_compute in K. injection K as K1 K2. exact (eq_trans (eq_sym K1) K2).
  - intros (_ & K & _). apply (obj_staleb_sound _ _ _ _ P4). apply K. left. reflexivity.
Qed.

(** ** The theorem at work: after an edit of the PCH and of a source, two chains *)
Definition both : list duevent :=
  [DuTask 0 EvPchCheck; DuTask 0 (EvPchExec XOk); DuTask 0 EvObjCheck; DuTask 1 EvPchCheck; DuTask 0 (EvCompile "/p/a.cpp" XOk);
   DuTask 1 (EvPchExec XOk); DuTask 1 EvObjCheck; DuTask 1 (EvCompile "/p/b.cpp" XOk); DuTask 0 (EvCompile "/p/b.cpp" XOk);
   DuTask 0 EvLinkCheck; DuTask 0 (EvLinkExec XOk); DuTask 0 (EvEnd WOk); DuTask 1 (EvCompile "/p/a.cpp" XOk); DuTask 1 EvLinkCheck;
   DuTask 1 (EvLinkExec XOk); DuTask 1 (EvEnd WOk)].
Lemma both_case : exists h st s, history Forward e0 disk0 past h st /\ s_pc st = Idle /\ permitted e0 h cP /\
  (forall f, In f (tracked cP) -> d_mt (s_disk st) f <> None) /\ ~ In (FOk "") (all_commands e0 cP ordA) /\ Forall smooth both /\
  du_exec e0 (du_begin st) (DuStart 2 cP ordA :: both) = Some s /\ all_ended s /\ s_ok (du_st s) = true /\
  ~ all_current e0 cP (s_disk st) /\ ord_ok ordA (sources cP) = true /\ forallb is_fok (all_commands e0 cP ordA) = true.
Proof.
  destruct (follow_case Forward e0 disk0 past (fun h st => idleb st && permittedb e0 h cP &&
    forallb (fun f => match d_mt (s_disk st) f with Some _ => true | None => false end) (tracked cP) && pch_staleb e0 cP (s_disk st) &&
    match du_exec e0 (du_begin st) (DuStart 2 cP ordA :: both) with
    | Some s => s_ok (du_st s) && all_idle s | None => false end)) as (h & st & H & P).
  { vm_compute. reflexivity. }
  apply andb_true_iff in P as [P P5]. apply andb_true_iff in P as [P P4]. apply andb_true_iff in P as [P P3].
  apply andb_true_iff in P as [P1 P2].
  destruct (du_exec e0 (du_begin st) (DuStart 2 cP ordA :: both)) as [s|] eqn:X; [|discriminate P5].
  apply andb_true_iff in P5 as [P5 P6].
  assert (F : Forall smooth both) by (apply smooth_all; reflexivity).
  exists h, st, s. split; [exact H|]. split; [exact (idleb_sound st P1)|]. split; [apply permittedb_sound; exact P2|]. split.
  { intros f Hf K. rewrite forallb_forall in P3. specialize (P3 f Hf). rewrite K in P3. discriminate P3. }
  split.
  { intros K. assert (B : forallb (fun r => match r with FOk cmd => negb (String.eqb cmd "") | _ => true end) (all_commands e0 cP ordA) = true)
      by (vm_compute; reflexivity). rewrite forallb_forall in B. specialize (B _ K). discriminate B. }
  split; [exact F|]. split; [exact X|]. split; [exact (ended_sound _ _ _ _ _ _ _ F X P6)|]. split; [exact P5|]. split.
  { intros (K & _). apply (pch_staleb_sound _ _ _ P4). apply K. apply contains_pch_iff. vm_compute. reflexivity. }
  split; vm_compute; reflexivity.
Qed.

(** Right after a build, two chains. *)
Definition rest2 : list duevent :=
  [DuTask 0 EvPchCheck; DuTask 1 EvPchCheck; DuTask 1 EvObjCheck; DuTask 0 EvObjCheck; DuTask 0 EvLinkCheck; DuTask 0 (EvEnd WOk);
   DuTask 1 EvLinkCheck; DuTask 1 (EvEnd WOk)].
Definition built : list event := [EvStart cP ordA; EvPchCheck; EvPchExec XOk; EvObjCheck; EvCompile "/p/a.cpp" XOk; EvCompile "/p/b.cpp" XOk; EvLinkCheck; EvLinkExec XOk].
Lemma rest_case : exists h st s, history Forward e0 disk0 (built ++ [EvEnd WOk]) h st /\ s_ok st = true /\ h_edited h = false /\
  permitted e0 h (s_cfg st) /\ (forall f, In f (tracked (s_cfg st)) -> d_mt (s_disk st) f <> None) /\
  ~ In (FOk "") (all_commands e0 (s_cfg st) ordA) /\ Forall smooth rest2 /\
  du_exec e0 (du_begin st) (DuStart 2 (s_cfg st) ordA :: rest2) = Some s /\ all_ended s /\ s_ok (du_st s) = true /\ length (s_log st) = 4.
Proof.
  destruct (follow_case Forward e0 disk0 (built ++ [EvEnd WOk]) (fun h st => s_ok st && negb (h_edited h) && permittedb e0 h (s_cfg st) &&
    forallb (fun f => match d_mt (s_disk st) f with Some _ => true | None => false end) (tracked (s_cfg st)) &&
    forallb (fun r => match r with FOk cmd => negb (String.eqb cmd "") | _ => true end) (all_commands e0 (s_cfg st) ordA) &&
    Nat.eqb (length (s_log st)) 4 &&
    match du_exec e0 (du_begin st) (DuStart 2 (s_cfg st) ordA :: rest2) with
    | Some s => s_ok (du_st s) && all_idle s | None => false end)) as (h & st & H & P).
  { vm_compute. reflexivity. }
  apply andb_true_iff in P as [P P7]. apply andb_true_iff in P as [P P6]. apply andb_true_iff in P as [P P5]. apply andb_true_iff in P as [P P4].
  apply andb_true_iff in P as [P P3]. apply andb_true_iff in P as [P1 P2]. apply negb_true_iff in P2.
  destruct (du_exec e0 (du_begin st) (DuStart 2 (s_cfg st) ordA :: rest2)) as [s|] eqn:X; [|discriminate P7].
  apply andb_true_iff in P7 as [P7 P8].
  assert (F : Forall smooth rest2) by (apply smooth_all; reflexivity).
  exists h, st, s. split; [exact H|]. split; [exact P1|]. split; [exact P2|]. split; [apply permittedb_sound; exact P3|]. split.
  { intros f Hf K. rewrite forallb_forall in P4. specialize (P4 f Hf). rewrite K in P4. discriminate P4. }
  split.
  { intros K. rewrite forallb_forall in P5. specialize (P5 _ K). discriminate P5. }
  split; [exact F|]. split; [exact X|]. split; [exact (ended_sound _ _ _ _ _ _ _ F X P8)|]. split; [exact P7|]. apply Nat.eqb_eq. exact P6.
Qed.
