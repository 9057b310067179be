(** Build() called several times: how often each command is executed. *)
From Coq Require Import Lia.
From Verif Require Import Prelude Proof_Prelude Model_Path Model_Json Model_Schema Proof_Schema Model_Command Spec_Command
  Model_ToolchainConfig Model_Target Spec_Target Proof_TargetBase Proof_TargetInv Proof_TargetRun
  Proof_TargetStep Proof_TargetStep2 Proof_TargetMain Proof_TargetLive Model_Dup Spec_Dup Proof_Dup Proof_DupLive.

Inductive kind := KPch | KObj (p : string) | KLink.
Definition kis (k : kind) (y : xcmd) : bool :=
  match k, y with KPch, XPch _ => true | KObj p, XObj q _ => String.eqb q p | KLink, XLink _ => true | _, _ => false end.
Definition kcount (k : kind) (l : list xcmd) : nat := length (filter (kis k) l).
Lemma kcount_app k a b : kcount k (a ++ b) = kcount k a + kcount k b.
Proof. unfold kcount. rewrite filter_app, app_length. reflexivity. Qed.
Lemma kcount_one k y : kcount k [y] = if kis k y then 1 else 0.
Proof. unfold kcount. cbn [filter]. destruct (kis k y); reflexivity. Qed.

Definition occ (p : string) (l : infolist) : nat := times_in p (il_paths l).
Lemma occ_cons p i l : occ p (i :: l) = (if String.eqb (pi_path i) p then 1 else 0) + occ p l.
Proof. unfold occ, times_in, il_paths. cbn [map filter]. destruct (String.eqb (pi_path i) p); reflexivity. Qed.
Lemma occ_perm p a b : Permutation a b -> occ p a = occ p b.
Proof. induction 1; rewrite ?occ_cons; try congruence; lia. Qed.
Lemma recompile_occ p (cur : infolist) : forall prev sel dum ch, recompile_loop prev cur = (sel, dum, ch) -> occ p sel <= occ p cur.
Proof.
  induction cur as [|i cur IH]; intros prev sel dum ch; cbn [recompile_loop].
  - intros [= <- _ _]. lia.
  - destruct (assoc (pi_path i) prev) as [hh|].
    + destruct (recompile_loop _ cur) as [[a b] c] eqn:E. specialize (IH _ _ _ _ E).
      destruct (String.eqb hh (pi_hash i)); intros [= <- _ _]; rewrite ?occ_cons; lia.
    + destruct (recompile_loop _ cur) as [[a b] c] eqn:E. specialize (IH _ _ _ _ E). intros [= <- _ _]. rewrite !occ_cons. lia.
Qed.

Section Count.
Context (e : tenv) (c : cfg) (ord : list string) (k : kind).

Definition most : nat := match k with KObj p => times_in p (sources c) | _ => 1 end.
Definition kcap (p : pcount) : nat :=
  match k, p with
  | _, Idle => 0
  | KPch, PcPch | KPch, PcPchExec => 1
  | KPch, _ => 0
  | KLink, PcEnd => 0
  | KLink, _ => 1
  | KObj s, PcCompile l => occ s l
  | KObj s, PcPch | KObj s, PcPchExec | KObj s, PcObj => times_in s (sources c)
  | KObj s, _ => 0
  end.
Lemma kcap_start p : (p = PcPch \/ p = PcObj \/ p = Idle) -> kcap p <= most.
Proof using. unfold kcap, most. intros [ -> | [ -> | -> ]]; destruct k; lia. Qed.

Lemma kcount_step st ev st' : own ev -> step e st ev = Some st' -> stlike c ord st ->
  kcount k (s_log st') + kcap (s_pc st') <= kcount k (s_log st) + kcap (s_pc st).
Proof using.
  intros O S (L1 & L2 & L3). destruct ev; try destruct O; cbn [step] in S.
  - destruct (s_pc st) eqn:E; try discriminate. injection S as <-. unfold pch_check. destruct (negb (s_ok st)); [stp; unfold kcap; destruct k; lia|].
    destruct (pch_pre _ _) as [u b]. destruct (negb b); [stp; unfold kcap; destruct k; lia|]. destruct (_ || _); stp; unfold kcap; destruct k; lia.
  - destruct (s_pc st) eqn:E; try discriminate. unfold pch_exec in S.
    destruct (pch_command _ _); try discriminate. injection S as <-.
    destruct (run_res _ _); stp; rewrite ?kcount_app, ?kcount_one; unfold kcap, kis; destruct k; lia.
  - destruct (s_pc st) eqn:E; try discriminate. injection S as <-. unfold obj_check.
    destruct (negb (s_ok st)); [stp; unfold kcap; destruct k; cbn; lia|].
    destruct (obj_pre _ _) as [u b] eqn:Ep. destruct (obj_pre_like _ c _ _ _ L3 Ep) as (L & _).
    destruct (negb b); [stp; unfold kcap; destruct k; cbn; lia|]. stp.
    assert (Hs : forall l, (forall p, occ p l <= occ p (ts_sources u)) -> kcap (PcCompile l) <= kcap PcObj).
    { intros l H. unfold kcap. destruct k as [|p|]; try lia. specialize (H p). unfold occ at 2 in H. rewrite (like_sources _ _ L) in H. exact H. }
    destruct (match s_load st with None => true | Some l => s_dirty st || negb (obj_same l u) end).
    { stp. specialize (Hs (ts_sources u) (fun p => le_n _)). lia. }
    destruct (s_load st) as [t|]; [|stp; specialize (Hs [] (fun p => Nat.le_0_l _)); lia]. destruct (recompile_sources _ _) as [[x y] z] eqn:Er.
    stp. assert (Q : forall p, occ p x <= occ p (ts_sources u)) by (intros p; exact (recompile_occ p _ _ _ _ _ Er)). specialize (Hs x Q). lia.
  - destruct (s_pc st) eqn:E; try discriminate. unfold compile_one in S.
    destruct (take_pending _ _) as [[i r']|] eqn:Tk; [|discriminate]. destruct (take_pending_spec _ _ _ _ Tk) as [Pi Pm].
    destruct (compile_command _ _ _); try discriminate. injection S as <-.
    assert (Q : forall p, occ p pending = (if String.eqb (pi_path i) p then 1 else 0) + occ p r') by (intros p; rewrite (occ_perm p _ _ Pm), occ_cons; reflexivity).
    destruct (run_res _ _); stp; rewrite ?kcount_app, ?kcount_one; unfold kcap, kis; destruct k as [|p|]; try lia;
      rewrite (Q p), <- ?Pi; destruct (String.eqb (pi_path i) p); lia.
  - destruct (s_pc st) as [| | | |[|? ?]| |] eqn:E; try discriminate. injection S as <-.
    unfold link_check. destruct (negb (s_ok st)); [stp; unfold kcap; destruct k; cbn; lia|]. destruct (link_pre _ _) as [u b].
    destruct (negb b); [stp; unfold kcap; destruct k; cbn; lia|]. stp.
    destruct (match s_load _ with None => true | _ => _ end); stp; unfold kcap; destruct k; cbn; lia.
  - destruct (s_pc st) eqn:E; try discriminate. unfold link_exec in S.
    destruct (link_command _ _ _); try discriminate. injection S as <-.
    destruct (run_res _ _); stp; rewrite ?kcount_app, ?kcount_one; unfold kcap, kis; destruct k; lia.
  - destruct (s_pc st) eqn:E; try discriminate.
    assert (X : s_log st' = s_log st /\ s_pc st' = Idle).
    { unfold end_task in S. destruct (s_dirty st).
      - destruct (store_text _); destruct w as [| |m rep]; try discriminate S; try (injection S as <-; stp; auto; fail).
        destruct (short _ _); [|discriminate S]. destruct rep; injection S as <-; stp; auto.
      - destruct w; try discriminate S. injection S as <-. stp. auto. }
    destruct X as (-> & ->). unfold kcap. destruct k; lia.
Qed.

Fixpoint ksum (n : nat) (pcs : nat -> pcount) : nat := match n with 0 => 0 | S m => ksum m pcs + kcap (pcs m) end.
Lemma ksum_put n : forall pcs i p, ksum n (put pcs i p) + (if Nat.ltb i n then kcap (pcs i) else 0) = ksum n pcs + (if Nat.ltb i n then kcap p else 0).
Proof using c k.
  induction n as [|n IH]; intros pcs i p; [reflexivity|]. cbn [ksum]. specialize (IH pcs i p).
  destruct (put_cases pcs i p n) as [[-> E]|[N E]]; rewrite E.
  - rewrite Nat.ltb_irrefl in IH. assert (K : Nat.ltb i (S i) = true) by (apply Nat.ltb_lt; lia). rewrite K. lia.
  - destruct (Nat.ltb_spec i n); destruct (Nat.ltb_spec i (S n)); try lia.
Qed.
Lemma ksum_bound n pcs m : (forall i, kcap (pcs i) <= m) -> ksum n pcs <= n * m.
Proof using c k. intros H. induction n as [|n IH]; cbn [ksum]; [lia|]. specialize (H n). lia. Qed.

Definition kpot (s : dup) : nat := kcount k (s_log (du_st s)) + ksum (du_n s) (du_pc s).
Hypothesis Oo : ord_ok ord (sources c) = true.
Hypothesis Fk : forallb is_fok (all_commands e c ord) = true.

Lemma kpot_step s x s' : own_task x -> LInv c ord s -> du_step e s x = Some s' -> kpot s' <= kpot s.
Proof using All.
  intros O (A & B & C) S. destruct x as [n c' ord'|i ev]; [destruct O|]. cbn [own_task] in O. cbn [du_step] in S.
  destruct (step e (with_pc (du_st s) (du_pc s i)) ev) as [st|] eqn:E; [|discriminate S].
  pose proof (kcount_step _ _ _ O E (with_pc_like c ord _ _ A)) as D. stp.
  assert (NI : du_pc s i <> Idle).
  { intros K. rewrite K in E. destruct ev; try destruct O; cbn [step with_pc s_pc] in E; discriminate E. }
  assert (Hi : i < du_n s) by (destruct (Nat.lt_ge_cases i (du_n s)) as [H|H]; [exact H|destruct (NI (C i H))]).
  assert (G : forall st' p, s_log st' = s_log st -> kcap p <= kcap (s_pc st) -> kpot (DU st' (du_n s) (put (du_pc s) i p)) <= kpot s).
  { intros st' p X Y. unfold kpot. cbn [du_st du_n du_pc]. rewrite X. pose proof (ksum_put (du_n s) (du_pc s) i p) as T.
    apply Nat.ltb_lt in Hi. rewrite Hi in T. lia. }
  destruct ev; try destruct O; injection S as <-; apply G; try reflexivity.
  unfold kcap. destruct k; lia.
Qed.
Lemma kpot_exec l : forall s s', Forall own_task l -> LInv c ord s -> du_exec e s l = Some s' -> kpot s' <= kpot s.
Proof using All.
  induction l as [|x l IH]; intros s s' F I X; cbn [du_exec] in X.
  - injection X as <-. lia.
  - inversion F; subst. destruct (du_step e s x) as [s1|] eqn:E; [|discriminate X].
    destruct (LInv_step e c ord Oo Fk s x s1) as (I1 & _ & _); auto.
    pose proof (kpot_step s x s1 H1 I E). specialize (IH s1 s' H2 I1 X). lia.
Qed.
End Count.

Lemma several_kinds e st n c ord l s k :
  du_exec e (du_begin st) (DuStart n c ord :: l) = Some s -> Forall own_task l -> s_pc st = Idle ->
  kcount k (s_log (du_st s)) <= kcount k (s_log st) + n * most c k.
Proof.
  intros X F P. cbn [du_exec du_step du_begin du_st all_idle du_n seq forallb] in X. unfold start in X. stp.
  destruct (negb (ord_ok ord (sources c)) || existsb is_fother (all_commands e c ord)) eqn:E1; [discriminate X|].
  apply orb_false_iff in E1 as [E1 _]. apply negb_false_iff in E1.
  destruct (forallb is_fok (all_commands e c ord)) eqn:E2; stp.
  - assert (I : LInv c ord (DU (ST (s_disk st) (if contains_pch c then PcPch else PcObj) c ord (user_of c) (stored (s_disk st)) ts_default false true (s_log st)) n
        (fun i => if Nat.ltb i n then (if contains_pch c then PcPch else PcObj) else Idle))).
    { split; [split; [reflexivity|split; [reflexivity|apply like_user]]|]. cbn [du_pc du_n]. split; intros i.
      - destruct (Nat.ltb i n); [destruct (contains_pch c) eqn:Ec|]; (split; [try (intros []); auto|discriminate]).
      - intros H. apply Nat.ltb_ge in H. rewrite H. reflexivity. }
    pose proof (kpot_exec e c ord k E1 E2 l _ _ F I X) as T. unfold kpot in T. cbn [du_n du_pc du_st] in T. stp.
    pose proof (ksum_bound c k n (fun i => if Nat.ltb i n then (if contains_pch c then PcPch else PcObj) else Idle) (most c k)) as Q.
    assert (Q' : ksum c k n (fun i => if Nat.ltb i n then (if contains_pch c then PcPch else PcObj) else Idle) <= n * most c k).
    { apply Q. intros i. apply kcap_start. destruct (Nat.ltb i n); [destruct (contains_pch c)|]; auto. }
    lia.
  - assert (A : all_ended (DU (with_ok (with_pc st Idle) false) n (fun i => if Nat.ltb i n then Idle else Idle))).
    { intros i. cbn [du_pc]. destruct (Nat.ltb i n); reflexivity. }
    destruct l as [|x l]; cbn [du_exec] in X.
    + injection X as <-. cbn [du_st]. stp. lia.
    + exfalso. inversion F; subst. destruct x as [m c' ord'|i ev]; [contradiction|]. cbn [du_step] in X. rewrite (A i) in X.
      cbn [own_task] in H1. destruct ev; try contradiction; cbn [step with_pc with_ok s_pc du_st] in X; discriminate X.
Qed.

Theorem several_count e st n c ord l s :
  du_exec e (du_begin st) (DuStart n c ord :: l) = Some s -> Forall own_task l -> s_pc st = Idle ->
  pch_runs (s_log (du_st s)) <= pch_runs (s_log st) + n /\ link_runs (s_log (du_st s)) <= link_runs (s_log st) + n /\
  forall p, source_runs p (s_log (du_st s)) <= source_runs p (s_log st) + n * times_in p (sources c).
Proof.
  intros X F P. split; [|split].
  - pose proof (several_kinds e st n c ord l s KPch X F P) as H. unfold most in H. rewrite Nat.mul_1_r in H. exact H.
  - pose proof (several_kinds e st n c ord l s KLink X F P) as H. unfold most in H. rewrite Nat.mul_1_r in H. exact H.
  - intros p. exact (several_kinds e st n c ord l s (KObj p) X F P).
Qed.
