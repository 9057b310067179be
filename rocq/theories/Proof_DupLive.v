(** Build() called several times: the run comes to its end. *)
From Coq Require Import Lia.
From Verif Require Import Prelude Proof_Prelude Model_Path Model_Json Model_Schema Proof_Schema Model_Command Spec_Command
  Model_ToolchainConfig Model_Target Spec_Target Proof_TargetBase Proof_TargetInv Proof_TargetRun
  Proof_TargetStep Proof_TargetStep2 Proof_TargetMain Proof_TargetLive Model_Dup Spec_Dup Proof_Dup.

Lemma recompile_sub (cur : infolist) : forall prev sel dum ch, recompile_loop prev cur = (sel, dum, ch) -> incl sel cur.
Proof.
  induction cur as [|i cur IH]; intros prev sel dum ch; cbn [recompile_loop].
  - intros [= <- _ _]. intros x [].
  - destruct (assoc (pi_path i) prev) as [hh|].
    + destruct (recompile_loop _ cur) as [[a b] c] eqn:E. specialize (IH _ _ _ _ E).
      destruct (String.eqb hh (pi_hash i)); intros [= <- _ _] y Hy; [right; exact (IH y Hy)|].
      destruct Hy as [<-|Hy]; [left; reflexivity|right; exact (IH y Hy)].
    + destruct (recompile_loop _ cur) as [[a b] c] eqn:E. specialize (IH _ _ _ _ E). intros [= <- _ _] y Hy.
      destruct Hy as [<-|Hy]; [left; reflexivity|right; exact (IH y Hy)].
Qed.

Section Live.
Context (e : tenv) (c : cfg) (ord : list string).
Hypothesis Oo : ord_ok ord (sources c) = true.
Hypothesis Fk : forallb is_fok (all_commands e c ord) = true.

Definition pcok (p : pcount) : Prop :=
  (willP p -> contains_pch c = true) /\ (forall l x, p = PcCompile l -> In x l -> In (pi_path x) (sources c)).
Definition stlike (st : tstate) : Prop := s_cfg st = c /\ s_ord st = ord /\ like c (s_user st).

Lemma own_keeps st ev st' : own ev -> step e st ev = Some st' -> stlike st -> pcok (s_pc st) -> stlike st' /\ pcok (s_pc st').
Proof using All.
  intros O S (L1 & L2 & L3) (P1 & P2).
  assert (Q : forall p, match p with PcObj | PcLinkExec | PcEnd | Idle => True | _ => False end -> pcok p).
  { intros p Hp. split; [destruct p; intros K; try destruct K; destruct Hp|intros l x ->; destruct Hp]. }
  assert (Qn : pcok (PcCompile [])) by (split; [intros []|intros l x [= <-] []]).
  unfold stlike. destruct ev; try destruct O; cbn [step] in S.
  - destruct (s_pc st) eqn:E; try discriminate. injection S as <-. unfold pch_check. destruct (negb (s_ok st)); [stp; auto|].
    destruct (pch_pre _ _) as [u b] eqn:Ep. destruct (pch_pre_like _ c _ _ _ L3 Ep) as (L & _). destruct (negb b); [stp; auto|].
    destruct (_ || _); stp; auto. split; auto. split; [intros _; apply P1; exact Logic.I|discriminate].
  - destruct (s_pc st) eqn:E; try discriminate. unfold pch_exec in S.
    destruct (pch_command _ _); try discriminate. injection S as <-. destruct (run_res _ _); stp; auto.
  - destruct (s_pc st) eqn:E; try discriminate. injection S as <-. unfold obj_check. destruct (negb (s_ok st)); [stp; auto|].
    destruct (obj_pre _ _) as [u b] eqn:Ep. destruct (obj_pre_like _ c _ _ _ L3 Ep) as (L & _). destruct (negb b); [stp; auto|]. stp.
    assert (Hs : forall x, In x (ts_sources u) -> In (pi_path x) (sources c)) by (intros x Hx; rewrite <- (like_sources _ _ L); apply in_map; exact Hx).
    destruct (match s_load st with None => true | Some l => s_dirty st || negb (obj_same l u) end).
    { stp. split; auto. split; [intros []|intros l x [= <-]; apply Hs]. }
    destruct (s_load st) as [t|]; [|stp; auto]. destruct (recompile_sources _ _) as [[x y] z] eqn:Er.
    apply recompile_sub in Er. stp. split; auto. split; [intros []|intros l x' [= <-] Hx; apply Hs, Er, Hx].
  - destruct (s_pc st) eqn:E; try discriminate. unfold compile_one in S.
    destruct (take_pending _ _) as [[i r']|] eqn:Tk; [|discriminate]. destruct (take_pending_spec _ _ _ _ Tk) as [_ Pm].
    destruct (compile_command _ _ _); try discriminate. injection S as <-.
    assert (K : pcok (PcCompile r')).
    { split; [intros []|]. intros l x [= <-] Hx. apply (P2 pending x eq_refl). rewrite Pm. right. exact Hx. }
    destruct (run_res _ _); stp; auto.
  - destruct (s_pc st) as [| | | |[|? ?]| |] eqn:E; try discriminate. injection S as <-.
    unfold link_check. destruct (negb (s_ok st)); [stp; auto|]. destruct (link_pre _ _) as [u b] eqn:Ep.
    destruct (link_pre_like _ c _ _ _ L3 Ep) as (L & _).
    destruct (negb b); [stp; auto|]. stp. destruct (match s_load _ with None => true | _ => _ end); stp; auto.
  - destruct (s_pc st) eqn:E; try discriminate. unfold link_exec in S.
    destruct (link_command _ _ _); try discriminate. injection S as <-. destruct (run_res _ _); stp; auto.
  - destruct (s_pc st) eqn:E; try discriminate. unfold end_task in S. destruct (s_dirty st).
    + destruct (store_text _); destruct w as [| |m rep]; try discriminate S; try (injection S as <-; stp; auto; fail).
      destruct (short _ _); [|discriminate S]. destruct rep; injection S as <-; stp; auto.
    + destruct w; try discriminate S. injection S as <-. stp. auto.
Qed.

Lemma can_step st : stlike st -> pcok (s_pc st) -> s_pc st <> Idle -> exists ev st', good ev /\ step e st ev = Some st'.
Proof using All.
  intros (L1 & L2 & L3) (P1 & P2) P.
  assert (C : forall r, In r (all_commands e c ord) -> exists cmd, r = FOk cmd).
  { intros r Hr. rewrite forallb_forall in Fk. specialize (Fk r Hr). destruct r as [cmd| |]; [eauto|discriminate..]. }
  unfold all_commands in C.
  destruct (s_pc st) as [| | | |[|i pend]| |] eqn:E.
  - congruence.
  - exists EvPchCheck. eexists. cbn [step good]. rewrite E. split; [exact Logic.I|reflexivity].
  - destruct (C (pch_command e c)) as (cmd & K); [rewrite (P1 Logic.I); left; reflexivity|].
    exists (EvPchExec XOk). eexists. cbn [step good]. rewrite E. unfold pch_exec. rewrite L1, K. split; [exact Logic.I|reflexivity].
  - exists EvObjCheck. eexists. cbn [step good]. rewrite E. split; [exact Logic.I|reflexivity].
  - exists EvLinkCheck. eexists. cbn [step good]. rewrite E. split; [exact Logic.I|reflexivity].
  - destruct (C (compile_command e c (pi_path i))) as (cmd & K).
    { apply in_app_iff. right. apply in_app_iff. left. apply in_map. unfold ord_ok in Oo. apply andb_true_iff in Oo as [_ K].
      rewrite forallb_forall in K. apply mem_str_In. apply K. apply (P2 _ i eq_refl). left. reflexivity. }
    exists (EvCompile (pi_path i) XOk). eexists. cbn [step good]. rewrite E. unfold compile_one.
    rewrite take_pending_head, L1, K. split; [exact Logic.I|reflexivity].
  - destruct (C (link_command e c ord)) as (cmd & K); [apply in_app_iff; right; apply in_app_iff; right; left; reflexivity|].
    exists (EvLinkExec XOk). eexists. cbn [step good]. rewrite E. unfold link_exec. rewrite L1, L2, K. split; [exact Logic.I|reflexivity].
  - exists (EvEnd WOk). cbn [step good]. rewrite E. unfold end_task. destruct (s_dirty st); [|eexists; split; [exact Logic.I|reflexivity]].
    destruct (store_text _); eexists; (split; [exact Logic.I|reflexivity]).
Qed.

(** ** All chains *)
Definition LInv (s : dup) : Prop :=
  stlike (du_st s) /\ (forall i, pcok (du_pc s i)) /\ forall i, du_n s <= i -> du_pc s i = Idle.

Definition weight (p : pcount) : nat := left_to_do (ST (DK (fun _ => None) None (fun _ => None) None None false (fun _ => false) false) p c ord (user_of c) None ts_default false true []).
Lemma weight_is st : stlike st -> left_to_do st = weight (s_pc st).
Proof using.
  intros (_ & _ & L). unfold weight, left_to_do. stp. pose proof (like_sources _ _ L) as A. pose proof (like_sources _ _ (like_user c)) as B.
  apply (f_equal (@length string)) in A, B. unfold il_paths in A, B. rewrite map_length in A, B. rewrite A, B. reflexivity.
Qed.
Fixpoint total (n : nat) (pcs : nat -> pcount) : nat := match n with 0 => 0 | S k => total k pcs + weight (pcs k) end.
Lemma total_put n : forall pcs i p, total n (put pcs i p) + (if Nat.ltb i n then weight (pcs i) else 0) = total n pcs + (if Nat.ltb i n then weight p else 0).
Proof using e.
  induction n as [|n IH]; intros pcs i p; [reflexivity|]. cbn [total]. specialize (IH pcs i p).
  destruct (put_cases pcs i p n) as [[-> E]|[N E]]; rewrite E.
  - rewrite Nat.ltb_irrefl in IH. assert (K : Nat.ltb i (S i) = true) by (apply Nat.ltb_lt; lia). rewrite K. lia.
  - destruct (Nat.ltb_spec i n); destruct (Nat.ltb_spec i (S n)); try lia.
Qed.
Lemma total_bound n pcs k : (forall i, weight (pcs i) <= k) -> total n pcs <= n * k.
Proof using e. intros H. induction n as [|n IH]; cbn [total]; [lia|]. specialize (H n). lia. Qed.

Lemma with_pc_like st p : stlike st -> stlike (with_pc st p).
Proof using. intros H. exact H. Qed.
Lemma LInv_step s x s' : own_task x -> LInv s -> du_step e s x = Some s' -> LInv s' /\ du_n s' = du_n s /\ total (du_n s') (du_pc s') < total (du_n s) (du_pc s).
Proof using All.
  intros O (A & B & C) S. destruct x as [n c' ord'|i ev]; [destruct O|]. cbn [own_task] in O. cbn [du_step] in S.
  destruct (step e (with_pc (du_st s) (du_pc s i)) ev) as [st|] eqn:E; [|discriminate S].
  assert (Hp : pcok (s_pc (with_pc (du_st s) (du_pc s i)))) by (stp; apply B).
  destruct (own_keeps _ _ _ O E (with_pc_like _ _ A) Hp) as (A' & B').
  pose proof (own_decreases _ _ _ _ E O) as D. rewrite (weight_is _ A'), (weight_is _ (with_pc_like _ _ A)) in D. stp.
  assert (NI : du_pc s i <> Idle).
  { intros K. rewrite K in E. destruct ev; try destruct O; cbn [step with_pc s_pc] in E; discriminate E. }
  assert (Hi : i < du_n s) by (destruct (Nat.lt_ge_cases i (du_n s)) as [H|H]; [exact H|destruct (NI (C i H))]).
  assert (G : forall st' p, stlike st' -> pcok p -> weight p < weight (du_pc s i) -> LInv (DU st' (du_n s) (put (du_pc s) i p)) /\
     du_n (DU st' (du_n s) (put (du_pc s) i p)) = du_n s /\ total (du_n s) (put (du_pc s) i p) < total (du_n s) (du_pc s)).
  { intros st' p X Y Z. split; [|split; [reflexivity|]].
    - split; [exact X|]. cbn [du_n du_pc]. split; intros j; destruct (put_cases (du_pc s) i p j) as [[-> ->]|[_ ->]]; auto. lia.
    - pose proof (total_put (du_n s) (du_pc s) i p) as T. apply Nat.ltb_lt in Hi. rewrite Hi in T. lia. }
  destruct ev; try destruct O; try (injection S as <-; apply G; assumption).
  injection S as <-. cbn [step with_pc s_pc] in E. destruct (du_pc s i) eqn:Ep; try discriminate E.
  destruct (G (with_dirty st (s_dirty (du_st s))) Idle) as (G1 & G2 & G3); [destruct A' as (X & Y & Z); split; [exact X|split; [exact Y|exact Z]]| | |].
  - split; [intros []|discriminate].
  - cbn. lia.
  - split; [exact G1|]. split; [reflexivity|exact G3].
Qed.
Lemma LInv_exec l : forall s s', Forall own_task l -> LInv s -> du_exec e s l = Some s' ->
  LInv s' /\ du_n s' = du_n s /\ length l + total (du_n s') (du_pc s') <= total (du_n s) (du_pc s).
Proof using All.
  induction l as [|x l IH]; intros s s' F I X; cbn [du_exec] in X.
  - injection X as <-. split; [exact I|]. split; [reflexivity|]. cbn [length]. lia.
  - inversion F; subst. destruct (du_step e s x) as [s1|] eqn:E; [|discriminate X].
    destruct (LInv_step s x s1) as (I1 & N1 & T1); auto. destruct (IH s1 s') as (I2 & N2 & T2); auto.
    split; [exact I2|]. split; [congruence|]. cbn [length]. lia.
Qed.
Lemma LInv_on s : LInv s -> all_ended s \/ exists i ev s', good ev /\ du_step e s (DuTask i ev) = Some s'.
Proof using All.
  intros (A & B & C). destruct (all_idle s) eqn:I.
  - left. intros i. destruct (Nat.lt_ge_cases i (du_n s)) as [H|H]; [|exact (C i H)]. unfold all_idle in I. rewrite forallb_forall in I.
    specialize (I i). rewrite in_seq in I. specialize (I (conj (Nat.le_0_l i) H)). destruct (du_pc s i); [reflexivity|discriminate I..].
  - right. assert (exists i, du_pc s i <> Idle) as (i & Hi).
    { unfold all_idle in I. induction (seq 0 (du_n s)) as [|j k IH]; cbn [forallb] in I; [discriminate I|].
      apply andb_false_iff in I as [I|I]; [exists j; intros K; rewrite K in I; discriminate I|exact (IH I)]. }
    destruct (can_step (with_pc (du_st s) (du_pc s i))) as (ev & st' & G & S); [exact A|stp; apply B|stp; exact Hi|].
    exists i, ev. cbn [du_step]. rewrite S. destruct ev; try destruct G; eexists; (split; [assumption || exact Logic.I|reflexivity]).
Qed.
End Live.

Theorem several_end e st n c ord l s :
  du_exec e (du_begin st) (DuStart n c ord :: l) = Some s -> Forall own_task l -> s_pc st = Idle ->
  length l <= n * (length (sources c) + 6) /\ (all_ended s \/ exists i ev s', good ev /\ du_step e s (DuTask i ev) = Some s').
Proof.
  intros X F P. cbn [du_exec du_step du_begin du_st all_idle du_n seq forallb] in X. unfold start in X. stp.
  destruct (negb (ord_ok ord (sources c)) || existsb is_fother (all_commands e c ord)) eqn:E1; [discriminate X|].
  apply orb_false_iff in E1 as [E1 _]. apply negb_false_iff in E1.
  destruct (forallb is_fok (all_commands e c ord)) eqn:E2; stp.
  - assert (I : LInv c ord (DU (ST (s_disk st) (if contains_pch c then PcPch else PcObj) c ord (user_of c) (stored (s_disk st)) ts_default false true (s_log st)) n
        (fun i => if Nat.ltb i n then (if contains_pch c then PcPch else PcObj) else Idle))).
    { split; [split; [reflexivity|split; [reflexivity|apply like_user]]|]. cbn [du_pc du_n]. split; intros i.
      - destruct (Nat.ltb i n); [destruct (contains_pch c) eqn:Ec|]; (split; [try (intros []); auto|discriminate]).
      - intros H. apply Nat.ltb_ge in H. rewrite H. reflexivity. }
    destruct (LInv_exec e c ord E1 E2 l _ _ F I X) as (I' & N & T). cbn [du_n du_pc] in N, T. split; [|exact (LInv_on e c ord E1 E2 s I')].
    eapply Nat.le_trans; [|apply (total_bound e c ord n (fun i => if Nat.ltb i n then (if contains_pch c then PcPch else PcObj) else Idle))]; [lia|].
    intros i. unfold weight, left_to_do. stp. pose proof (like_sources _ _ (like_user c)) as B. apply (f_equal (@length string)) in B.
    unfold il_paths in B. rewrite map_length in B. destruct (Nat.ltb i n); [destruct (contains_pch c)|]; lia.
  - assert (A : all_ended (DU (with_ok (with_pc st Idle) false) n (fun i => if Nat.ltb i n then Idle else Idle))).
    { intros i. cbn [du_pc]. destruct (Nat.ltb i n); reflexivity. }
    destruct l as [|x l]; cbn [du_exec] in X.
    + injection X as <-. split; [cbn [length]; lia|left; exact A].
    + exfalso. inversion F; subst. destruct x as [m c' ord'|i ev]; [contradiction|]. cbn [du_step] in X. rewrite (A i) in X.
      cbn [own_task] in H1. destruct ev; try contradiction; cbn [step with_pc with_ok s_pc du_st] in X; discriminate X.
Qed.
