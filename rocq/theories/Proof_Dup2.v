(** Build() called several times: the invariant over a whole run, and what follows. *)
From Verif Require Import Prelude Proof_Prelude Model_Path Model_Json Model_Schema Proof_Schema Model_Command Spec_Command
  Model_ToolchainConfig Model_Target Spec_Target Proof_TargetBase Proof_TargetInv Proof_TargetRun
  Proof_TargetStep Proof_TargetStep2 Proof_TargetMain Spec_Two Proof_Two Model_Two Proof_TwoMain Model_Dup Spec_Dup Proof_Dup.

Lemma ok_stays e st i ev st' : smooth (DuTask i ev) -> step e st ev = Some st' -> s_ok st' = true -> s_ok st = true.
Proof.
  destruct ev as [f t| | | |o| | |c' ord| |r| |q r| |r|w|n]; cbn [smooth]; intros H; try contradiction; cbn [step].
  - destruct (s_pc st); try discriminate. intros [= <-]. unfold pch_check. destruct (s_ok st) eqn:O; [reflexivity|]. cbn [negb]. stp. congruence.
  - subst r. destruct (s_pc st); try discriminate. unfold pch_exec. destruct (pch_command e (s_cfg st)); try discriminate.
    intros [= <-]. destruct (run_res s XOk); stp; auto; discriminate.
  - destruct (s_pc st); try discriminate. intros [= <-]. unfold obj_check. destruct (s_ok st) eqn:O; [reflexivity|]. cbn [negb]. stp. congruence.
  - subst r. destruct (s_pc st); try discriminate. unfold compile_one. destruct (take_pending q pending) as [[x rest]|]; [|discriminate].
    destruct (compile_command e (s_cfg st) q); try discriminate.
    intros [= <-]. destruct (run_res s XOk); stp; auto; discriminate.
  - destruct (s_pc st) as [| | | |[|]| |]; try discriminate. intros [= <-]. unfold link_check. destruct (s_ok st) eqn:O; [reflexivity|]. cbn [negb]. stp. congruence.
  - subst r. destruct (s_pc st); try discriminate. unfold link_exec. destruct (link_command e (s_cfg st) (s_ord st)); try discriminate.
    intros [= <-]. destruct (run_res s XOk); stp; auto; discriminate.
  - destruct (s_pc st); try discriminate. unfold end_task. destruct (s_dirty st).
    + destruct (store_text _); destruct H as [-> | ->]; try discriminate; intros [= <-]; stp; auto; discriminate.
    + destruct H as [-> | ->]; try discriminate. intros [= <-]. stp. auto.
Qed.

Section Dup.
Context (rg : regime) (e : tenv) (h : hist) (d0 : disk) (c : cfg) (log0 : list xcmd) (n : nat).
Hypothesis Perm : permitted e h c.
Hypothesis Ex : forall f, In f (tracked c) -> d_mt d0 f <> None.
Hypothesis Safe : forall s, stored d0 = Some s -> SafeS rg e h d0 s.
Notation NInv := (NInv e d0 c log0 n).

Lemma du_task s i ev s' : smooth (DuTask i ev) -> (s_ok (du_st s) = true -> NInv s) -> du_step e s (DuTask i ev) = Some s' ->
  s_ok (du_st s') = true -> NInv s'.
Proof using All.
  intros Sm I S O'. cbn [du_step] in S. destruct (step e (with_pc (du_st s) (du_pc s i)) ev) as [st|] eqn:E; [|discriminate S].
  assert (O : s_ok (du_st s) = true).
  { assert (K : s_ok st = true).
    { destruct ev; cbn [smooth] in Sm; try contradiction; injection S as <-; cbn [du_st] in O'; stp; exact O'. }
    pose proof (ok_stays _ _ _ _ _ Sm E K) as X. stp. exact X. }
  specialize (I O).
  destruct ev as [f t| | | |o| | |c' ord| |r| |q r| |r|w|m]; cbn [smooth] in Sm; try contradiction; injection S as <-;
    cbn [step with_pc s_pc] in E; destruct (du_pc s i) eqn:P; try discriminate E.
  - injection E as <-. exact (step_pch_check rg e h d0 c log0 n Perm Ex Safe s i I O P).
  - subst r. exact (step_pch_exec rg e h d0 c log0 n Perm Ex Safe s i st I O P E).
  - injection E as <-. exact (step_obj_check rg e h d0 c log0 n Perm Ex Safe s i I O P).
  - subst r. exact (step_compile rg e h d0 c log0 n Perm Ex Safe s i pending q st I O P E).
  - destruct pending; [|discriminate E]. injection E as <-. exact (step_link_check rg e h d0 c log0 n Perm Ex Safe s i I O P).
  - subst r. exact (step_link_exec rg e h d0 c log0 n Perm Ex Safe s i st I O P E).
  - cbn [du_st] in O'. stp. exact (step_end rg e h d0 c log0 n Perm Ex Safe s i w st I O P E Sm O').
Qed.

Lemma du_tasks l : forall s s', Forall smooth l -> (s_ok (du_st s) = true -> NInv s) -> du_exec e s l = Some s' ->
  s_ok (du_st s') = true -> NInv s'.
Proof using All.
  induction l as [|x l IH]; intros s s' F I S; cbn [du_exec] in S.
  - injection S as <-. exact I.
  - inversion F as [|? ? F1 F2]; subst. destruct (du_step e s x) as [s1|] eqn:E; [|discriminate S].
    destruct x as [m c' ord|i ev]; [destruct F1|]. apply (IH s1 s' F2); [|exact S]. exact (du_task s i ev s1 F1 I E).
Qed.

Lemma du_started st ord s : s_disk st = d0 -> s_log st = log0 -> ~ In (FOk "") (all_commands e c ord) -> n <> 0 ->
  du_step e (du_begin st) (DuStart n c ord) = Some s -> s_pc st = Idle ->
  (s_ok (du_st s) = true /\ NInv s) \/ s_ok (du_st s) = false.
Proof using All.
  intros Ed El Hn N S _. cbn [du_step du_begin du_st du_n du_pc all_idle seq forallb] in S. unfold start in S. stp.
  destruct (negb (ord_ok ord (sources c)) || existsb is_fother (all_commands e c ord)) eqn:E1; [discriminate S|].
  apply orb_false_iff in E1 as [E1 _]. apply negb_false_iff in E1.
  destruct (forallb is_fok (all_commands e c ord)) eqn:E2; injection S as <-; cbn [du_st]; stp; [left|right; reflexivity].
  split; [reflexivity|].
  assert (First : forall i, i < n -> (if Nat.ltb i n then (if contains_pch c then PcPch else PcObj) else Idle) = (if contains_pch c then PcPch else PcObj)).
  { intros i Hi. apply Nat.ltb_lt in Hi. rewrite Hi. reflexivity. }
  assert (Z : 0 < n) by (destruct n; [congruence|apply Nat.lt_0_succ]).
  assert (NP : pchs c <> [] -> contains_pch c = true) by apply contains_pch_iff.
  constructor; cbn [du_st du_pc du_n s_pc]; stp; rewrite ?Ed; try reflexivity; try discriminate.
  - split; [exact (ord_ok_perm _ _ (nodup_sources e c (proj1 Perm)) E1)|]. split; [exact E2|exact Hn].
  - apply like_user.
  - intros i. destruct (Nat.ltb i n); [destruct (contains_pch c); [auto|intros []]|intros []].
  - intros i l x. destruct (Nat.ltb i n); [destruct (contains_pch c); discriminate|discriminate].
  - intros _. split; [reflexivity|]. split; [exact El|]. intros i. destruct (Nat.ltb_spec i n) as [Hi|Hi].
    + destruct (contains_pch c) eqn:Ec; cbn [cleanpc]; [exact Logic.I|]. intros Q. apply NP in Q. congruence.
    + cbn [cleanpc]. intros K. exfalso. apply (Nat.lt_irrefl i). exact (Nat.lt_le_trans _ _ _ K Hi).
  - intros x [].
  - intros q _. right. exists 0. rewrite (First 0 Z). destruct (contains_pch c); exact Logic.I.
  - intros Q. right. exists 0. rewrite (First 0 Z), (NP Q). exact Logic.I.
  - intros i. destruct (Nat.ltb i n); [destruct (contains_pch c); discriminate|discriminate].
  - right. exists 0. rewrite (First 0 Z). destruct (contains_pch c); exact Logic.I.
  - right. exists 0. rewrite (First 0 Z). destruct (contains_pch c); exact Logic.I.
Qed.

Lemma du_final s : NInv s -> n <> 0 -> all_ended s ->
  (all_current e c (s_disk (du_st s)) /\ exists t, stored (s_disk (du_st s)) = Some t /\ allclean t c (d_mt d0)) /\
  (AC d0 c -> s_disk (du_st s) = d0 /\ s_log (du_st s) = log0).
Proof using All.
  intros [] N A.
  assert (NW : forall W : pcount -> Prop, ~ W Idle -> ~ exists j, W (du_pc s j)).
  { intros W N1 (j & X). rewrite (A j) in X. exact (N1 X). }
  assert (Z : 0 < n) by (destruct n; [congruence|apply Nat.lt_0_succ]).
  split.
  - destruct (s_dirty (du_st s)) eqn:D.
    + split; [|exact (n_st eq_refl A)]. split; [|split]; rewrite ?n_mt.
      * intros Q. destruct (n_p eq_refl Q) as [X|X]; [exact X|]. destruct (NW willP) with (2 := X); intros [].
      * intros q Hq. destruct (n_o eq_refl q Hq) as [X|X]; [exact X|]. destruct (NW (willO q)) with (2 := X); intros [].
      * destruct (n_t eq_refl) as [X|X]; [exact X|]. destruct (NW willL) with (2 := X); intros [].
    + destruct (n_clean eq_refl) as (C1 & _ & C3). specialize (C3 0). rewrite (A 0) in C3. destruct (C3 Z) as (t & T1 & T2).
      rewrite C1. split; [|exists t; auto]. exact (allclean_current rg e h d0 t c Perm (Safe t T1) T2).
  - intros K. destruct (n_clean (n_quiet K)) as (C1 & C2 & _). auto.
Qed.
End Dup.

Theorem several_builds rg e d0 evs h st c n ord l s :
  templates_ok e -> history rg e d0 evs h st -> s_pc st = Idle -> permitted e h c ->
  (forall f, In f (tracked c) -> d_mt (s_disk st) f <> None) ->
  n <> 0 -> ~ In (FOk "") (all_commands e c ord) -> Forall smooth l ->
  du_exec e (du_begin st) (DuStart n c ord :: l) = Some s -> all_ended s -> s_ok (du_st s) = true ->
  all_current e c (s_disk (du_st s)) /\
  (forall ord2, ord_ok ord2 (sources c) = true -> forallb is_fok (all_commands e c ord2) = true ->
     exists st2, exec e (with_pc (du_st s) Idle) (idle_run c ord2) = Some st2 /\ s_ok st2 = true /\
       s_disk st2 = s_disk (du_st s) /\ s_log st2 = s_log (du_st s)).
Proof.
  intros T H P Pm Ex N Hn F X A O. cbn [du_exec] in X.
  destruct (du_step e (du_begin st) (DuStart n c ord)) as [s1|] eqn:E; [|discriminate X].
  pose proof (idle_safe rg e d0 evs h st T H P) as Sf.
  assert (I : NInv e (s_disk st) c (s_log st) n s).
  { apply (du_tasks rg e h (s_disk st) c (s_log st) n Pm Ex Sf l s1 s F); [|exact X|exact O].
    intros O1. destruct (du_started rg e h (s_disk st) c (s_log st) n Pm Ex Sf st ord s1 eq_refl eq_refl Hn N E P) as [[_ K]|K]; [exact K|congruence]. }
  destruct (du_final rg e h (s_disk st) c (s_log st) n Pm Ex Sf s I N A) as ((B1 & t & B2 & B3) & _).
  split; [exact B1|]. intros ord2 Oo Fk. rewrite <- (n_mt _ _ _ _ _ _ I) in B3.
  destruct (idle_from e c t (with_pc (du_st s) Idle) ord2 (nodup_sources e c (proj1 Pm)) eq_refl B2 B3 Oo Fk) as (st2 & Y1 & Y2 & _ & Y4 & Y5).
  exists st2. auto.
Qed.

(** After a successful build no chain executes anything. *)
Theorem several_idle rg e d0 evs h st n ord l s :
  templates_ok e -> history rg e d0 (evs ++ [EvEnd WOk]) h st -> s_ok st = true -> h_edited h = false ->
  permitted e h (s_cfg st) -> (forall f, In f (tracked (s_cfg st)) -> d_mt (s_disk st) f <> None) ->
  n <> 0 -> ~ In (FOk "") (all_commands e (s_cfg st) ord) -> Forall smooth l ->
  du_exec e (du_begin st) (DuStart n (s_cfg st) ord :: l) = Some s -> all_ended s -> s_ok (du_st s) = true ->
  s_disk (du_st s) = s_disk st /\ s_log (du_st s) = s_log st.
Proof.
  intros T H O0 Ed Pm Ex N Hn F X A O. cbn [du_exec] in X.
  destruct (stored_after_end rg e d0 evs h st T H O0 Ed) as (t & S1 & S2).
  assert (P : s_pc st = Idle).
  { pose proof H as K. apply history_snoc_inv in K as (h1 & st1 & H1 & _ & S & _).
    destruct (Proof_TargetMain.step_end _ _ _ _ S) as (P1 & P2 & P3 & P4 & P5 & _ & P6 & P7). assumption. }
  destruct (du_step e (du_begin st) (DuStart n (s_cfg st) ord)) as [s1|] eqn:E; [|discriminate X].
  pose proof (idle_safe rg e d0 _ h st T H P) as Sf.
  assert (I : NInv e (s_disk st) (s_cfg st) (s_log st) n s).
  { apply (du_tasks rg e h (s_disk st) (s_cfg st) (s_log st) n Pm Ex Sf l s1 s F); [|exact X|exact O].
    intros O1. destruct (du_started rg e h (s_disk st) (s_cfg st) (s_log st) n Pm Ex Sf st ord s1 eq_refl eq_refl Hn N E P) as [[_ K]|K]; [exact K|congruence]. }
  apply (du_final rg e h (s_disk st) (s_cfg st) (s_log st) n Pm Ex Sf s I N A). exists t. auto.
Qed.
