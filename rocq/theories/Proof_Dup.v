(** Build() called several times: what is not current yet, some chain is going to
    make. *)
From Verif Require Import Prelude Proof_Prelude Model_Path Model_Json Model_Schema Proof_Schema Model_Command Spec_Command
  Model_ToolchainConfig Model_Target Spec_Target Proof_TargetBase Proof_TargetInv Proof_TargetRun
  Proof_TargetStep Proof_TargetStep2 Proof_TargetMain Spec_Two Proof_Two Model_Dup Spec_Dup.

Definition put (pcs : nat -> pcount) (j : nat) (p : pcount) : nat -> pcount := fun k => if Nat.eqb k j then p else pcs k.
Lemma put_same pcs j p : put pcs j p j = p.
Proof. unfold put. rewrite Nat.eqb_refl. reflexivity. Qed.
Lemma put_cases pcs j p i : (i = j /\ put pcs j p i = p) \/ (i <> j /\ put pcs j p i = pcs i).
Proof. unfold put. destruct (Nat.eqb_spec i j); [left|right]; auto. Qed.
Lemma wk (W : pcount -> Prop) pcs j p (F F' : Prop) :
  (F \/ exists i, W (pcs i)) -> (F -> F' \/ W p) -> (W (pcs j) -> F' \/ W p) -> F' \/ exists i, W (put pcs j p i).
Proof.
  assert (J : W p -> exists i, W (put pcs j p i)) by (intros H; exists j; rewrite put_same; exact H).
  intros [H|(i & H)] A B; [destruct (A H) as [K|K]; auto|].
  destruct (put_cases pcs j p i) as [[-> E]|[N E]]; [destruct (B H) as [K|K]; auto|]. right. exists i. rewrite E. exact H.
Qed.
Lemma wj (W : pcount -> Prop) pcs j p : W p -> exists i, W (put pcs j p i).
Proof. intros H. exists j. rewrite put_same. exact H. Qed.

Definition early (p : pcount) : Prop := match p with PcPch | PcPchExec | PcObj => True | _ => False end.
Definition willP (p : pcount) : Prop := match p with PcPch | PcPchExec => True | _ => False end.
Definition willO (q : string) (p : pcount) : Prop :=
  match p with PcPch | PcPchExec | PcObj => True | PcCompile l => In q (il_paths l) | _ => False end.
Definition willK (p : pcount) : Prop := match p with PcPch | PcPchExec | PcObj | PcCompile _ => True | _ => False end.
Definition willL (p : pcount) : Prop := match p with PcPch | PcPchExec | PcObj | PcCompile _ | PcLinkExec => True | _ => False end.

Lemma obj_pre_pchs (m : times) (u u' : tschema) (b : bool) : obj_pre m u = (u', b) -> ts_pchs u' = ts_pchs u.
Proof.
  unfold obj_pre. destruct (hash_all m (ts_sources u)) as [l b1]. destruct b1; [|intros [= <- _]; reflexivity].
  tsp. destruct (hash_all m (ts_headers u)) as [k b2]. destruct b2; [|intros [= <- _]; reflexivity].
  tsp. destruct (hash_all m (ts_compile_deps u)) as [k3 b3]. intros [= <- _]. reflexivity.
Qed.
Lemma link_keeps (m : times) (u u' : tschema) (b : bool) : link_pre m u = (u', b) ->
  ts_headers u' = ts_headers u /\ ts_compile_deps u' = ts_compile_deps u /\ ts_pchs u' = ts_pchs u.
Proof.
  unfold link_pre. destruct (hash_all m (ts_libs u)) as [l b1]. destruct b1; [|intros [= <- _]; tsp; auto].
  tsp. destruct (hash_all m (ts_link_deps u)) as [k b2]. intros [= <- _]. tsp. auto.
Qed.
Lemma adds_fields (dum : infolist) : forall b,
  ts_pchs (fold_left add_source dum b) = ts_pchs b /\ ts_pch_compiled (fold_left add_source dum b) = ts_pch_compiled b /\
  ts_target_linked (fold_left add_source dum b) = ts_target_linked b /\
  ts_sources (fold_left add_source dum b) = ts_sources b ++ map (fun i => PI (to_path_string (pi_path i)) (pi_hash i)) dum.
Proof.
  induction dum as [|i dum IH]; intros b; cbn [fold_left map]; [rewrite app_nil_r; auto|].
  destruct (IH (add_source b i)) as (A & B & C & D). rewrite A, B, C, D. tsp. unfold il_emplace. rewrite <- app_assoc. auto.
Qed.

Section Dup.
Context (rg : regime) (e : tenv) (h : hist) (d0 : disk) (c : cfg) (log0 : list xcmd) (n : nat).
Hypothesis Perm : permitted e h c.
Hypothesis Ex : forall f, In f (tracked c) -> d_mt d0 f <> None.
Hypothesis Safe : forall s, stored d0 = Some s -> SafeS rg e h d0 s.
Notation mt := (d_mt d0).
Notation s0 := (stored d0).
Let NDO : NoDup (map (obj_of e) (sources c)) := proj1 Perm.
Let NDS : NoDup (sources c) := nodup_sources e c NDO.
Let Rr : R rg h mt mt := R_refl rg h mt.

Definition AC : Prop := exists s, s0 = Some s /\ allclean s c mt.
Definition CP : Prop := pchs c <> [] -> exists s, s0 = Some s /\ pchclean s c mt.
Definition COS : Prop := exists s, s0 = Some s /\ (pchs c <> [] -> pchclean s c mt) /\ objclean s c mt /\ srcclean s c mt.
Definition cleanpc (i : nat) (p : pcount) : Prop :=
  match p with
  | PcPch => True
  | PcPchExec | PcLinkExec => False
  | PcObj => CP
  | PcCompile l => l = [] /\ COS
  | PcEnd => AC
  | Idle => i < n -> AC
  end.

Lemma CP_cur : CP -> pchs c <> [] -> pch_current e c mt d0.
Proof using All. intros H P. destruct (H P) as (s & E & K). exact (proj1 (Safe s E c Perm) mt Rr P K). Qed.
Lemma COS_cur : COS -> (pchs c <> [] -> pch_current e c mt d0) /\ (forall q, In q (sources c) -> obj_current e c mt d0 q).
Proof using All.
  intros (s & E & A & B & C). destruct (Safe s E c Perm) as (S1 & S2 & _). split.
  - intros P. exact (S1 mt Rr P (A P)).
  - intros q Hq. exact (S2 mt mt Rr Rr A B q Hq (proj1 C q Hq)).
Qed.

Record NInv (s : dup) : Prop := {
  n_cfg : s_cfg (du_st s) = c;
  n_load : s_load (du_st s) = s0;
  n_mt : d_mt (s_disk (du_st s)) = mt;
  n_runs : runs e c (s_ord (du_st s));
  n_like : like c (s_user (du_st s));
  n_haspch : forall i, willP (du_pc s i) -> contains_pch c = true;
  n_pend : forall i l x, du_pc s i = PcCompile l -> In x l -> In (pi_path x) (sources c) /\ hashed mt (pi_path x) (pi_hash x);
  n_quiet : AC -> s_dirty (du_st s) = false;
  n_clean : s_dirty (du_st s) = false -> s_disk (du_st s) = d0 /\ s_log (du_st s) = log0 /\ forall i, cleanpc i (du_pc s i);
  n_p : s_dirty (du_st s) = true -> pchs c <> [] -> pch_current e c mt (s_disk (du_st s)) \/ exists i, willP (du_pc s i);
  n_o : s_dirty (du_st s) = true -> forall q, In q (sources c) -> obj_current e c mt (s_disk (du_st s)) q \/ exists i, willO q (du_pc s i);
  n_t : s_dirty (du_st s) = true -> tgt_current e c mt (s_disk (du_st s)) \/ exists i, willL (du_pc s i);
  n_bx : forall x, In x (ts_sources (s_buf (du_st s))) -> In (pi_path x) (sources c) /\ hashed mt (pi_path x) (pi_hash x);
  n_by : forall q, In q (sources c) -> In q (il_paths (ts_sources (s_buf (du_st s)))) \/ exists i, willO q (du_pc s i);
  n_bz : pchs c <> [] -> (Hashed mt (pchs c) (ts_pchs (s_buf (du_st s))) /\ ts_pch_compiled (s_buf (du_st s)) = true) \/ exists i, willP (du_pc s i);
  n_bl : s_dirty (du_st s) = true -> ts_target_linked (s_buf (du_st s)) = true \/ exists i, willL (du_pc s i);
  n_up : forall i, du_pc s i = PcPchExec -> Hashed mt (pchs c) (ts_pchs (s_user (du_st s)));
  n_ua : (Hashed mt (headers c) (ts_headers (s_user (du_st s))) /\ Hashed mt (compile_deps c) (ts_compile_deps (s_user (du_st s)))) \/
         exists i, early (du_pc s i);
  n_ub : (Hashed mt (libs c) (ts_libs (s_user (du_st s))) /\ Hashed mt (link_deps c) (ts_link_deps (s_user (du_st s)))) \/
         exists i, willK (du_pc s i);
  n_st : s_dirty (du_st s) = true -> (forall i, du_pc s i = Idle) -> exists t, stored (s_disk (du_st s)) = Some t /\ allclean t c mt }.

Lemma ex_incl l : incl l (tracked c) -> forall p, In p l -> mt p <> None.
Proof using Ex. intros H p Hp. exact (Ex p (H p Hp)). Qed.

Ltac other j := let k := fresh "k" in intros k;
  match goal with |- context [put ?pcs j ?p k] => destruct (put_cases pcs j p k) as [[-> ->]|[? ->]] end.
Ltac ww := apply wj; cbn; auto.

Lemma step_pch_check s i : NInv s -> s_ok (du_st s) = true -> du_pc s i = PcPch ->
  let st := pch_check (with_pc (du_st s) PcPch) in NInv (DU st (du_n s) (put (du_pc s) i (s_pc st))).
Proof using All.
  intros [] O P st. subst st. unfold pch_check. stp. rewrite O. cbn [negb]. rewrite n_mt0.
  assert (Hc : contains_pch c = true) by (apply (n_haspch0 i); rewrite P; exact Logic.I).
  destruct (pch_pre mt (s_user (du_st s))) as [u b] eqn:E. destruct (pch_pre_like mt c _ _ _ n_like0 E) as (L & H & Hb).
  assert (b = true) as ->. { apply Hb. apply ex_incl. intros p. unfold tracked. rewrite !in_app_iff. tauto. }
  destruct (H eq_refl) as (H1 & H2). clear H Hb. cbn [negb]. stp. rewrite n_load0.
  destruct (s_dirty (du_st s) || _) eqn:D.
  - constructor; cbn [du_st du_pc du_n]; stp; try assumption.
    + other i; auto.
    + other i; [discriminate|apply n_pend0].
    + intros A. exfalso. pose proof (n_quiet0 A) as Q. rewrite Q in D. destruct A as (s1 & Es & (A & _)). rewrite Es in D. cbn [orb] in D.
      apply negb_true_iff in D. apply contains_pch_iff in Hc. apply (pch_same_iff _ _ _ _ L H1 H2) in A; [|exact Hc]. congruence.
    + discriminate.
    + intros; right; ww.
    + intros; right; ww.
    + intros; right; ww.
    + intros; right; ww.
    + intros; right; ww.
    + intros; right; ww.
    + intros _ _. exact H2.
    + right; ww.
    + right; ww.
    + intros _ K. specialize (K i). rewrite put_same in K. discriminate K.
  - apply orb_false_iff in D as [D1 D2]. assert (exists s1, s0 = Some s1 /\ pch_same s1 u = true) as (s1 & Es & D3).
    { destruct s0 as [s1|]; [|discriminate D2]. apply negb_false_iff in D2. exists s1. auto. }
    clear D2. rename D3 into D2.
    apply (pch_same_iff _ _ _ _ L H1 H2) in D2. destruct (n_clean0 D1) as (C1 & C2 & C3).
    constructor; cbn [du_st du_pc du_n]; stp; try assumption.
    + other i; [intros []|apply n_haspch0].
    + other i; [discriminate|apply n_pend0].
    + intros _. split; [exact C1|]. split; [exact C2|]. other i; [|apply C3]. cbn [cleanpc]. intros _. exists s1. auto.
    + congruence.
    + congruence.
    + congruence.
    + intros; right; ww.
    + intros _. left. tsp. split; [exact H2|reflexivity].
    + congruence.
    + intros _ _. exact H2.
    + right; ww.
    + right; ww.
    + congruence.
Qed.

Lemma step_pch_exec s i st : NInv s -> s_ok (du_st s) = true -> du_pc s i = PcPchExec ->
  pch_exec e (with_pc (du_st s) PcPchExec) XOk = Some st -> NInv (DU st (du_n s) (put (du_pc s) i (s_pc st))).
Proof using All.
  intros [] O P S. unfold pch_exec in S. cbn [with_pc s_cfg] in S. rewrite n_cfg0 in S.
  assert (Hc : contains_pch c = true) by (apply (n_haspch0 i); rewrite P; exact Logic.I).
  destruct (runs_cmd e h d0 c Perm Ex (A := pch_art) _ _ XOk n_runs0 (pch_in e h d0 c Perm Ex (s_ord (du_st s)) Hc)) as (cmd & Ec & Er). rewrite Ec, Er in S. injection S as <-. stp.
  rewrite n_mt0, (like_pchs _ _ n_like0).
  assert (D : s_dirty (du_st s) = true).
  { destruct (s_dirty (du_st s)) eqn:D; [reflexivity|]. destruct (n_clean0 eq_refl) as (_ & _ & K). specialize (K i). rewrite P in K. destruct K. }
  constructor; cbn [du_st du_pc du_n]; stp; try assumption.
  - other i; auto.
  - other i; [discriminate|apply n_pend0].
  - congruence.
  - intros _ _. left. eexists. cbn. split; [reflexivity|]. split; [reflexivity|]. cbn. split; [exact Ec|]. split; reflexivity.
  - intros; right; ww.
  - intros; right; ww.
  - intros; right; ww.
  - intros _. left. tsp. split; [exact (n_up0 i P)|reflexivity].
  - intros; right; ww.
  - other i; [discriminate|apply n_up0].
  - right; ww.
  - right; ww.
  - intros _ K. specialize (K i). rewrite put_same in K. discriminate K.
Qed.

Lemma step_obj_check s i : NInv s -> s_ok (du_st s) = true -> du_pc s i = PcObj ->
  let st := obj_check (with_pc (du_st s) PcObj) in NInv (DU st (du_n s) (put (du_pc s) i (s_pc st))).
Proof using All.
  intros [] O P st. subst st. unfold obj_check. stp. rewrite O. cbn [negb]. rewrite n_mt0.
  destruct (obj_pre mt (s_user (du_st s))) as [u b] eqn:E. destruct (obj_pre_like mt c _ _ _ n_like0 E) as (L & H & Hb).
  assert (b = true) as ->. { apply Hb. apply ex_incl. intros p. unfold tracked. rewrite !in_app_iff. tauto. }
  destruct (H eq_refl) as (H1 & H2 & H3). clear H Hb. cbn [negb]. stp. rewrite n_load0. pose proof (obj_pre_pchs _ _ _ _ E) as EP.
  pose proof (like_sources _ _ L) as LS.
  (* what the PCH is when this stage begins *)
  assert (PP : pchs c <> [] -> pch_current e c mt (s_disk (du_st s)) \/ exists j, willP (put (du_pc s) i (PcCompile []) j)).
  { intros Q. destruct (s_dirty (du_st s)) eqn:D.
    - apply (wk willP (du_pc s) i (PcCompile []) _ _ (n_p0 eq_refl Q)); [auto|]. rewrite P. intros [].
    - destruct (n_clean0 eq_refl) as (C1 & _ & C3). specialize (C3 i). rewrite P in C3. rewrite C1. left. exact (CP_cur C3 Q). }
  assert (PL : forall l, pchs c <> [] -> pch_current e c mt (s_disk (du_st s)) \/ exists j, willP (put (du_pc s) i (PcCompile l) j)).
  { intros l Q. destruct (PP Q) as [K|(j & K)]; [left; exact K|]. destruct (put_cases (du_pc s) i (PcCompile []) j) as [[-> X]|[N X]]; rewrite X in K; [destruct K|].
    right. exists j. destruct (put_cases (du_pc s) i (PcCompile l) j) as [[-> Y]|[_ ->]]; [congruence|exact K]. }
  assert (BZ : forall l, pchs c <> [] -> (Hashed mt (pchs c) (ts_pchs (s_buf (du_st s))) /\ ts_pch_compiled (s_buf (du_st s)) = true) \/
     exists j, willP (put (du_pc s) i (PcCompile l) j)).
  { intros l Q. apply (wk willP (du_pc s) i (PcCompile l) _ _ (n_bz0 Q)); [auto|]. rewrite P. intros []. }
  destruct (match s0 with None => true | Some l => s_dirty (du_st s) || negb (obj_same l u) end) eqn:D.
  - constructor; cbn [du_st du_pc du_n fold_left]; stp; try assumption.
    + other i; [intros []|apply n_haspch0].
    + other i; [|apply n_pend0]. intros l x [= <-] Hx. split; [rewrite <- LS; apply in_map; exact Hx|exact (Hashed_In _ _ _ _ H1 Hx)].
    + intros A. exfalso. pose proof (n_quiet0 A) as Q. rewrite Q in D. destruct A as (s1 & Es & (_ & A & _)). rewrite Es in D. cbn [orb] in D.
      apply negb_true_iff in D. apply (obj_same_iff _ _ _ _ L H2 H3) in A. congruence.
    + discriminate.
    + intros _. apply PL.
    + intros _ q Hq. right. apply wj. cbn [willO]. rewrite LS. exact Hq.
    + intros; right; ww.
    + intros q Hq. right. apply wj. cbn [willO]. rewrite LS. exact Hq.
    + apply BZ.
    + intros; right; ww.
    + other i; [discriminate|]. rewrite EP. apply n_up0.
    + left. auto.
    + right; ww.
    + intros _ K. specialize (K i). rewrite put_same in K. discriminate K.
  - assert (exists s1, s0 = Some s1 /\ s_dirty (du_st s) = false /\ obj_same s1 u = true) as (s1 & Es & D1 & D2).
    { destruct s0 as [s1|]; [|discriminate D]. apply orb_false_iff in D as [D1 D2]. apply negb_false_iff in D2. exists s1. auto. }
    rewrite Es. apply (obj_same_iff _ _ _ _ L H2 H3) in D2.
    destruct (n_clean0 D1) as (C1 & C2 & C3). pose proof (C3 i) as Ci. rewrite P in Ci. cbn [cleanpc] in Ci.
    assert (Ci' : pchs c <> [] -> pchclean s1 c mt). { intros Q. destruct (Ci Q) as (s2 & E2 & K). congruence. }
    destruct (recompile_sources (ts_sources s1) (ts_sources u)) as [[sel dum] ch] eqn:R.
    assert (ND' : NoDup (il_paths (ts_sources u))) by (rewrite LS; exact NDS).
    destruct (recompile_sources_spec _ _ _ _ _ ND' R) as (Sel & Dum & Ch & Pm).
    destruct (adds_fields dum (s_buf (du_st s))) as (F1 & F2 & F3 & F4).
    assert (NP : forall x, In x (ts_sources u) -> to_path_string (pi_path x) = pi_path x).
    { intros x Hx. assert (N1 : nlist (ts_sources u)) by (apply (nlist_like (sources c)); [exact LS|apply sources_npath]).
      unfold nlist in N1. rewrite Forall_forall in N1. exact (N1 x Hx). }
    assert (Split : forall q, In q (sources c) -> In q (il_paths sel) \/ exists x, In x dum /\ pi_path x = q).
    { intros q Hq. rewrite <- LS in Hq. unfold il_paths in Hq. apply in_map_iff in Hq as (x & <- & Hx). rewrite Pm, in_app_iff in Hx.
      destruct Hx as [Hx|Hx]; [left; apply in_map; exact Hx|right; exists x; auto]. }
    assert (DumIn : forall x, In x dum -> In x (ts_sources u)) by (intros x Hx; exact (proj1 (proj1 (Dum x) Hx))).
    constructor; cbn [du_st du_pc du_n]; stp; try assumption.
    + other i; [intros []|apply n_haspch0].
    + other i; [|apply n_pend0]. intros l x [= <-] Hx. apply Sel in Hx as [Hx _]. split; [rewrite <- LS; apply in_map; exact Hx|exact (Hashed_In _ _ _ _ H1 Hx)].
    + intros (s2 & E2 & (_ & _ & A & _)). assert (s2 = s1) as -> by congruence. apply Ch. split.
      * destruct sel as [|x sel]; [reflexivity|]. exfalso. destruct (proj1 (Sel x) (or_introl eq_refl)) as [X1 X2].
        destruct (proj1 A (pi_path x)) as (hh & K1 & K2); [rewrite <- LS; apply in_map; exact X1|]. apply X2. rewrite K1.
        rewrite (hashed_fun _ _ _ _ K2 (Hashed_In _ _ _ _ H1 X1)). reflexivity.
      * intros p Hp. rewrite LS. exact (proj2 A p Hp).
    + intros ->. split; [exact C1|]. split; [exact C2|]. other i; [|apply C3]. cbn [cleanpc]. destruct (proj1 Ch eq_refl) as [-> K].
      split; [reflexivity|]. exists s1. split; [exact Es|]. split; [exact Ci'|]. split; [exact D2|]. split.
      * intros q Hq. destruct (Split q Hq) as [[]|(x & Hx & <-)]. exists (pi_hash x). split; [exact (proj2 (proj1 (Dum x) Hx))|].
        exact (Hashed_In _ _ _ _ H1 (DumIn x Hx)).
      * intros p Hp. rewrite <- LS. exact (K p Hp).
    + intros _. apply PL.
    + intros _ q Hq. destruct (Split q Hq) as [K|(x & Hx & <-)]; [right; apply wj; exact K|left]. rewrite C1.
      destruct (Safe s1 Es c Perm) as (_ & S2 & _). apply (S2 mt mt Rr Rr Ci' D2 _ Hq). exists (pi_hash x).
      split; [exact (proj2 (proj1 (Dum x) Hx))|exact (Hashed_In _ _ _ _ H1 (DumIn x Hx))].
    + intros; right; ww.
    + intros x. rewrite F4, in_app_iff, in_map_iff. intros [Hx|(y & <- & Hy)]; [exact (n_bx0 x Hx)|]. cbn [pi_path pi_hash].
      rewrite (NP y (DumIn y Hy)). split; [rewrite <- LS; apply in_map; exact (DumIn y Hy)|exact (Hashed_In _ _ _ _ H1 (DumIn y Hy))].
    + intros q Hq. destruct (Split q Hq) as [K|(x & Hx & <-)]; [right; apply wj; exact K|left]. rewrite F4. unfold il_paths. rewrite map_app, in_app_iff. right.
      rewrite map_map. cbn [pi_path]. rewrite <- (NP x (DumIn x Hx)). apply (in_map (fun z => to_path_string (pi_path z)) dum x Hx).
    + intros Q. rewrite F1, F2. exact (BZ sel Q).
    + intros; right; ww.
    + other i; [discriminate|]. rewrite EP. apply n_up0.
    + left. auto.
    + right; ww.
    + intros _ K. specialize (K i). rewrite put_same in K. discriminate K.
Qed.

Lemma step_compile s i l q st : NInv s -> s_ok (du_st s) = true -> du_pc s i = PcCompile l ->
  compile_one e (with_pc (du_st s) (PcCompile l)) q l XOk = Some st -> NInv (DU st (du_n s) (put (du_pc s) i (s_pc st))).
Proof using All.
  intros [] O P S. unfold compile_one in S. cbn [with_pc s_cfg] in S. rewrite n_cfg0 in S.
  destruct (take_pending q l) as [[x rest]|] eqn:Et; [|discriminate S]. destruct (take_pending_spec _ _ _ _ Et) as (Hx & Pm).
  assert (Hl : In x l) by (rewrite Pm; left; reflexivity). destruct (n_pend0 i l x P Hl) as [Hq Hh]. rewrite Hx in Hq.
  destruct (runs_cmd e h d0 c Perm Ex (A := obj_art) _ _ XOk n_runs0 (in_commands e h d0 c Perm Ex (s_ord (du_st s)) q
     (Permutation_in q (Permutation_sym (proj1 n_runs0)) Hq))) as (cmd & Ec & Er). rewrite Ec, Er in S. injection S as <-. stp.
  assert (D : s_dirty (du_st s) = true).
  { destruct (s_dirty (du_st s)) eqn:D; [reflexivity|]. destruct (n_clean0 eq_refl) as (_ & _ & K). specialize (K i). rewrite P in K.
    destruct K as [-> _]. destruct Hl. }
  assert (NP : to_path_string q = q). { pose proof (sources_npath c) as Np. rewrite Forall_forall in Np. exact (Np q Hq). }
  constructor; cbn [du_st du_pc du_n]; stp; try assumption.
  - other i; [intros []|apply n_haspch0].
  - other i; [|apply n_pend0]. intros l' y [= <-] Hy. apply (n_pend0 i l y P). rewrite Pm. right. exact Hy.
  - congruence.
  - intros _ Q. apply (wk willP (du_pc s) i (PcCompile rest) _ _ (n_p0 D Q)); [auto|]. rewrite P. intros [].
  - intros _ q' Hq'. destruct (string_dec q' q) as [->|Ne].
    + left. eexists. cbn. rewrite !upd_same. split; [reflexivity|]. split; [reflexivity|]. cbn. split; [exact Ec|]. split; [intros f _; rewrite n_mt0; reflexivity|reflexivity].
    + apply (wk (willO q') (du_pc s) i (PcCompile rest) _ _ (n_o0 D q' Hq')).
      * intros (a & A1 & A2 & A3). left. exists a. cbn.
        assert (Nq : obj_of e q' <> obj_of e q) by (intros X; apply Ne; exact (NoDup_map_inj (obj_of e) (sources c) q' q NDO Hq' Hq X)).
        rewrite !upd_other by exact Nq. split; [exact A1|]. split; [exact A2|exact A3].
      * rewrite P. cbn [willO]. intros K. right. unfold il_paths in *. apply in_map_iff in K as (y & <- & Hy). rewrite Pm in Hy.
        destruct Hy as [<-|Hy]; [congruence|]. apply in_map. exact Hy.
  - intros; right; ww.
  - intros y. tsp. unfold il_emplace. rewrite in_app_iff. cbn [In]. intros [K|[<-|[]]]; [exact (n_bx0 y K)|]. cbn [pi_path pi_hash]. rewrite Hx in *. rewrite NP. auto.
  - intros q' Hq'. tsp. unfold il_emplace, il_paths. rewrite map_app, in_app_iff. cbn [map In pi_path]. rewrite Hx, NP.
    destruct (string_dec q' q) as [->|Ne]; [left; auto|].
    apply (wk (willO q') (du_pc s) i (PcCompile rest) _ _ (n_by0 q' Hq')); [auto|].
    rewrite P. cbn [willO]. intros K. right. unfold il_paths in *. apply in_map_iff in K as (y & <- & Hy). rewrite Pm in Hy.
    destruct Hy as [<-|Hy]; [congruence|]. apply in_map. exact Hy.
  - intros Q. apply (wk willP (du_pc s) i (PcCompile rest) _ _ (n_bz0 Q)); [auto|]. rewrite P. intros [].
  - intros; right; ww.
  - other i; [discriminate|]. apply n_up0.
  - apply (wk early (du_pc s) i (PcCompile rest) _ _ n_ua0); [auto|]. rewrite P. intros [].
  - right; ww.
  - intros _ K. specialize (K i). rewrite put_same in K. discriminate K.
Qed.

Lemma step_link_check s i : NInv s -> s_ok (du_st s) = true -> du_pc s i = PcCompile [] ->
  let st := link_check (with_pc (du_st s) (PcCompile [])) in NInv (DU st (du_n s) (put (du_pc s) i (s_pc st))).
Proof using All.
  intros [] O P st. subst st. unfold link_check. stp. rewrite O. cbn [negb]. rewrite n_mt0.
  destruct (link_pre mt (s_user (du_st s))) as [u b] eqn:E. destruct (link_pre_like mt c _ _ _ n_like0 E) as (L & H & Hb).
  assert (b = true) as ->. { apply Hb. apply ex_incl. intros p. unfold tracked. rewrite !in_app_iff. tauto. }
  destruct (H eq_refl) as (H1 & H2). clear H Hb. cbn [negb]. stp. rewrite n_load0. destruct (link_keeps _ _ _ _ E) as (K1 & K2 & K3).
  destruct (match s0 with None => true | Some l => s_dirty (du_st s) || negb (link_same l u) end) eqn:D.
  - constructor; cbn [du_st du_pc du_n]; stp; try assumption.
    + other i; [intros []|apply n_haspch0].
    + other i; [discriminate|apply n_pend0].
    + intros A. exfalso. pose proof (n_quiet0 A) as Q. rewrite Q in D. destruct A as (s1 & Es & (_ & _ & _ & A)). rewrite Es in D. cbn [orb] in D.
      apply negb_true_iff in D. apply (link_same_iff _ _ _ _ L H1 H2) in A. congruence.
    + discriminate.
    + intros _ Q. destruct (s_dirty (du_st s)) eqn:Dd.
      * apply (wk willP (du_pc s) i PcLinkExec _ _ (n_p0 eq_refl Q)); [auto|]. rewrite P. intros [].
      * destruct (n_clean0 eq_refl) as (C1 & _ & C3). specialize (C3 i). rewrite P in C3. rewrite C1. left. exact (proj1 (COS_cur (proj2 C3)) Q).
    + intros _ q Hq. destruct (s_dirty (du_st s)) eqn:Dd.
      * apply (wk (willO q) (du_pc s) i PcLinkExec _ _ (n_o0 eq_refl q Hq)); [auto|]. rewrite P. intros [].
      * destruct (n_clean0 eq_refl) as (C1 & _ & C3). specialize (C3 i). rewrite P in C3. rewrite C1. left. exact (proj2 (COS_cur (proj2 C3)) q Hq).
    + intros; right; ww.
    + intros q Hq. apply (wk (willO q) (du_pc s) i PcLinkExec _ _ (n_by0 q Hq)); [auto|]. rewrite P. intros [].
    + intros Q. apply (wk willP (du_pc s) i PcLinkExec _ _ (n_bz0 Q)); [auto|]. rewrite P. intros [].
    + intros; right; ww.
    + other i; [discriminate|]. rewrite K3. apply n_up0.
    + rewrite K1, K2. apply (wk early (du_pc s) i PcLinkExec _ _ n_ua0); [auto|]. rewrite P. intros [].
    + left. auto.
    + intros _ K. specialize (K i). rewrite put_same in K. discriminate K.
  - assert (exists s1, s0 = Some s1 /\ s_dirty (du_st s) = false /\ link_same s1 u = true) as (s1 & Es & D1 & D2).
    { destruct s0 as [s1|]; [|discriminate D]. apply orb_false_iff in D as [D1 D2]. apply negb_false_iff in D2. exists s1. auto. }
    apply (link_same_iff _ _ _ _ L H1 H2) in D2.
    destruct (n_clean0 D1) as (C1 & C2 & C3).
    constructor; cbn [du_st du_pc du_n]; stp; try assumption; try discriminate.
    + other i; [intros []|apply n_haspch0].
    + other i; [discriminate|apply n_pend0].
    + reflexivity.
    + intros _. split; [exact C1|]. split; [exact C2|]. other i; [|apply C3]. cbn [cleanpc]. specialize (C3 i). rewrite P in C3.
      destruct C3 as (_ & s2 & E2 & A1 & A2 & A3). assert (s2 = s1) as -> by congruence. exists s1. split; [exact Es|]. split; [exact A1|]. auto.
    + intros q Hq. apply (wk (willO q) (du_pc s) i PcEnd _ _ (n_by0 q Hq)); [auto|]. rewrite P. intros [].
    + intros Q. apply (wk willP (du_pc s) i PcEnd _ _ (n_bz0 Q)); [auto|]. rewrite P. intros [].
    + other i; [discriminate|]. rewrite K3. apply n_up0.
    + rewrite K1, K2. apply (wk early (du_pc s) i PcEnd _ _ n_ua0); [auto|]. rewrite P. intros [].
    + left. auto.
Qed.

Lemma step_link_exec s i st : NInv s -> s_ok (du_st s) = true -> du_pc s i = PcLinkExec ->
  link_exec e (with_pc (du_st s) PcLinkExec) XOk = Some st -> NInv (DU st (du_n s) (put (du_pc s) i (s_pc st))).
Proof using All.
  intros [] O P S. unfold link_exec in S. cbn [with_pc s_cfg s_ord] in S. rewrite n_cfg0 in S.
  destruct (runs_cmd e h d0 c Perm Ex (A := tgt_art) _ _ XOk n_runs0 (link_in e h d0 c Perm Ex (s_ord (du_st s)))) as (cmd & Ec & Er). rewrite Ec, Er in S. injection S as <-. stp.
  assert (D : s_dirty (du_st s) = true).
  { destruct (s_dirty (du_st s)) eqn:D; [reflexivity|]. destruct (n_clean0 eq_refl) as (_ & _ & K). specialize (K i). rewrite P in K. destruct K. }
  constructor; cbn [du_st du_pc du_n]; stp; try assumption.
  - other i; [intros []|apply n_haspch0].
  - other i; [discriminate|apply n_pend0].
  - congruence.
  - intros _ Q. apply (wk willP (du_pc s) i PcEnd _ _ (n_p0 D Q)); [auto|]. rewrite P. intros [].
  - intros _ q Hq. apply (wk (willO q) (du_pc s) i PcEnd _ _ (n_o0 D q Hq)); [auto|]. rewrite P. intros [].
  - intros _. left. eexists _, (s_ord (du_st s)). cbn. split; [reflexivity|]. split; [reflexivity|]. split; [exact (proj1 n_runs0)|]. split; [exact Ec|].
    split; [intros f _; cbn; rewrite n_mt0; reflexivity|reflexivity].
  - intros q Hq. apply (wk (willO q) (du_pc s) i PcEnd _ _ (n_by0 q Hq)); [auto|]. rewrite P. intros [].
  - intros Q. apply (wk willP (du_pc s) i PcEnd _ _ (n_bz0 Q)); [auto|]. rewrite P. intros [].
  - intros _. left. reflexivity.
  - other i; [discriminate|]. apply n_up0.
  - apply (wk early (du_pc s) i PcEnd _ _ n_ua0); [auto|]. rewrite P. intros [].
  - apply (wk willK (du_pc s) i PcEnd _ _ n_ub0); [auto|]. rewrite P. intros [].
  - intros _ K. specialize (K i). rewrite put_same in K. discriminate K.
Qed.

Lemma not_idle s : (forall i, du_pc s i = Idle) -> forall W : pcount -> Prop, ~ W Idle -> ~ exists i, W (du_pc s i).
Proof. intros A W N (i & K). rewrite A in K. exact (N K). Qed.

Lemma step_end s i w st : NInv s -> s_ok (du_st s) = true -> du_pc s i = PcEnd ->
  end_task (with_pc (du_st s) PcEnd) w = Some st -> w = WOk \/ w = WKeep ->
  s_ok st = true -> NInv (DU (with_dirty st (s_dirty (du_st s))) (du_n s) (put (du_pc s) i Idle)).
Proof using All.
  intros [] O P S Hw O'. unfold end_task in S. stp. destruct (s_dirty (du_st s)) eqn:D.
  - destruct (store_text (update_store (s_buf (du_st s)) (s_user (du_st s)))) as [t|] eqn:Et; [|destruct Hw as [-> | ->]; [|discriminate S]; injection S as <-; stp; discriminate O'].
    destruct Hw as [-> | ->]; injection S as <-; [|stp; discriminate O'].
    constructor; cbn [du_st du_pc du_n]; stp; cbn [set_store d_mt d_obj d_pch d_tgt d_store]; try assumption.
    + other i; [intros []|apply n_haspch0].
    + other i; [discriminate|apply n_pend0].
    + discriminate.
    + intros _ Q. apply (wk willP (du_pc s) i Idle _ _ (n_p0 eq_refl Q)); [auto|]. rewrite P. intros [].
    + intros _ q Hq. apply (wk (willO q) (du_pc s) i Idle _ _ (n_o0 eq_refl q Hq)); [auto|]. rewrite P. intros [].
    + intros _. apply (wk willL (du_pc s) i Idle _ _ (n_t0 eq_refl)); [auto|]. rewrite P. intros [].
    + intros q Hq. tsp. apply (wk (willO q) (du_pc s) i Idle _ _ (n_by0 q Hq)); [auto|]. rewrite P. intros [].
    + intros Q. tsp. apply (wk willP (du_pc s) i Idle _ _ (n_bz0 Q)); [auto|]. rewrite P. intros [].
    + intros _. tsp. apply (wk willL (du_pc s) i Idle _ _ (n_bl0 eq_refl)); [auto|]. rewrite P. intros [].
    + other i; [discriminate|apply n_up0].
    + apply (wk early (du_pc s) i Idle _ _ n_ua0); [auto|]. rewrite P. intros [].
    + apply (wk willK (du_pc s) i Idle _ _ n_ub0); [auto|]. rewrite P. intros [].
    + intros _ K. exists (update_store (s_buf (du_st s)) (s_user (du_st s))). split; [unfold stored; cbn; exact (target_text_rt _ _ Et)|].
      assert (NW : forall W : pcount -> Prop, ~ W Idle -> ~ W PcEnd -> ~ exists j, W (du_pc s j)).
      { intros W N1 N2 (j & X). specialize (K j). destruct (put_cases (du_pc s) i Idle j) as [[-> Y]|[_ Y]]; rewrite Y in K; [rewrite P in X; exact (N2 X)|rewrite K in X; exact (N1 X)]. }
      assert (BY : forall q, In q (sources c) -> In q (il_paths (ts_sources (s_buf (du_st s))))).
      { intros q Hq. destruct (n_by0 q Hq) as [X|X]; [exact X|]. destruct (NW (willO q)) with (3 := X); intros []. }
      destruct n_ua0 as [[UA1 UA2]|X]; [|destruct (NW early) with (3 := X); intros []].
      destruct n_ub0 as [[UB1 UB2]|X]; [|destruct (NW willK) with (3 := X); intros []].
      destruct (n_bl0 eq_refl) as [BL|X]; [|destruct (NW willL) with (3 := X); intros []].
      assert (BZ : pchs c <> [] -> Hashed mt (pchs c) (ts_pchs (s_buf (du_st s))) /\ ts_pch_compiled (s_buf (du_st s)) = true).
      { intros Q. destruct (n_bz0 Q) as [X|X]; [exact X|]. destruct (NW willP) with (3 := X); intros []. }
      destruct (like_flags c _ n_like0) as (F1 & F2 & F3 & F4 & F5 & F6 & F7 & F8 & F9 & F10 & F11).
      split; [|split; [|split]].
      * intros Q. destruct (BZ Q). constructor; tsp; auto.
      * constructor; tsp; auto.
      * split; tsp.
        -- intros q Hq. destruct (lookup_Some _ _ (BY q Hq)) as (hh & X). exists hh. split; [exact X|]. apply lookup_In in X. exact (proj2 (n_bx0 _ X)).
        -- intros q Hq. unfold il_paths in Hq. apply in_map_iff in Hq as (x & <- & Hx). exact (proj1 (n_bx0 x Hx)).
      * constructor; tsp; auto.
  - destruct Hw as [-> | ->]; [|discriminate S]. injection S as <-. destruct (n_clean0 eq_refl) as (C1 & C2 & C3).
    constructor; cbn [du_st du_pc du_n]; stp; try assumption; try discriminate.
    + other i; [intros []|apply n_haspch0].
    + other i; [discriminate|apply n_pend0].
    + intros _. split; [exact C1|]. split; [exact C2|]. other i; [|apply C3]. intros _. specialize (C3 i). rewrite P in C3. exact C3.
    + intros q Hq. apply (wk (willO q) (du_pc s) i Idle _ _ (n_by0 q Hq)); [auto|]. rewrite P. intros [].
    + intros Q. apply (wk willP (du_pc s) i Idle _ _ (n_bz0 Q)); [auto|]. rewrite P. intros [].
    + other i; [discriminate|apply n_up0].
    + apply (wk early (du_pc s) i Idle _ _ n_ua0); [auto|]. rewrite P. intros [].
    + apply (wk willK (du_pc s) i Idle _ _ n_ub0); [auto|]. rewrite P. intros [].
Qed.
End Dup.
