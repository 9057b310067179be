(** Careful processes leave a state file that later processes can rely on. *)
From Verif Require Import Prelude Proof_Prelude Model_Path Model_Json Model_Schema Proof_Dec Proof_Schema Model_Command Spec_Command
  Model_ToolchainConfig Model_Target Spec_Target Proof_TargetBase Proof_TargetInv Proof_TargetRun
  Proof_TargetStep Proof_TargetStep2 Proof_TargetMain Model_Again Spec_Again Proof_Again Proof_Again2 Proof_Again3 Proof_Again4
  Proof_Again5.

Lemma contains_pch_nil (c : cfg) : contains_pch c = true <-> pchs c <> [].
Proof. apply contains_pch_iff. Qed.

(** ** Small preservation lemmas *)

Lemma NoPch_step (e : tenv) (st st' : tstate) (ev : event) :
  of_run ev = true -> step e st ev = Some st' -> NoPch st -> NoPch st'.
Proof.
  intros OR H NP Y. destruct (run_keeps e _ _ _ OR H) as (C & _ & _). rewrite C in Y. destruct (NP Y) as (A & B & D).
  destruct ev; try discriminate OR; cbn [step] in H.
  1-5: injection H as <-; stp; auto.
  - destruct (s_pc st); try discriminate H. discriminate D.
  - destruct (s_pc st); try discriminate H. discriminate D.
  - destruct (s_pc st) eqn:E; try discriminate H. injection H as <-. unfold obj_check.
    destruct (negb (s_ok st)); [stp; auto|]. destruct (obj_pre _ _) as [u b]. destruct (negb b); [stp; auto|].
    match goal with |- context [if ?b then (ts_sources ?x, [], true) else ?y] => destruct (if b then (ts_sources x, [], true) else y) as [[sel dum] dd] end.
    stp. destruct (fold_add_fields dum (s_buf st)) as (A1 & A2 & _). rewrite A1, A2. auto.
  - destruct (s_pc st) eqn:E; try discriminate H. unfold compile_one in H. destruct (take_pending _ _) as [[i r']|]; [|discriminate H].
    destruct (compile_command _ _ _); try discriminate H. injection H as <-. destruct (run_res _ _); stp; tsp; auto.
  - destruct (s_pc st) as [| | | |[|? ?]| |] eqn:E; try discriminate H. injection H as <-. unfold link_check.
    destruct (negb (s_ok st)); [stp; auto|]. destruct (link_pre _ _) as [u b]. destruct (negb b); [stp; auto|].
    stp. match goal with |- context [if ?b then PcLinkExec else PcEnd] => destruct b end; auto.
  - destruct (s_pc st) eqn:E; try discriminate H. unfold link_exec in H. destruct (link_command _ _ _); try discriminate H.
    injection H as <-. destruct (run_res _ _); stp; tsp; auto.
Qed.
Lemma NoPch_end (e : tenv) (st st' : tstate) (w : wres) : step e st (EvEnd w) = Some st' -> NoPch st -> NoPch st'.
Proof.
  intros H NP. cbn [step] in H. destruct (s_pc st); try discriminate H. unfold end_task in H. unfold NoPch in *.
  destruct (s_dirty st).
  - destruct (store_text _); [destruct w as [| |n r]|destruct w; try discriminate H].
    + injection H as <-. stp. tsp. intros Y. destruct (NP Y) as (A & B & _). auto.
    + injection H as <-. stp. tsp. intros Y. destruct (NP Y) as (A & B & _). auto.
    + destruct (short _ _); [|discriminate H]. injection H as <-. destruct r; stp; tsp; intros Y; destruct (NP Y) as (A & B & _); auto.
    + injection H as <-. stp. tsp. intros Y. destruct (NP Y) as (A & B & _). auto.
  - destruct w; try discriminate H. injection H as <-. stp. intros Y. destruct (NP Y) as (A & B & _). auto.
Qed.
Lemma ok_back (e : tenv) (st st' : tstate) (ev : event) :
  of_run ev = true -> step e st ev = Some st' -> s_ok st' = true -> s_ok st = true.
Proof.
  intros OR H. destruct ev; try discriminate OR; cbn [step] in H.
  - injection H as <-. stp. auto.
  - injection H as <-. stp. discriminate.
  - injection H as <-. stp. auto.
  - injection H as <-. stp. auto.
  - injection H as <-. stp. auto.
  - destruct (s_pc st); try discriminate H. injection H as <-. unfold pch_check. destruct (s_ok st) eqn:O; [reflexivity|]. cbn [negb]. stp. congruence.
  - destruct (s_pc st); try discriminate H. unfold pch_exec in H. destruct (pch_command _ _); try discriminate H.
    injection H as <-. destruct (run_res _ _); stp; [auto|discriminate..].
  - destruct (s_pc st); try discriminate H. injection H as <-. unfold obj_check. destruct (s_ok st) eqn:O; [reflexivity|]. cbn [negb]. stp. congruence.
  - destruct (s_pc st) eqn:E; try discriminate H. unfold compile_one in H. destruct (take_pending _ _) as [[i r']|]; [|discriminate H].
    destruct (compile_command _ _ _); try discriminate H. injection H as <-. destruct (run_res _ _); stp; [auto|discriminate..].
  - destruct (s_pc st) as [| | | |[|? ?]| |] eqn:E; try discriminate H. injection H as <-. unfold link_check. destruct (s_ok st) eqn:O; [reflexivity|]. cbn [negb]. stp. congruence.
  - destruct (s_pc st); try discriminate H. unfold link_exec in H. destruct (link_command _ _ _); try discriminate H.
    injection H as <-. destruct (run_res _ _); stp; [auto|discriminate..].
Qed.
Lemma permitted_run (e : tenv) (h : hist) (st : tstate) (ev : event) :
  of_run ev = true -> permitted e h (s_cfg st) -> permitted e (track e h st ev) (s_cfg st).
Proof.
  intros OR (A & B & C & D). destruct ev; try discriminate OR; cbn [track]; split; try exact A; cbn [h_lang h_taint];
    (split; [exact B|]); (split; [exact C|]); try exact D; intros c1 K; injection K as <-; reflexivity.
Qed.
Lemma lang_run (e : tenv) (h : hist) (st : tstate) (ev : event) : of_run ev = true -> h_lang (track e h st ev) = h_lang h.
Proof. intros OR. destruct ev; try discriminate OR; reflexivity. Qed.
Lemma next_run (e : tenv) (h h1 : hist) (st sh : tstate) (ev : event) : h_next h1 = h_next h ->
  h_next (track e h1 sh ev) = h_next (track e h st ev).
Proof. intros K. destruct ev; cbn [track h_next]; try exact K. rewrite K. reflexivity. Qed.
Lemma track_same (e : tenv) (h : hist) (st sh : tstate) (ev : event) :
  of_run ev = true -> s_pc sh = s_pc st -> s_cfg sh = s_cfg st -> track e h sh ev = track e h st ev.
Proof. intros OR P C. destruct ev; try discriminate OR; cbn [track]; rewrite ?P, ?C; reflexivity. Qed.

(** ** The buffer at the end of a repeated run *)

Section End.
Context (e : tenv) (T : templates_ok e).

Lemma rep_buf (k : bool) (L L' : list xcmd) (h h1 : hist) (old : infolist) (st sh : tstate) :
  Inv Forward e h1 sh -> Sim k L L' st sh -> Ext old st sh -> FB h st -> h_next h1 = h_next h ->
  s_pc st = PcEnd -> s_ok st = true -> s_dirty st = true ->
  BufInv Forward e h (s_disk st) (s_cfg st) (s_user st) (s_buf st) /\
  Fresh Forward h (d_mt (s_disk st)) (update_store (s_buf st) (s_user st)).
Proof.
  intros I M X F Nx Pc Ok Dt. pose proof (m_mt _ _ _ _ _ M) as Mt. destruct M as [P C O K U U' D G LG].
  destruct X as [X1 X2 X3 X4 X5 X6 X7]. rewrite Pc in *. destruct (X5 eq_refl) as (Xh & Xd & Xdirty). destruct (X6 eq_refl) as (Xl & Xk).
  assert (RI : RunInv Forward e h1 sh) by (apply (i_run _ _ _ _ I); rewrite P; discriminate).
  destruct RI as [r1 r2 r3 r4 r5 r6 r7 r8 r9]. unfold Stage in r9. rewrite P in r9. destruct r9 as [sd _].
  rewrite K, Xdirty in sd. destruct (sd Ok Dt) as (S1 & S2 & S3 & _). clear sd. rewrite C in *.
  assert (SA : same_art (s_disk sh) (s_disk st)) by (rewrite D; destruct k; repeat split).
  assert (Rs : Rsub Forward h1 (d_mt (s_disk sh)) h (d_mt (s_disk st))).
  { intros m. unfold R. rewrite Nx, Mt. auto. }
  pose proof (BufInv_mono Forward e _ _ _ _ _ _ _ SA Rs r7) as B. destruct B as [bp bs bl].
  assert (NF : forall i, fresh Forward h1 (d_mt (s_disk sh)) i -> fresh Forward h (d_mt (s_disk st)) i).
  { intros i. unfold fresh. rewrite Nx. auto. }
  assert (FBf : forall i, In i (ts_sources (s_buf st)) -> fresh Forward h (d_mt (s_disk st)) i).
  { intros i Hi t Ht. destruct (F i) as (_ & t' & B1 & B2 & _); [apply in_app_iff; left; exact Hi|].
    rewrite B1 in Ht. apply dec_of_N_inj in Ht. subst t'. exact B2. }
  split.
  - constructor.
    + intros Y. destruct (contains_pch (s_cfg st)) eqn:E.
      * destruct (X4 eq_refl eq_refl) as (Y1 & Y2). destruct (bp Y2) as (Z1 & Z2 & Z3). rewrite Y1, Xh. auto.
      * destruct (X2 E) as (Y1 & _). congruence.
    + intros i Hi. rewrite X1 in Hi. apply in_app_iff in Hi as [Hi|Hi].
      * destruct (F i) as (Hs & t & B1 & B2 & B3); [apply in_app_iff; left; rewrite X1; apply in_app_iff; left; exact Hi|].
        split; [exact Hs|].
        assert (Hj : exists j, In j (ts_sources (s_buf sh)) /\ pi_path j = pi_path i).
        { rewrite <- S1 in Hs. apply in_map_iff in Hs as (j & Ej & Hj). exists j. auto. }
        destruct Hj as (j & Hj & Ej). destruct (bs j Hj) as (_ & (a & A1 & A2 & A3 & A4 & A5)). rewrite Ej in *.
        exists a. split; [exact A1|]. split; [exact A2|]. split; [exact A3|]. split; [|exact A5]. rewrite Xh, Xd.
        intros x [<-|Hx]; [|apply A4; right; exact Hx].
        intros m Hm (t1 & M1 & M2). rewrite B1 in M2. apply dec_of_N_inj in M2. subst t1.
        destruct (Hm (pi_path i)) as [Q|[Q|(t1 & Q1 & Q2)]].
        -- congruence.
        -- destruct (F j) as (_ & tj & C1 & C2 & C3); [apply in_app_iff; left; rewrite X1; apply in_app_iff; right; exact Hj|].
           assert (t <= tj)%N by (apply (X7 i j Hi (in_or_app _ _ _ (or_introl Hj)) (eq_sym Ej) t tj B1 C1)).
           assert (tj <= t)%N by (apply C3; rewrite Ej, <- Q; exact M1).
           assert (tj = t) by lia. subst tj.
           assert (EE : a_snap a (pi_path j) = m (pi_path j)).
           { apply (A4 j (or_introl eq_refl) m Hm). exists t. rewrite Ej. split; [exact M1|exact C1]. }
           rewrite Ej in EE. exact EE.
        -- rewrite Q1 in M1. injection M1 as ->. lia.
      * destruct (bs i Hi) as (Hs & Hg). rewrite Xh, Xd. auto.
    + intros _. destruct (bl S3) as (Y1 & Y2). rewrite Xl, Xk. split; [exact Y1|]. intros p Hp. rewrite X1. unfold il_paths. rewrite map_app.
      apply in_app_iff. right. exact (Y2 p Hp).
  - intros i Hi. unfold all_infos in Hi. tsp. rewrite !in_app_iff in Hi.
    assert (Fu : forall x, In x (all_infos (s_user sh)) -> fresh Forward h (d_mt (s_disk st)) x) by (intros x Hx; exact (NF x (r5 x Hx))).
    unfold all_infos in Fu. setoid_rewrite in_app_iff in Fu. setoid_rewrite in_app_iff in Fu. setoid_rewrite in_app_iff in Fu.
    setoid_rewrite in_app_iff in Fu. setoid_rewrite in_app_iff in Fu. rewrite Xh, Xd, Xl, Xk in Hi.
    assert (Fp : In i (ts_pchs (s_buf st)) -> fresh Forward h (d_mt (s_disk st)) i).
    { intros Hp. destruct (contains_pch (s_cfg st)) eqn:E.
      - destruct (X4 eq_refl eq_refl) as (Y1 & _). rewrite Y1 in Hp. apply NF. apply r6. apply in_app_iff. right. exact Hp.
      - destruct (X2 E) as (_ & Y2 & _). rewrite Y2 in Hp. destruct Hp. }
    pose proof (FBf i) as Fs. specialize (Fu i). tauto.
Qed.

(** ** The invariant *)

Record FRest (h : hist) (a : astate) : Prop := {
  f_inv : Inv Forward e h (a_st a);
  f_perm : permitted e h (s_cfg (a_st a));
  f_lang : pchs (s_cfg (a_st a)) <> [] -> h_lang h = Some (contains_cpp e (s_cfg (a_st a)));
  f_load : a_dirty a = false -> s_load (a_st a) = stored (s_disk (a_st a));
  f_nopch : NoPch (a_st a) }.
Record FRep (h : hist) (a : astate) : Prop := {
  q_next : nextok h (d_mt (s_disk (a_st a)));
  q_perm : permitted e h (s_cfg (a_st a));
  q_lang : pchs (s_cfg (a_st a)) <> [] -> h_lang h = Some (contains_cpp e (s_cfg (a_st a)));
  q_nopch : NoPch (a_st a);
  q_sim : s_ok (a_st a) = true -> exists k L L' h1 old sh,
    Inv Forward e h1 sh /\ h_next h1 = h_next h /\ h_edited h1 = h_edited h /\ (k = false -> h1 = h) /\
    Sim k L L' (a_st a) sh /\ Ext old (a_st a) sh /\ (k = false -> s_load (a_st a) = stored (s_disk (a_st a))) }.
Record FInv (h : hist) (a : astate) : Prop := {
  g_ready : AInv e a;
  g_fb : FB h (a_st a);
  g_phase : match a_phase a with
            | Out => Inv Forward e h (a_st a)
            | First => Inv Forward e h (a_st a) /\ NoPch (a_st a)
            | Rest _ => FRest h a
            | Rep => FRep h a
            end }.

Lemma ainv_like (a : astate) : AInv e a -> s_pc (a_st a) <> Idle -> like (s_cfg (a_st a)) (s_user (a_st a)).
Proof. unfold AInv. destruct (a_phase a); intros A B; [congruence|exact (proj2 (proj2 A))|destruct A; congruence|exact (proj2 (proj2 A))]. Qed.

Lemma f_first_end (h : hist) (a a' : astate) (w : wres) :
  Inv Forward e h (a_st a) -> NoPch (a_st a) -> admissible Forward e h (a_st a) (EvEnd w) ->
  astep e a (AOnce (EvEnd w)) = Some a' -> FRest (track e h (a_st a) (EvEnd w)) a'.
Proof using T.
  intros I NP A S. pose proof (astep_step e a a' _ S) as Sx. destruct (step_end _ _ _ _ Sx) as (P1 & P2 & P3 & P4 & _).
  assert (RI : RunInv Forward e h (a_st a)) by (apply (i_run _ _ _ _ I); rewrite P1; discriminate).
  constructor.
  - exact (step_Inv Forward e T h _ _ _ A Sx I).
  - apply permitted_end. rewrite P3. exact (r_perm _ _ _ _ RI).
  - rewrite P3. exact (r_lang _ _ _ _ RI).
  - intros D. cbn [astep] in S. rewrite Sx in S. injection S as S. rewrite <- S in D. cbn [a_dirty] in D.
    destruct (clean_end e _ _ _ Sx D) as [-> Es]. rewrite Es. stp. exact (r_load _ _ _ _ RI).
  - exact (NoPch_end e _ _ _ Sx NP).
Qed.

Lemma f_rest_run (h : hist) (a a' : astate) (x : event) :
  (exists f t, x = EvEdit f t) \/ x = EvFail -> admissible Forward e h (a_st a) x -> astep e a (AOnce x) = Some a' ->
  FRest h a -> FRest (track e h (a_st a) x) a'.
Proof using T.
  intros X A S [I Pm Lg Ld NP]. pose proof (astep_step e a a' x S) as Sx.
  assert (OR : of_run x = true) by (destruct X as [(f & t & ->)| ->]; reflexivity).
  pose proof (astep_run e a a' x OR S) as Ea. destruct (run_keeps e _ _ _ OR Sx) as (C & O & _).
  destruct (store_run e _ _ _ OR Sx) as (St & Ll).
  constructor.
  - exact (step_Inv Forward e T h _ _ _ A Sx I).
  - rewrite C. exact (permitted_run e h _ x OR Pm).
  - rewrite C, (lang_run e h _ x OR). exact Lg.
  - intros D. rewrite Ea in D. cbn [a_dirty] in D. rewrite Ll, (stored_store _ _ St). exact (Ld D).
  - exact (NoPch_step e _ _ x OR Sx NP).
Qed.

Lemma f_again (h : hist) (a a' : astate) (b : bool) :
  AInv e a -> a_phase a = Rest b -> astep e a AAgain = Some a' -> FRest h a ->
  FRep (atrack e h a AAgain) a' /\ a_phase a' = Rep.
Proof using T.
  intros AI P S [I Pm Lg Ld NP]. cbn [astep] in S. unfold AInv in AI. rewrite P in S, AI.
  destruct (s_ok (a_st a)) eqn:Ok; [|discriminate S]. injection S as <-. destruct AI as [Id RD]. split; [|reflexivity].
  destruct Pm as (Pm1 & Pm2 & Pm3 & Pm4).
  assert (NP' : NoPch (with_pc (with_dirty (a_st a) (a_dirty a)) (if contains_pch (s_cfg (a_st a)) then PcPch else PcObj))).
  { intros Y. stp. destruct (NP Y) as (A & B & _). rewrite Y. auto. }
  assert (LL : (if contains_pch (s_cfg (a_st a)) then Some (contains_cpp e (s_cfg (a_st a))) else h_lang h) = h_lang h).
  { destruct (contains_pch (s_cfg (a_st a))) eqn:E; [|reflexivity]. symmetry. apply Lg. apply contains_pch_nil. exact E. }
  constructor; cbn [a_st]; stp; cbn [atrack h_lang h_next].
  - exact (i_next _ _ _ _ I).
  - split; [exact Pm1|]. split; [exact Pm2|]. split; [exact Pm3|exact Pm4].
  - exact Lg.
  - exact NP'.
  - intros _.
    assert (EX : forall sh0, Ext (ts_sources (s_buf (a_st a)))
       (with_pc (with_dirty (a_st a) (a_dirty a)) (if contains_pch (s_cfg (a_st a)) then PcPch else PcObj))
       (started sh0 (s_cfg (a_st a)) (s_ord (a_st a)))).
    { intros sh0. unfold started. constructor; stp; cbn [ts_default ts_sources app].
      - rewrite app_nil_r. reflexivity.
      - exact NP'.
      - destruct (contains_pch (s_cfg (a_st a))); discriminate.
      - intros ->. discriminate.
      - destruct (contains_pch (s_cfg (a_st a))); discriminate.
      - destruct (contains_pch (s_cfg (a_st a))); discriminate.
      - intros i j _ Hj. destruct (contains_pch (s_cfg (a_st a))); destruct Hj. }
    destruct (a_dirty a) eqn:D.
    + set (sh0 := with_disk (a_st a) (set_store (s_disk (a_st a)) None)).
      pose proof (drop_Inv Forward e h (a_st a) Id I) as I0. fold sh0 in I0.
      assert (Pm0 : permitted e (HS (h_next h) None (h_lang h) (h_edited h)) (s_cfg (a_st a))).
      { split; [exact Pm1|]. split; [exact Pm2|]. split; [exact Pm3|discriminate]. }
      pose proof (start_Inv Forward e _ sh0 _ _ _ Id Pm0 (start_startable e sh0 _ _ (proj1 RD)) I0) as I1.
      exists true, (s_log (a_st a)), (s_log sh0), (track e (HS (h_next h) None (h_lang h) (h_edited h)) sh0 (EvStart (s_cfg (a_st a)) (s_ord (a_st a)))), (ts_sources (s_buf (a_st a))), (started sh0 (s_cfg (a_st a)) (s_ord (a_st a))).
      split; [exact I1|]. split; [reflexivity|]. split; [reflexivity|]. split; [discriminate|]. split; [|split; [|discriminate]].
      * pose proof (again_Sim e a true sh0 RD D Ok eq_refl ltac:(discriminate)) as Z. rewrite D in Z. exact Z.
      * apply EX.
    + pose proof (start_Inv Forward e h (a_st a) _ _ _ Id (conj Pm1 (conj Pm2 (conj Pm3 Pm4))) (start_startable e (a_st a) _ _ (proj1 RD)) I) as I1.
      exists false, (s_log (a_st a)), (s_log (a_st a)), (track e h (a_st a) (EvStart (s_cfg (a_st a)) (s_ord (a_st a)))), (ts_sources (s_buf (a_st a))), (started (a_st a) (s_cfg (a_st a)) (s_ord (a_st a))).
      split; [exact I1|]. split; [reflexivity|]. split; [reflexivity|]. split; [|split; [|split]].
      * intros _. cbn [track]. rewrite LL. reflexivity.
      * pose proof (again_Sim e a false (a_st a) RD D Ok eq_refl (fun _ => Ld eq_refl)) as Z. rewrite D in Z. exact Z.
      * apply EX.
      * intros _. exact (Ld eq_refl).
Qed.

Lemma f_rep_run (h : hist) (a a' : astate) (x : event) :
  of_run x = true -> admissible Forward e h (a_st a) x -> astep e a (AOnce x) = Some a' -> FB h (a_st a) ->
  FRep h a -> FRep (track e h (a_st a) x) a'.
Proof using T.
  intros OR A S F [Nx Pm Lg NP Q]. pose proof (astep_step e a a' x S) as Sx.
  destruct (run_keeps e _ _ _ OR Sx) as (C & O & _). destruct (store_run e _ _ _ OR Sx) as (St & Ll).
  constructor.
  - exact (nextok_run e h _ _ x OR Sx Nx).
  - rewrite C. exact (permitted_run e h _ x OR Pm).
  - rewrite C, (lang_run e h _ x OR). exact Lg.
  - exact (NoPch_step e _ _ x OR Sx NP).
  - intros Ok. destruct (Q (ok_back e _ _ x OR Sx Ok)) as (k & L & L' & h1 & old & sh & I1 & N1 & E1 & K1 & M & X & Ld).
    destruct (sim_step e k L L' _ _ M x _ OR Sx) as (sh' & Ssh & M').
    assert (A1 : admissible Forward e h1 sh x).
    { apply (admissible_two Forward e h1 h sh (a_st a) x OR (m_pc _ _ _ _ _ M) (m_cfg _ _ _ _ _ M)); [|exact A].
      intros f. rewrite N1. apply N.le_refl. }
    exists k, L, L', (track e h1 sh x), old, sh'. split; [exact (step_Inv Forward e T h1 _ _ _ A1 Ssh I1)|].
    split; [exact (next_run e h h1 _ _ x N1)|].
    split; [exact (track_edited e h1 h sh _ x OR (m_pc _ _ _ _ _ M) (m_cfg _ _ _ _ _ M) E1)|].
    split; [intros K; rewrite (K1 K); exact (track_same e h _ _ x OR (m_pc _ _ _ _ _ M) (m_cfg _ _ _ _ _ M))|].
    split; [exact M'|]. split; [exact (ext_step e k L L' h old _ _ M X F Nx x _ _ OR Sx Ssh Ok)|].
    intros K. rewrite Ll, (stored_store _ _ St). exact (Ld K).
Qed.

Lemma f_rep_end (h : hist) (a a' : astate) :
  s_ok (a_st a) = true -> (s_dirty (a_st a) = true -> writes_store (a_st a) WOk = true) ->
  astep e a (AOnce (EvEnd WOk)) = Some a' -> FB h (a_st a) -> FRep h a -> FRest (track e h (a_st a) (EvEnd WOk)) a'.
Proof using T.
  intros Ok Wr S F [Nx Pm Lg NP Q]. destruct (Q Ok) as (k & L & L' & h1 & old & sh & I1 & N1 & E1 & K1 & M & X & Ld).
  pose proof (astep_step e a a' _ S) as Sx. destruct (step_end _ _ _ _ Sx) as (P1 & P2 & P3 & P4 & _).
  assert (Rest4 : permitted e (track e h (a_st a) (EvEnd WOk)) (s_cfg (a_st a')) /\
    (pchs (s_cfg (a_st a')) <> [] -> h_lang (track e h (a_st a) (EvEnd WOk)) = Some (contains_cpp e (s_cfg (a_st a')))) /\ NoPch (a_st a')).
  { rewrite P3. split; [exact (permitted_end e h _ _ _ Pm)|]. split; [exact Lg|exact (NoPch_end e _ _ _ Sx NP)]. }
  destruct Rest4 as (R1 & R2 & R3).
  destruct (s_dirty (a_st a)) eqn:Dt.
  - destruct (rep_buf k L L' h h1 old _ _ I1 M X F N1 P1 Ok Dt) as (B1 & B2). specialize (Wr eq_refl).
    constructor; [|exact R1|exact R2| |exact R3].
    + cbn [track]. rewrite Wr. cbn [step] in Sx. rewrite P1 in Sx. unfold end_task in Sx. rewrite Dt in Sx.
      destruct (store_text (update_store (s_buf (a_st a)) (s_user (a_st a)))) as [t|] eqn:Et.
      2:{ unfold writes_store in Wr. rewrite Dt, Et in Wr. discriminate Wr. }
      injection Sx as Sx. rewrite <- Sx. pose proof (m_like _ _ _ _ _ M) as Lk.
      assert (St : stored (set_store (s_disk (a_st a)) (Some t)) = Some (update_store (s_buf (a_st a)) (s_user (a_st a)))).
      { unfold stored. cbn. apply target_text_rt. exact Et. }
      constructor; stp.
      * exact Nx.
      * intros _ s Hs. rewrite St in Hs. injection Hs as <-. exact B2.
      * intros _ s Hs. rewrite St in Hs. injection Hs as <-. apply (BufInv_safe Forward e T _ _ (s_cfg (a_st a))).
        -- exact Lk.
        -- apply (BufInv_mono Forward e h _ (s_disk (a_st a))); [repeat split|apply Rsub_next; reflexivity|exact B1].
        -- exact (proj1 Pm).
        -- exact Lg.
      * discriminate.
      * congruence.
    + intros D. cbn [astep] in S. rewrite Sx in S. injection S as S. rewrite <- S in D. cbn [a_dirty] in D. congruence.
  - destruct (clean_end e _ _ _ Sx Dt) as [_ Es]. pose proof M as [P C O Kk U U' Dk G _]. destruct k; [destruct G; congruence|].
    destruct G as [G1 G2]. assert (Dsh : s_dirty sh = false) by congruence. assert (Psh : s_pc sh = PcEnd) by congruence.
    assert (Ssh : end_task sh WOk = Some (with_pc sh Idle)) by (unfold end_task; rewrite Dsh; reflexivity).
    pose proof (end_Inv Forward e T h1 sh _ WOk Psh (or_introl eq_refl) Ssh I1) as I2. rewrite (K1 eq_refl) in I2.
    assert (W1 : writes_store sh WOk = false) by (unfold writes_store; rewrite Dsh; reflexivity).
    assert (W2 : writes_store (a_st a) WOk = false) by (unfold writes_store; rewrite Dt; reflexivity).
    constructor; [|exact R1|exact R2| |exact R3].
    + rewrite Es. cbn [track] in *. rewrite W1 in I2. rewrite W2. destruct I2 as [j1 j2 j3 j4 j5]. stp. rewrite Dk in *.
      constructor; stp; try assumption; [discriminate|congruence].
    + intros _. rewrite Es. stp. exact (Ld eq_refl).
Qed.

Theorem careful_FInv (d0 : disk) (evs : list aevent) (h : hist) (a : astate) : careful_session Forward e d0 evs h a -> FInv h a.
Proof using T.
  induction 1 as [|evs h a ev a' H IH A CR S].
  - constructor; [apply AInv_init|intros i []|exact (Inv_init Forward e d0)].
  - destruct IH as [V1 V2 V3]. pose proof (AInv_step e a ev a' S V1) as V1'. constructor; [exact V1'| |].
    + destruct ev as [x| |].
      * destruct A as [A _]. pose proof (astep_step e a a' x S) as Sx. cbn [atrack].
        apply (FB_step e h (a_st a) (a_st a') x); [exact (ainv_like a V1)| |exact V2|exact A|exact Sx].
        destruct (a_phase a); [exact (i_next _ _ _ _ V3)|exact (i_next _ _ _ _ (proj1 V3))|exact (i_next _ _ _ _ (f_inv _ _ V3))|exact (q_next _ _ V3)].
      * cbn [astep] in S. destruct (a_phase a); try discriminate S. destruct (s_ok (a_st a)); [|discriminate S]. injection S as <-. cbn [a_st atrack].
        apply (FB_sub h _ (a_st a)); [exact V2|reflexivity..|]. stp. intros i Hi. rewrite in_app_iff in *.
        destruct (contains_pch (s_cfg (a_st a))); cbn [pend In] in *; tauto.
      * cbn [astep] in S. destruct (a_phase a); try discriminate S. injection S as <-. exact V2.
    + destruct ev as [x| |].
      * destruct A as [A B]. pose proof (astep_step e a a' x S) as Sx. cbn [atrack].
        destruct (of_run x) eqn:OR.
        { pose proof (astep_run e a a' x OR S) as Ea.
          assert (EP : a_phase a' = a_phase a) by (rewrite Ea; reflexivity). rewrite EP.
          destruct (a_phase a) eqn:P.
          - exact (step_Inv Forward e T h _ _ _ A Sx V3).
          - destruct V3 as [V3 V4]. split; [exact (step_Inv Forward e T h _ _ _ A Sx V3)|exact (NoPch_step e _ _ x OR Sx V4)].
          - assert (X : (exists f t, x = EvEdit f t) \/ x = EvFail) by (destruct x; try (destruct B; fail); eauto).
            exact (f_rest_run h a a' x X A S V3).
          - exact (f_rep_run h a a' x OR A S V2 V3). }
        destruct x; try discriminate OR.
        -- cbn [astep] in S. rewrite Sx in S. injection S as S.
           assert (EP : a_phase a' = Out) by (rewrite <- S; reflexivity). rewrite EP.
           destruct (a_phase a) eqn:P; [exact (step_Inv Forward e T h _ _ _ A Sx V3)|exact (step_Inv Forward e T h _ _ _ A Sx (proj1 V3))|destruct B|].
           unfold careful in CR. rewrite P in CR. destruct CR.
        -- cbn [astep] in S. rewrite Sx in S. injection S as S.
           assert (EP : a_phase a' = a_phase a) by (rewrite <- S; reflexivity). rewrite EP.
           destruct (a_phase a) eqn:P.
           ++ exact (step_Inv Forward e T h _ _ _ A Sx V3).
           ++ exfalso. unfold AInv in V1. rewrite P in V1. exact (proj1 V1 A).
           ++ destruct B.
           ++ exfalso. unfold AInv in V1. rewrite P in V1. exact (proj1 V1 A).
        -- cbn [astep] in S. rewrite Sx in S. destruct (a_phase a) eqn:P; try discriminate S. injection S as S.
           pose proof (step_Inv Forward e T h _ _ _ A Sx V3) as I'.
           assert (EP : a_phase a' = match s_pc (a_st a') with Idle => Out | _ => First end) by (rewrite <- S at 1; reflexivity). rewrite EP.
           assert (NP : s_pc (a_st a') <> Idle -> NoPch (a_st a')).
           { intros NI. unfold AInv in V1. rewrite P in V1. cbn [step] in Sx. rewrite V1 in Sx. apply start_cases in Sx as [[_ Es]|Es].
             - rewrite Es. intros Y. unfold started in *. stp. rewrite Y. auto.
             - rewrite Es in NI. stp. congruence. }
           destruct (s_pc (a_st a')); [exact I'|..]; (split; [exact I'|]); apply NP; discriminate.
        -- pose proof S as S0. cbn [astep] in S. rewrite Sx in S. injection S as S.
           assert (Ep : a_phase a' = if s_ok (a_st a') then Rest (match a_phase a with Rep => true | _ => false end) else Out)
             by (rewrite <- S at 1; reflexivity). rewrite Ep.
           unfold AInv in V1. destruct (step_end _ _ _ _ Sx) as (P1 & _ & _ & _ & _ & _ & P6 & _).
           destruct (a_phase a) eqn:P.
           ++ rewrite V1 in P1. discriminate P1.
           ++ destruct V3 as [V3 V4]. destruct (s_ok (a_st a')); [exact (f_first_end h a a' w V3 V4 A S0)|exact (step_Inv Forward e T h _ _ _ A Sx V3)].
           ++ destruct B.
           ++ unfold careful in CR. rewrite P in CR. destruct CR as (-> & CR1 & CR2).
              pose proof (f_rep_end h a a' CR1 CR2 S0 V2 V3) as Z. destruct (s_ok (a_st a')); [exact Z|exact (f_inv _ _ Z)].
        -- cbn [astep] in S. rewrite Sx in S. injection S as S.
           assert (EP : a_phase a' = Out) by (rewrite <- S; reflexivity). rewrite EP.
           destruct (a_phase a) eqn:P; [exact (step_Inv Forward e T h _ _ _ A Sx V3)|exact (step_Inv Forward e T h _ _ _ A Sx (proj1 V3))|destruct B|].
           unfold careful in CR. rewrite P in CR. destruct CR.
      * assert (W : exists b, a_phase a = Rest b) by (cbn [astep] in S; destruct (a_phase a); try discriminate S; eauto).
        destruct W as (b & W). rewrite W in V3. destruct (f_again h a a' b V1 W S V3) as [X1 X2]. rewrite X2. exact X1.
      * cbn [astep] in S. destruct (a_phase a); try discriminate S. injection S as <-. cbn [a_phase a_st atrack]. exact (f_inv _ _ V3).
Qed.

Theorem careful_current (d0 : disk) (evs : list aevent) (w : wres) (h : hist) (a : astate) :
  careful_session Forward e d0 (evs ++ [AOnce (EvEnd w)]) h a -> s_ok (a_st a) = true -> h_edited h = false ->
  all_current e (s_cfg (a_st a)) (s_disk (a_st a)).
Proof using T.
  intros H O E. inversion H as [K|evs1 h1 a1 ev a' H1 A CR S K Eh Ea]; [destruct evs; discriminate K|].
  apply app_inj_tail in K as [-> ->]. subst a'. subst h. destruct A as [A B]. cbn [atrack track h_edited] in E.
  pose proof (astep_step e a1 a _ S) as Sx. destruct (step_end _ _ _ _ Sx) as (P1 & P2 & P3 & P4 & P5 & _ & P6 & _).
  rewrite P3. apply (same_art_all e _ (s_disk (a_st a1))); [exact P5|exact P4|].
  destruct (careful_FInv _ _ _ _ H1) as [V1 V2 V3]. unfold AInv in V1. destruct (a_phase a1).
  - rewrite V1 in P1. discriminate P1.
  - exact (end_current Forward e T h1 _ (proj1 V3) P1 (P6 O) E).
  - destruct B.
  - destruct V3 as [_ _ _ _ Q]. destruct (Q (P6 O)) as (k & L & L' & h2 & old & sh & I1 & N1 & E1 & K1 & M & _).
    destruct M as [P C Or K U U' Dk G _].
    assert (X : all_current e (s_cfg sh) (s_disk sh)).
    { apply (end_current Forward e T h2 _ I1); [congruence| |congruence]. rewrite K. exact (P6 O). }
    rewrite C in X. rewrite Dk in X. destruct k; [|exact X].
    apply (same_art_all e _ (set_store (s_disk (a_st a1)) None)); [repeat split|reflexivity|exact X].
Qed.
End End.
