(** The state file written by a repeated run, with files that only get newer. *)
From Verif Require Import Prelude Proof_Prelude Model_Path Model_Json Model_Schema Proof_Dec Model_Command Spec_Command
  Model_ToolchainConfig Model_Target Spec_Target Proof_TargetBase Proof_TargetInv Proof_TargetRun
  Proof_TargetStep Proof_TargetStep2 Proof_TargetMain Model_Again Spec_Again Proof_Again Proof_Again2 Proof_Again3.

(** ** Recorded sources are not newer than the files *)

Definition pend (p : pcount) : infolist := match p with PcCompile l => l | _ => [] end.
Definition bnd (h : hist) (mt : times) (c : cfg) (i : pathinfo) : Prop :=
  In (pi_path i) (sources c) /\
  exists t, pi_hash i = dec_of_N t /\ (t < h_next h (pi_path i))%N /\ (forall v, mt (pi_path i) = Some v -> (t <= v)%N).
Definition FB (h : hist) (st : tstate) : Prop :=
  forall i, In i (ts_sources (s_buf st) ++ pend (s_pc st)) -> bnd h (d_mt (s_disk st)) (s_cfg st) i.

Lemma FB_sub (h h' : hist) (st st' : tstate) :
  FB h st -> h_next h' = h_next h -> d_mt (s_disk st') = d_mt (s_disk st) -> s_cfg st' = s_cfg st ->
  incl (ts_sources (s_buf st') ++ pend (s_pc st')) (ts_sources (s_buf st) ++ pend (s_pc st)) -> FB h' st'.
Proof. intros F N M C I i Hi. unfold bnd. rewrite N, M, C. exact (F i (I i Hi)). Qed.

Lemma recompile_incl : forall cur prev sel dum ch i,
  recompile_loop prev cur = (sel, dum, ch) -> In i (dum ++ sel) -> In i cur.
Proof.
  induction cur as [|x cur IH]; intros prev sel dum ch i H Hi; cbn [recompile_loop] in H.
  - injection H as <- <- <-. destruct Hi.
  - destruct (assoc (pi_path x) prev) as [hh|].
    + destruct (recompile_loop (assoc_remove (pi_path x) prev) cur) as [[s d] c] eqn:E. destruct (String.eqb hh (pi_hash x)).
      * injection H as <- <- <-. destruct Hi as [<-|Hi]; [left; reflexivity|right; exact (IH _ _ _ _ i E Hi)].
      * injection H as <- <- <-. apply in_app_iff in Hi as [Hi|[<-|Hi]]; [right|left; reflexivity|right];
          apply (IH _ _ _ _ i E); apply in_app_iff; tauto.
    + destruct (recompile_loop prev cur) as [[s d] c] eqn:E. injection H as <- <- <-.
      apply in_app_iff in Hi as [Hi|[<-|Hi]]; [right|left; reflexivity|right]; apply (IH _ _ _ _ i E); apply in_app_iff; tauto.
Qed.

Lemma obj_hashed (mt : times) (c : cfg) (u u' : tschema) :
  like c u -> obj_pre mt u = (u', true) ->
  like c u' /\ (forall i, In i (ts_sources u') -> In (pi_path i) (sources c) /\ hashed mt (pi_path i) (pi_hash i)).
Proof.
  intros L E. destruct (obj_pre mt (user_of c)) as [v y] eqn:Ev.
  destruct (obj_pre_two mt c u (user_of c) u' v true y L (like_user c) E Ev) as (<- & Lu & Lv & X).
  destruct (X eq_refl) as (X1 & _). split; [exact Lu|].
  set (h := HS (fun f => match mt f with Some t => (t + 1)%N | None => 0%N end) None None false).
  assert (N : nextok h mt) by (intros f t Ht; cbn [h h_next]; rewrite Ht; lia).
  destruct (obj_pre_spec Forward h mt c (user_of c) v true N (like_user c) (Fresh_user Forward h mt c) Ev) as (_ & _ & _ & K).
  destruct (K eq_refl) as (K1 & _). intros i Hi. rewrite X1 in Hi. split.
  - rewrite <- (Hashed_paths _ _ _ K1). apply in_map. exact Hi.
  - exact (Hashed_In _ _ _ _ K1 Hi).
Qed.
Lemma hashed_bnd (h : hist) (mt : times) (c : cfg) (i : pathinfo) :
  nextok h mt -> In (pi_path i) (sources c) -> hashed mt (pi_path i) (pi_hash i) -> bnd h mt c i.
Proof.
  intros N Hc (t & Ht & Hh). split; [exact Hc|]. exists t. split; [exact Hh|]. split; [exact (N _ _ Ht)|].
  intros v Hv. rewrite Ht in Hv. injection Hv as <-. lia.
Qed.

(** What the check of the objects records and selects. *)
Lemma obj_check_new (st : tstate) :
  like (s_cfg st) (s_user st) -> s_ok (obj_check st) = true ->
  exists new, ts_sources (s_buf (obj_check st)) ++ pend (s_pc (obj_check st)) = ts_sources (s_buf st) ++ new /\
    (forall i, In i new -> In (pi_path i) (sources (s_cfg st)) /\ hashed (d_mt (s_disk st)) (pi_path i) (pi_hash i)).
Proof.
  intros L. unfold obj_check. destruct (s_ok st) eqn:O; cbn [negb]; [|stp; congruence].
  destruct (obj_pre (d_mt (s_disk st)) (s_user st)) as [u b] eqn:E. destruct b; cbn [negb]; [|stp; discriminate].
  destruct (obj_hashed _ _ _ _ L E) as [L' H]. stp.
  set (X := if (match s_load st with None => true | Some l => s_dirty st || negb (obj_same l u) end)
            then (ts_sources u, [], true)
            else match s_load st with None => ([], [], true) | Some l => recompile_sources (ts_sources l) (ts_sources u) end).
  assert (HX : forall i, In i (snd (fst X) ++ fst (fst X)) -> In i (ts_sources u)).
  { intros i. unfold X. destruct (match s_load st with None => true | Some l => _ end); [cbn; tauto|].
    destruct (s_load st) as [l|]; [|intros []].
    unfold recompile_sources. destruct (recompile_loop (map (fun i0 => (pi_path i0, pi_hash i0)) (ts_sources l)) (ts_sources u)) as [[sel dum] ch] eqn:R.
    exact (recompile_incl _ _ _ _ _ i R). }
  destruct X as [[sel dum] ch]. cbn [fst snd] in HX. stp. intros _.
  assert (ND : nlist dum).
  { apply Forall_forall. intros i Hi. pose proof (sources_npath (s_cfg st)) as NP. rewrite Forall_forall in NP. apply NP.
    apply (H i). apply HX. apply in_app_iff. left. exact Hi. }
  rewrite (fold_add dum _ ND). tsp. cbn [pend]. exists (dum ++ sel). rewrite <- app_assoc. split; [reflexivity|].
  intros i Hi. apply H. apply HX. exact Hi.
Qed.
Lemma obj_check_fail (st : tstate) : s_ok (obj_check st) = false ->
  ts_sources (s_buf (obj_check st)) ++ pend (s_pc (obj_check st)) = ts_sources (s_buf st).
Proof.
  unfold obj_check. destruct (s_ok st) eqn:O; cbn [negb]; [|stp; cbn [pend]; rewrite app_nil_r; reflexivity].
  destruct (obj_pre (d_mt (s_disk st)) (s_user st)) as [u b]. destruct b; cbn [negb]; [|stp; cbn [pend]; rewrite app_nil_r; reflexivity].
  match goal with |- context [if ?b then (ts_sources ?x, [], true) else ?y] => destruct (if b then (ts_sources x, [], true) else y) as [[sel dum] dd] end.
  stp. congruence.
Qed.

Lemma obj_check_same (st : tstate) :
  s_cfg (obj_check st) = s_cfg st /\ s_disk (obj_check st) = s_disk st.
Proof.
  unfold obj_check. destruct (negb (s_ok st)); [split; reflexivity|]. destruct (obj_pre _ _) as [u b]. destruct (negb b); [split; reflexivity|].
  match goal with |- context [if ?b then (ts_sources ?x, [], true) else ?y] => destruct (if b then (ts_sources x, [], true) else y) as [[sel dum] dd] end.
  split; reflexivity.
Qed.

Ltac sub_now := unfold incl; intros i Hi; rewrite ?in_app_iff in *; cbn [pend In] in *; tauto.

Lemma FB_step (e : tenv) (h : hist) (st st' : tstate) (ev : event) :
  (s_pc st <> Idle -> like (s_cfg st) (s_user st)) -> nextok h (d_mt (s_disk st)) -> FB h st ->
  admissible Forward e h st ev -> step e st ev = Some st' -> FB (track e h st ev) st'.
Proof.
  intros L N F A H. destruct ev; cbn [step track] in *.
  - (* edit *) injection H as <-. intros i Hi. stp. destruct (F i Hi) as (C & t' & Ht & Hn & Hv). split; [exact C|].
    exists t'. split; [exact Ht|]. cbn [admissible] in A. destruct A as [A _]. split.
    + cbn [h_next]. destruct t as [v|]; [|exact Hn]. unfold upd. destruct (String.eqb (pi_path i) f) eqn:E; [|exact Hn].
      apply String.eqb_eq in E. rewrite E in Hn. lia.
    + intros v. unfold upd. destruct (String.eqb (pi_path i) f) eqn:E; [|exact (Hv v)].
      intros ->. specialize (A v eq_refl). apply String.eqb_eq in E. rewrite E in Hn. lia.
  - injection H as <-. exact F.
  - destruct (s_pc st) eqn:E; try discriminate H; injection H as <-;
      (apply (FB_sub h h st); [exact F|reflexivity..|stp; rewrite E; sub_now]).
  - injection H as <-. exact F.
  - injection H as <-. exact F.
  - injection H as <-. exact F.
  - injection H as <-. exact F.
  - destruct (s_pc st) eqn:E; try discriminate H. apply start_cases in H as [[_ ->]| ->].
    + intros i Hi. unfold started in Hi. stp. cbn [ts_default ts_sources app] in Hi. destruct (contains_pch c); destruct Hi.
    + exact F.
  - destruct (s_pc st) eqn:E; try discriminate H. injection H as <-. apply (FB_sub h h st); [exact F|reflexivity|..];
      unfold pch_check; destruct (negb (s_ok st)); try reflexivity; try (stp; rewrite E; sub_now);
      destruct (pch_pre _ _) as [u b]; destruct (negb b); try reflexivity; try (stp; rewrite E; sub_now);
      destruct (_ || _); try reflexivity; stp; rewrite E; unfold update_pch_compiled; tsp; sub_now.
  - destruct (s_pc st) eqn:E; try discriminate H. unfold pch_exec in H. destruct (pch_command _ _); try discriminate H.
    injection H as <-. apply (FB_sub h _ st); [exact F|reflexivity|..]; destruct (run_res _ _); try reflexivity; stp; rewrite E;
      unfold update_pch_compiled; tsp; sub_now.
  - destruct (s_pc st) eqn:E; try discriminate H. injection H as <-.
    assert (Lk : like (s_cfg st) (s_user st)) by (apply L; discriminate).
    destruct (obj_check_same st) as [K1 K2]. intros i Hi. rewrite K1, K2.
    destruct (s_ok (obj_check st)) eqn:O.
    + destruct (obj_check_new st Lk O) as (new & E1 & E2). rewrite E1 in Hi. apply in_app_iff in Hi as [Hi|Hi].
      * apply F. apply in_app_iff. left. exact Hi.
      * destruct (E2 i Hi) as [X1 X2]. exact (hashed_bnd h _ _ i N X1 X2).
    + rewrite (obj_check_fail st O) in Hi. apply F. apply in_app_iff. left. exact Hi.
  - destruct (s_pc st) eqn:E; try discriminate H. unfold compile_one in H. destruct (take_pending s pending) as [[x rest]|] eqn:TP; [|discriminate H].
    destruct (compile_command _ _ _); try discriminate H. apply take_pending_spec in TP as [TP1 TP2].
    assert (NX : npath (pi_path x)).
    { pose proof (sources_npath (s_cfg st)) as NP. rewrite Forall_forall in NP. apply NP. apply (F x). apply in_app_iff. right.
      rewrite E. cbn [pend]. rewrite TP2. left. reflexivity. }
    injection H as <-. apply (FB_sub h _ st); [exact F|reflexivity|..]; destruct (run_res _ _); try reflexivity; stp; rewrite E; cbn [pend];
      rewrite ?(add_source_npath _ x NX); tsp; intros i Hi; rewrite ?in_app_iff in *; rewrite TP2; cbn [In] in *; tauto.
  - destruct (s_pc st) as [| | | |[|? ?]| |] eqn:E; try discriminate H. injection H as <-. apply (FB_sub h h st); [exact F|reflexivity|..];
      unfold link_check; destruct (negb (s_ok st)); try reflexivity; try (stp; rewrite E; sub_now);
      destruct (link_pre _ _) as [u b]; destruct (negb b); try reflexivity; try (stp; rewrite E; sub_now);
      stp; rewrite E; match goal with |- context [if ?b then PcLinkExec else PcEnd] => destruct b end; sub_now.
  - destruct (s_pc st) eqn:E; try discriminate H. unfold link_exec in H. destruct (link_command _ _ _); try discriminate H.
    injection H as <-. apply (FB_sub h _ st); [exact F|reflexivity|..]; destruct (run_res _ _); try reflexivity; stp; rewrite E;
      unfold update_target_compiled; tsp; sub_now.
  - destruct (s_pc st) eqn:E; try discriminate H. unfold end_task in H. destruct (s_dirty st).
    + assert (X : ts_sources (s_buf st') = ts_sources (s_buf st) /\ d_mt (s_disk st') = d_mt (s_disk st) /\ s_cfg st' = s_cfg st /\ s_pc st' = Idle).
      { destruct (store_text _); [destruct w as [| |n r]|destruct w; try discriminate H].
        - injection H as <-. repeat split.
        - injection H as <-. repeat split.
        - destruct (short _ _); [|discriminate H]. injection H as <-. destruct r; repeat split.
        - injection H as <-. repeat split. }
      destruct X as (X1 & X2 & X3 & X4). apply (FB_sub h _ st); [exact F|reflexivity|exact X2|exact X3|].
      rewrite X1, X4, E. sub_now.
    + destruct w; try discriminate H. injection H as <-. apply (FB_sub h _ st); [exact F|reflexivity|reflexivity|reflexivity|].
      stp. rewrite E. sub_now.
  - destruct (s_pc st) eqn:E; try discriminate H. destruct (s_dirty st); [|discriminate H].
    destruct (bind _ _); [|discriminate H]. injection H as <-. apply (FB_sub h _ st); [exact F|reflexivity|reflexivity|reflexivity|].
    stp. rewrite E. sub_now.
Qed.
