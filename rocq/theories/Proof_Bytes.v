(** From provenance to contents. *)
From Verif Require Import Prelude Proof_Prelude Model_Json Model_Schema Model_Command Model_ToolchainConfig Model_Target Spec_Target
  Proof_TargetBase Proof_TargetInv Proof_TargetRun Proof_TargetStep Proof_TargetStep2 Proof_TargetMain Spec_Bytes.

Inductive orel {A} (D : A -> string -> Prop) : option A -> option string -> Prop :=
| orel_none : orel D None None
| orel_some a x : D a x -> orel D (Some a) (Some x).

Section Den.
Context (t : tools) (V : string -> N -> string).

Definition sees (snap : times) (F : contents) : Prop := forall f, F f = option_map (V f) (snap f).
Definition den_pch (a : pch_art) (x : string) : Prop :=
  a = junk_pch x \/ p_cmd a <> "" /\ exists F, sees (p_snap a) F /\ x = run_pch t (p_cmd a) (p_text a) F.
Definition den_obj (a : obj_art) (x : string) : Prop :=
  a = junk_obj x \/ a_cmd a <> "" /\ exists F p, sees (a_snap a) F /\ orel den_pch (a_pch a) p /\ x = run_cc t (a_cmd a) F p.
Definition den_tgt (a : tgt_art) (x : string) : Prop :=
  a = junk_tgt x \/ l_cmd a <> "" /\ exists F O, sees (l_snap a) F /\ (forall k, orel den_obj (l_objs a k) (O k)) /\ x = run_ld t (l_cmd a) F O.

Record BI (d : disk) (b : bytes) : Prop := {
  bi_files : sees (d_mt d) (b_files b);
  bi_pch : orel den_pch (d_pch d) (b_pch b);
  bi_obj : forall k, orel den_obj (d_obj d k) (b_obj b k);
  bi_tgt : orel den_tgt (d_tgt d) (b_tgt b) }.

Definition same_files (d d' : disk) : Prop := d_mt d' = d_mt d /\ d_pch d' = d_pch d /\ d_obj d' = d_obj d /\ d_tgt d' = d_tgt d.
Lemma same_files_refl d : same_files d d. Proof. repeat split. Qed.
Lemma BI_same d d' b : same_files d d' -> BI d b -> BI d' b.
Proof. intros (A & B & C & D) []. constructor; rewrite ?A, ?B, ?C, ?D; assumption. Qed.

Lemma left_orel {A} (junk : string -> A) (D : A -> string -> Prop) lo old x n : (forall y, D (junk y) y) ->
  left_behind junk lo old n -> orel D old x -> orel D lo (bytes_left x n).
Proof. intros J L O. destruct n; cbn in *; try contradiction; subst; [exact O|constructor|constructor; apply J]. Qed.

Lemma files_kept e st st' ev : step e st ev = Some st' ->
  match ev with EvEdit _ _ | EvPchExec _ | EvCompile _ _ | EvLinkExec _ | EvDelObj _ | EvDelPch | EvDelTgt => True | _ => same_files (s_disk st) (s_disk st') end.
Proof.
  intros S. destruct ev; try exact Logic.I; cbn [step] in S.
  - injection S as <-. stp. apply same_files_refl.
  - destruct (s_pc st); try discriminate; injection S as <-; unfold killed; stp; apply same_files_refl.
  - injection S as <-. stp. repeat split.
  - destruct (s_pc st); try discriminate. unfold start in S. destruct (_ || _); [discriminate|].
    destruct (forallb _ _); injection S as <-; stp; apply same_files_refl.
  - destruct (s_pc st); try discriminate. injection S as <-. unfold pch_check. destruct (negb (s_ok st)); [stp; apply same_files_refl|].
    destruct (pch_pre _ _) as [u bb]. destruct (negb bb); [unfold fail; stp; apply same_files_refl|].
    destruct (s_dirty _ || _); stp; apply same_files_refl.
  - destruct (s_pc st); try discriminate. injection S as <-. unfold obj_check. destruct (negb (s_ok st)); [stp; apply same_files_refl|].
    destruct (obj_pre _ _) as [u bb]. destruct (negb bb); [unfold fail; stp; apply same_files_refl|].
    match goal with |- context [let '(_, _) := ?x in _] => destruct x as [[sel dum] dd] end. stp. apply same_files_refl.
  - destruct (s_pc st) as [| | | |[|]| |]; try discriminate. injection S as <-. unfold link_check. destruct (negb (s_ok st)); [stp; apply same_files_refl|].
    destruct (link_pre _ _) as [u bb]. destruct (negb bb); [unfold fail; stp; apply same_files_refl|]. stp. apply same_files_refl.
  - destruct (s_pc st); try discriminate. unfold end_task in S. destruct (s_dirty st).
    + destruct (store_text _).
      * destruct w; try discriminate; [injection S as <-; stp; repeat split|injection S as <-; stp; repeat split|].
        destruct (short _ _); [|discriminate]. destruct reported_ok; injection S as <-; stp; repeat split.
      * destruct w; try discriminate. injection S as <-. stp. repeat split.
    + destruct w; try discriminate. injection S as <-. stp. apply same_files_refl.
  - destruct (s_pc st); try discriminate. destruct (s_dirty st); [|discriminate]. destruct (bind _ _); [|discriminate].
    injection S as <-. unfold killed. stp. repeat split.
Qed.

Lemma output_ok {A} (D : A -> string -> Prop) cmd (r : xres A) n old made : cmd <> "" ->
  output (FOk cmd) r n old made = match r with XOk => Some (made cmd) | XFail _ => bytes_left old n | XNotRun => old end.
Proof. intros N. destruct cmd; [congruence|]. destruct r; reflexivity. Qed.
Lemma run_res_cases {A} cmd (r : xres A) : cmd = "" /\ run_res cmd r = XNotRun \/ cmd <> "" /\ run_res cmd r = r.
Proof. unfold run_res. destruct (String.eqb_spec cmd ""); [left|right]; auto. Qed.

Lemma BI_step rg e d0 evs h st b ev n st' : templates_ok e -> history rg e d0 evs h st -> admissible rg e h st ev -> noted e st ev n ->
  (forall f v, ev = EvEdit f (Some v) -> n = Contents (V f v)) ->
  step e st ev = Some st' -> BI (s_disk st) b -> BI (s_disk st') (written t e st b ev n).
Proof.
  intros T H A Nt VV S B. pose proof (files_kept e st st' ev S) as K.
  destruct ev; try (cbn [written]; exact (BI_same _ _ _ K B)); clear K; cbn [admissible] in A; try contradiction; cbn [written step noted] in *.
  - injection S as <-. destruct B. constructor; stp; cbn [b_files b_pch b_obj b_tgt]; try assumption.
    intros x. unfold upd. destruct (String.eqb_spec x f) as [->|Ne]; [|apply bi_files0].
    destruct t0 as [v|]; [|reflexivity]. rewrite (VV f v eq_refl). reflexivity.
  - destruct (s_pc st) eqn:Pc; try discriminate. pose proof (history_Inv rg e T _ _ _ _ H) as Iv.
    assert (RI : RunInv rg e h st) by (apply (i_run _ _ _ _ Iv); congruence).
    unfold pch_exec in S. destruct (pch_command e (s_cfg st)) as [cmd| |] eqn:Ec; try discriminate. injection S as <-. destruct B.
    destruct (run_res_cases cmd r) as [[-> E]|[Ne E]]; rewrite E.
    + unfold fail; constructor; stp; cbn [output b_files b_pch b_obj b_tgt]; assumption.
    + rewrite (output_ok den_pch) by exact Ne. destruct r as [|lo|]; unfold fail; constructor; stp; cbn [b_files b_pch b_obj b_tgt]; try assumption.
      * constructor. right. cbn [p_cmd p_text p_snap]. split; [exact Ne|]. exists (b_files b). split; [exact bi_files0|].
        rewrite (like_pchs _ _ (r_like _ _ _ _ RI)). reflexivity.
      * apply (left_orel junk_pch) with (old := d_pch (s_disk st)); [intros y; left; reflexivity|exact Nt|exact bi_pch0].
  - destruct (s_pc st) as [| | | |pend| |] eqn:Pc; try discriminate. unfold compile_one in S.
    destruct (take_pending s pend) as [[i rest]|]; [|discriminate].
    destruct (compile_command e (s_cfg st) s) as [cmd| |] eqn:Ec; try discriminate. injection S as <-. destruct B.
    assert (G : forall a x k, orel den_obj a x -> orel den_obj (upd (d_obj (s_disk st)) (obj_of e s) a k) (upd (b_obj b) (obj_of e s) x k)).
    { intros a x k O. unfold upd. destruct (String.eqb k (obj_of e s)); [exact O|apply bi_obj0]. }
    destruct (run_res_cases cmd r) as [[-> E]|[Ne E]]; rewrite E.
    + unfold fail; constructor; stp; cbn [output b_files b_pch b_obj b_tgt]; try assumption. intros k. apply G, bi_obj0.
    + rewrite (output_ok den_obj) by exact Ne. destruct r as [|lo|]; constructor; stp; cbn [b_files b_pch b_obj b_tgt]; try assumption; intros k; apply G.
      * constructor. right. cbn [a_cmd a_snap a_pch]. split; [exact Ne|]. exists (b_files b), (b_pch b). auto.
      * apply (left_orel junk_obj) with (old := d_obj (s_disk st) (obj_of e s)); [intros y; left; reflexivity|exact Nt|apply bi_obj0].
      * apply bi_obj0.
  - destruct (s_pc st) eqn:Pc; try discriminate. unfold link_exec in S.
    destruct (link_command e (s_cfg st) (s_ord st)) as [cmd| |] eqn:Ec; try discriminate. injection S as <-. destruct B.
    destruct (run_res_cases cmd r) as [[-> E]|[Ne E]]; rewrite E.
    + unfold fail; constructor; stp; cbn [output b_files b_pch b_obj b_tgt]; assumption.
    + rewrite (output_ok den_tgt) by exact Ne. destruct r as [|lo|]; unfold fail; constructor; stp; cbn [b_files b_pch b_obj b_tgt]; try assumption.
      * constructor. right. cbn [l_cmd l_snap l_objs]. split; [exact Ne|]. exists (b_files b), (b_obj b). auto.
      * apply (left_orel junk_tgt) with (old := d_tgt (s_disk st)); [intros y; left; reflexivity|exact Nt|exact bi_tgt0].
Qed.

Lemma bhistory_history rg e d0 b0 evs h st b : bhistory t rg e d0 b0 evs h st b -> history rg e d0 (map fst evs) h st.
Proof. induction 1 as [|evs h st b ev n st' H IH A Nt S]; [constructor|]. rewrite map_app. cbn [map fst]. econstructor; eassumption. Qed.

Lemma BI_history rg e d0 b0 evs h st b : templates_ok e -> bhistory t rg e d0 b0 evs h st b ->
  fresh_start d0 b0 -> times_tell V d0 b0 evs -> BI (s_disk st) b.
Proof.
  intros T H (F1 & F2 & F3 & F4) [T1 T2]. induction H as [|evs h st b ev n st' H IH A Nt S].
  - cbn [init s_disk]. constructor; stp.
    + intros f. cbn. destruct (d_mt d0 f) as [v|] eqn:E; [exact (T1 f v E)|]. apply F1. exact E.
    + destruct (b_pch b0) as [x|]; cbn in F2 |- *; rewrite F2; constructor. left. reflexivity.
    + intros k. specialize (F3 k). cbn. destruct (b_obj b0 k) as [x|]; cbn in F3; rewrite F3; constructor. left. reflexivity.
    + cbn. destruct (b_tgt b0) as [x|]; cbn in F4; rewrite F4; constructor. left. reflexivity.
  - apply (BI_step rg e d0 (map fst evs) h st b ev n st' T (bhistory_history _ _ _ _ _ _ _ _ H) A Nt); [|exact S|].
    + intros f v ->. apply (T2 f v n). apply in_or_app. right. left. reflexivity.
    + apply IH. intros f v n' K. apply (T2 f v n'). apply in_or_app. left. exact K.
Qed.

(** ** What follows at the end *)
Lemma sees_same snap mt F G l : sees snap F -> sees mt G -> (forall f, In f l -> snap f = mt f) -> same_on l F G.
Proof. intros A B H f I. rewrite (A f), (B f), (H f I). reflexivity. Qed.
Lemma orel_some_inv {A} (D : A -> string -> Prop) a x : orel D (Some a) x -> exists y, x = Some y /\ D a y.
Proof. intros H. inversion H; subst. eauto. Qed.

Lemma made e c d b : all_current e c d -> BI d b -> reads_declared t e c -> commands_nonempty e c -> made_from t e c b.
Proof.
  intros (P & O & L) [Bf Bp Bo Bt] RD (N1 & N2 & N3).
  (* the PCH is a function of its provenance *)
  assert (PP : forall p q, pchs c <> [] -> d_pch d <> None -> orel den_pch (d_pch d) p -> orel den_pch (d_pch d) q -> p = q).
  { intros p q Np Nd Dp Dq. destruct (P Np) as (a & Ea & _ & Ec & _). rewrite Ea in Dp, Dq.
    apply orel_some_inv in Dp as (x & -> & Dp). apply orel_some_inv in Dq as (y & -> & Dq). f_equal.
    assert (Ne : p_cmd a <> "") by (intros K; apply (N1 Np); rewrite <- K; exact Ec).
    destruct Dp as [->|(_ & F & SF & ->)]; [destruct (Ne eq_refl)|]. destruct Dq as [Dq|(_ & G & SG & ->)]; [rewrite Dq in Ne; destruct (Ne eq_refl)|].
    apply (rd_pch _ _ _ RD); [exact Ec|]. apply (sees_same (p_snap a) (p_snap a)); auto. }
  assert (OO : forall s x y, In s (sources c) -> orel den_obj (d_obj d (obj_of e s)) x -> orel den_obj (d_obj d (obj_of e s)) y -> x = y).
  { intros s x y Is Dx Dy. destruct (O s Is) as (a & Ea & _ & Ec & _ & Ep). rewrite Ea in Dx, Dy.
    apply orel_some_inv in Dx as (x' & -> & Dx). apply orel_some_inv in Dy as (y' & -> & Dy). f_equal.
    assert (Ne : a_cmd a <> "") by (intros K; apply (N2 s Is); rewrite <- K; exact Ec).
    destruct Dx as [->|(_ & F & p & SF & Dp & ->)]; [destruct (Ne eq_refl)|].
    destruct Dy as [Dy|(_ & G & q & SG & Dq & ->)]; [rewrite Dy in Ne; destruct (Ne eq_refl)|].
    rewrite (rd_cc _ _ _ RD s _ F G p Is Ec) by (apply (sees_same (a_snap a) (a_snap a)); auto).
    destruct (pchs c) as [|z l] eqn:Z; [exact (rd_cc_nopch _ _ _ RD s _ G p q Is Ec Z)|].
    rewrite Ep in Dp, Dq by discriminate. f_equal. apply PP; [discriminate| |exact Dp|exact Dq].
    destruct (P ltac:(discriminate)) as (a' & -> & _). discriminate. }
  split; [|split].
  - intros Np. destruct (P Np) as (a & Ea & _ & Ec & Et & Es). rewrite Ea in Bp. apply orel_some_inv in Bp as (x & -> & Dp).
    exists (p_cmd a). split; [exact Ec|]. f_equal. assert (Ne : p_cmd a <> "") by (intros K; apply (N1 Np); rewrite <- K; exact Ec).
    destruct Dp as [->|(_ & F & SF & ->)]; [destruct (Ne eq_refl)|]. rewrite Et. apply (rd_pch _ _ _ RD); [exact Ec|].
    apply (sees_same _ _ _ _ _ SF Bf). exact Es.
  - intros s Is. destruct (O s Is) as (a & Ea & _ & Ec & Es & Ep). pose proof (Bo (obj_of e s)) as Bs. rewrite Ea in Bs.
    apply orel_some_inv in Bs as (x & -> & Dx). exists (a_cmd a). split; [exact Ec|]. f_equal.
    assert (Ne : a_cmd a <> "") by (intros K; apply (N2 s Is); rewrite <- K; exact Ec).
    destruct Dx as [->|(_ & F & p & SF & Dp & ->)]; [destruct (Ne eq_refl)|].
    rewrite (rd_cc _ _ _ RD s _ F (b_files b) p Is Ec) by (apply (sees_same _ _ _ _ _ SF Bf); exact Es).
    destruct (pchs c) as [|z l] eqn:Z; [exact (rd_cc_nopch _ _ _ RD s _ _ p _ Is Ec Z)|].
    rewrite Ep in Dp by discriminate. f_equal. apply PP; [discriminate| |exact Dp|exact Bp].
    destruct (P ltac:(discriminate)) as (a' & -> & _). discriminate.
  - destruct L as (l & ord & El & _ & Po & Ec & Es & Eo). rewrite El in Bt. apply orel_some_inv in Bt as (x & -> & Dx).
    exists ord, (l_cmd l). split; [exact Po|]. split; [exact Ec|]. f_equal.
    assert (Ne : l_cmd l <> "") by (intros K; apply (N3 ord); rewrite <- K; exact Ec).
    destruct Dx as [->|(_ & F & Q & SF & Dq & ->)]; [destruct (Ne eq_refl)|].
    apply (rd_ld _ _ _ RD ord); [exact Po|exact Ec|apply (sees_same _ _ _ _ _ SF Bf); exact Es|].
    intros k Ik. apply in_map_iff in Ik as (s & <- & Is). specialize (Dq (obj_of e s)). rewrite (Eo s Is) in Dq.
    apply (OO s); [exact Is|exact Dq|apply Bo].
Qed.
End Den.

Theorem bytes_current t V rg e d0 b0 evs w n h st b :
  templates_ok e -> bhistory t rg e d0 b0 (evs ++ [(EvEnd w, n)]) h st b -> s_ok st = true -> h_edited h = false ->
  fresh_start d0 b0 -> times_tell V d0 b0 (evs ++ [(EvEnd w, n)]) ->
  reads_declared t e (s_cfg st) -> commands_nonempty e (s_cfg st) ->
  made_from t e (s_cfg st) b.
Proof.
  intros T H O E F TT RD NE. pose proof (bhistory_history _ _ _ _ _ _ _ _ _ H) as H1. rewrite map_app in H1. cbn [map fst] in H1.
  apply (made t V e _ (s_disk st)); [exact (success_current _ _ _ _ _ _ _ T H1 O E)|exact (BI_history t V _ _ _ _ _ _ _ _ T H F TT)|exact RD|exact NE].
Qed.

(** ** Two histories *)
Theorem bytes_agree t e c b1 b2 : made_from t e c b1 -> made_from t e c b2 -> reads_declared t e c ->
  same_on (tracked c) (b_files b1) (b_files b2) ->
  (pchs c <> [] -> b_pch b1 = b_pch b2) /\
  same_on (map (obj_of e) (sources c)) (b_obj b1) (b_obj b2) /\
  (order_free t e c -> b_tgt b1 = b_tgt b2).
Proof.
  intros (P1 & O1 & L1) (P2 & O2 & L2) RD S.
  assert (Sub : forall l, incl l (tracked c) -> same_on l (b_files b1) (b_files b2)) by (intros l I f K; apply S, I, K).
  assert (P : pchs c <> [] -> b_pch b1 = b_pch b2).
  { intros N. destruct (P1 N) as (cmd & E1 & ->). destruct (P2 N) as (cmd' & E2 & ->). assert (cmd' = cmd) by congruence. subst. f_equal.
    apply (rd_pch _ _ _ RD); [exact E1|]. apply Sub. intros f I. unfold tracked. rewrite !in_app_iff in *. tauto. }
  assert (O : same_on (map (obj_of e) (sources c)) (b_obj b1) (b_obj b2)).
  { intros k I. apply in_map_iff in I as (s & <- & I). destruct (O1 s I) as (cmd & E1 & ->). destruct (O2 s I) as (cmd' & E2 & ->).
    assert (cmd' = cmd) by congruence. subst. f_equal. rewrite (rd_cc _ _ _ RD s _ (b_files b1) (b_files b2) _ I E1).
    - destruct (pchs c) as [|z l] eqn:Z; [exact (rd_cc_nopch _ _ _ RD s _ _ _ _ I E1 Z)|]. rewrite P by discriminate. reflexivity.
    - apply Sub. intros f [->|K]; unfold tracked; rewrite !in_app_iff in *; tauto. }
  split; [exact P|]. split; [exact O|]. intros OF.
  destruct L1 as (ord & cmd & Q1 & E1 & ->). destruct L2 as (ord' & cmd' & Q2 & E2 & ->). f_equal.
  rewrite (OF ord ord' cmd cmd' _ _ Q1 Q2 E1 E2). apply (rd_ld _ _ _ RD ord'); [exact Q2|exact E2| |exact O].
  apply Sub. intros f I. unfold tracked. rewrite !in_app_iff in *. tauto.
Qed.

(** ** In the Forward regime times tell the contents *)
Lemma next_bound t rg e d0 b0 evs h st b : bhistory t rg e d0 b0 evs h st b ->
  (forall f v, d_mt d0 f = Some v -> (v < h_next h f)%N) /\ (forall f v n, In (EvEdit f (Some v), n) evs -> (v < h_next h f)%N).
Proof.
  induction 1 as [|evs h st b ev n st' H [IH1 IH2] A Nt S].
  - split; [|intros f v n []]. intros f v E. cbn. rewrite E. lia.
  - assert (M : forall f, (h_next h f <= h_next (track e h st ev) f)%N).
    { intros f. destruct ev; cbn [track h_next]; try lia. destruct t0; [|lia]. unfold upd. destruct (String.eqb_spec f f0) as [->|]; lia. }
    split.
    + intros f v E. specialize (IH1 f v E). specialize (M f). lia.
    + intros f v n' I. apply in_app_or in I as [I|[I|[]]]; [specialize (IH2 f v n' I); specialize (M f); lia|].
      injection I as -> ->. cbn [track h_next]. unfold upd. rewrite String.eqb_refl. lia.
Qed.

Lemma forward_tells t e d0 b0 evs h st b : bhistory t Forward e d0 b0 evs h st b -> fresh_start d0 b0 -> exists V, times_tell V d0 b0 evs.
Proof.
  intros H F. induction H as [|evs h st b ev n st' H IH A Nt S].
  - exists (fun f _ => match b_files b0 f with Some x => x | None => "" end). split; [|intros f v n []].
    intros f v E. destruct (b_files b0 f) eqn:K; [reflexivity|]. apply (proj1 F) in K. congruence.
  - destruct IH as (V & T1 & T2). destruct (next_bound _ _ _ _ _ _ _ _ _ H) as [B1 B2].
    assert (K : (exists V', times_tell V' d0 b0 evs /\ forall f v, ev = EvEdit f (Some v) -> n = Contents (V' f v))).
    { assert (D : (exists f v, ev = EvEdit f (Some v)) \/ forall f v, ev <> EvEdit f (Some v)).
      { destruct ev; try (right; intros; discriminate). destruct t0 as [v|]; [left; eauto|right; intros; discriminate]. }
      destruct D as [(f & v & ->)|D]; [|exists V; split; [split; assumption|intros f v K; destruct (D f v K)]].
      destruct Nt as (x & ->). cbn [admissible] in A. destruct A as [A _]. specialize (A v eq_refl).
      exists (fun g u => if String.eqb g f && N.eqb u v then x else V g u). split; [split|].
      - intros g u E. destruct (String.eqb_spec g f) as [->|]; [|exact (T1 g u E)]. specialize (B1 f u E).
        replace (N.eqb u v) with false by (symmetry; apply N.eqb_neq; lia). exact (T1 f u E).
      - intros g u n I. destruct (String.eqb_spec g f) as [->|]; [|exact (T2 g u n I)]. specialize (B2 f u n I).
        replace (N.eqb u v) with false by (symmetry; apply N.eqb_neq; lia). exact (T2 f u n I).
      - intros g u [= -> ->]. rewrite String.eqb_refl, N.eqb_refl. reflexivity. }
    destruct K as (V' & [K1 K2] & K3). exists V'. split; [exact K1|]. intros f v n' I. apply in_app_or in I as [I|[I|[]]]; [exact (K2 f v n' I)|].
    injection I as E ->. exact (K3 f v E).
Qed.

Theorem leaves_agree t e c b1 b2 : templates_ok e -> leaves t e c b1 -> leaves t e c b2 -> reads_declared t e c -> commands_nonempty e c ->
  same_on (tracked c) (b_files b1) (b_files b2) ->
  (pchs c <> [] -> b_pch b1 = b_pch b2) /\
  same_on (map (obj_of e) (sources c)) (b_obj b1) (b_obj b2) /\
  (order_free t e c -> b_tgt b1 = b_tgt b2).
Proof.
  assert (K : forall b, templates_ok e -> leaves t e c b -> reads_declared t e c -> commands_nonempty e c -> made_from t e c b).
  { intros b T (V & rg & d0 & b0 & evs & w & n & h & st & H & O & E & <- & F & TT) RD CN. exact (bytes_current t V rg e d0 b0 evs w n h st b T H O E F TT RD CN). }
  intros T L1 L2 RD CN S. apply bytes_agree; auto.
Qed.
