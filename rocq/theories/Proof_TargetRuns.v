(** Selection of sources, failures, schedules. *)
From Verif Require Import Prelude Proof_Prelude Model_Path Model_Json Model_Schema Spec_Json Proof_Dec
  Proof_Schema Model_Command Spec_Command Proof_Command Model_ToolchainConfig Model_Target Spec_Target
  Proof_TargetBase Proof_TargetInv Proof_TargetRun Proof_TargetStep Proof_TargetStep2 Proof_TargetMain.

Lemma NoDup_app_l {A} (l1 l2 : list A) : NoDup (l1 ++ l2) -> NoDup l1.
Proof.
  induction l1 as [|x l1 IH]; cbn [app]; intros H; [constructor|]. apply NoDup_cons_iff in H as [N H].
  constructor; [|exact (IH H)]. intros K. apply N. apply in_app_iff. left. exact K.
Qed.

(** ** Which sources are compiled *)

Lemma compile_shape e st s r st' :
  step e st (EvCompile s r) = Some st' ->
  exists pend i rest cmd, s_pc st = PcCompile pend /\ take_pending s pend = Some (i, rest) /\
    compile_command e (s_cfg st) s = FOk cmd /\ s_pc st' = PcCompile rest /\ s_cfg st' = s_cfg st /\
    compile_one e st s pend r = Some st'.
Proof.
  cbn [step]. destruct (s_pc st) eqn:E; try discriminate. intros H. pose proof H as H0. unfold compile_one in H.
  destruct (take_pending s pending) as [[i rest]|] eqn:Et; [|discriminate].
  destruct (compile_command e (s_cfg st) s) as [cmd| |] eqn:Ec; try discriminate.
  exists pending, i, rest, cmd. injection H as <-. repeat split; try assumption; destruct (run_res cmd r); reflexivity.
Qed.

Lemma compiles_pending e cs : forall st st1 pend,
  exec e st (compiles cs) = Some st1 -> s_pc st = PcCompile pend ->
  exists pend', s_pc st1 = PcCompile pend' /\ Permutation (il_paths pend) (map fst cs ++ il_paths pend').
Proof.
  induction cs as [|[s r] cs IH]; intros st st1 pend X P; cbn [compiles map exec] in X.
  - injection X as <-. exists pend. split; [exact P|reflexivity].
  - cbn [fst snd] in X. destruct (step e st (EvCompile s r)) as [st2|] eqn:S; [|discriminate].
    destruct (compile_shape _ _ _ _ _ S) as (pend0 & i & rest & cmd & P0 & Tk & _ & P2 & _).
    assert (pend0 = pend) as -> by congruence.
    destruct (IH st2 st1 rest X P2) as (pend' & Q1 & Q2). exists pend'. split; [exact Q1|].
    destruct (take_pending_spec _ _ _ _ Tk) as [E Pm]. cbn [map fst app]. rewrite <- Q2, <- E.
    exact (Permutation_map pi_path Pm).
Qed.

Lemma recorded_Hashed (mt : times) (l : list string) (a : infolist) : recorded_now mt l a <-> Hashed mt l a.
Proof. reflexivity. Qed.
Lemma unchanged_objclean (l : tschema) (c : cfg) (mt : times) : compile_setup_unchanged l c mt <-> objclean l c mt.
Proof.
  unfold compile_setup_unchanged. split.
  - intros (A & B & C & D & E & F & G & H & I). constructor; assumption.
  - intros []. repeat split; assumption.
Qed.
Lemma unchanged_matches (l : tschema) (mt : times) (p : string) : source_unchanged l mt p <-> matches l mt p.
Proof.
  unfold source_unchanged, matches, hashed. split.
  - intros (t & A & B). exists (dec_of_N t). split; [exact B|]. exists t. split; [exact A|reflexivity].
  - intros (h & A & (t & B & ->)). exists t. split; assumption.
Qed.

(** What the object check selects when all files exist. *)
Lemma obj_check_selects (st : tstate) (c : cfg) :
  like c (s_user st) -> NoDup (sources c) -> s_ok st = true ->
  (forall p, In p (sources c ++ headers c ++ compile_deps c) -> d_mt (s_disk st) p <> None) ->
  exists pend, s_pc (obj_check st) = PcCompile pend /\ NoDup (il_paths pend) /\
    (forall l, s_load st = Some l -> s_dirty st = false -> compile_setup_unchanged l c (d_mt (s_disk st)) ->
       forall p, In p (il_paths pend) <-> In p (sources c) /\ ~ source_unchanged l (d_mt (s_disk st)) p) /\
    ((s_load st = None \/ s_dirty st = true \/
      exists l, s_load st = Some l /\ ~ compile_setup_unchanged l c (d_mt (s_disk st))) ->
       il_paths pend = sources c).
Proof.
  intros L ND O EX. unfold obj_check. rewrite O. cbn [negb].
  destruct (obj_pre (d_mt (s_disk st)) (s_user st)) as [u b] eqn:Ep.
  destruct (obj_pre_like _ c _ _ _ L Ep) as (L' & HH & Hb). rewrite (Hb EX). cbn [negb].
  destruct (HH (Hb EX)) as (H1 & H2 & H3). stp.
  assert (ND' : NoDup (il_paths (ts_sources u))) by (rewrite (like_sources _ _ L'); exact ND).
  destruct (match s_load st with None => true | Some l => s_dirty st || negb (obj_same l u) end) eqn:Ed.
  - exists (ts_sources u). stp. split; [reflexivity|]. split; [exact ND'|]. split.
    + intros l E D C p. exfalso. apply unchanged_objclean in C. apply (obj_same_iff _ _ _ _ L' H2 H3) in C.
      rewrite E, D, C in Ed. discriminate.
    + intros _. exact (like_sources _ _ L').
  - destruct (s_load st) as [l|] eqn:El; [|discriminate]. apply orb_false_iff in Ed as [D Ed].
    apply negb_false_iff in Ed.
    destruct (recompile_sources (ts_sources l) (ts_sources u)) as [[sel dum] ch] eqn:Er.
    destruct (recompile_sources_spec _ _ _ _ _ ND' Er) as (Sel & Dum & Ch & Pm).
    exists sel. stp. split; [reflexivity|]. split; [|split].
    + pose proof (Permutation_map pi_path Pm) as K. rewrite map_app in K. apply (Permutation_NoDup K) in ND'.
      apply NoDup_app_l in ND'. exact ND'.
    + intros l0 [= <-] _ C p. rewrite unchanged_matches. split.
      * intros Hp. apply in_map_iff in Hp as (i & <- & Hi). apply Sel in Hi as [Hi K].
        split; [rewrite <- (like_sources _ _ L'); apply in_map; exact Hi|]. intros M. apply K.
        apply (Hashed_lookup _ l (ts_sources u) i (Hashed_In _ _ _ _ H1 Hi)). exact M.
      * intros [Hp K]. rewrite <- (like_sources _ _ L') in Hp. apply in_map_iff in Hp as (i & <- & Hi).
        apply in_map. apply Sel. split; [exact Hi|]. intros M. apply K.
        apply (Hashed_lookup _ l (ts_sources u) i (Hashed_In _ _ _ _ H1 Hi)). exact M.
    + intros [K|[K|(l0 & [= <-] & K)]]; [discriminate|congruence|]. exfalso. apply K.
      apply unchanged_objclean. apply (obj_same_iff _ _ _ _ L' H2 H3). exact Ed.
Qed.

Theorem compiled_exactly rg e d0 evs h st cs st2 :
  templates_ok e -> history rg e d0 evs h st -> s_pc st = PcObj -> s_ok st = true ->
  (forall p, In p (sources (s_cfg st) ++ headers (s_cfg st) ++ compile_deps (s_cfg st)) -> d_mt (s_disk st) p <> None) ->
  exec e st (EvObjCheck :: compiles cs ++ [EvLinkCheck]) = Some st2 ->
  NoDup (map fst cs) /\
  (forall l, stored (s_disk st) = Some l -> s_dirty st = false ->
     compile_setup_unchanged l (s_cfg st) (d_mt (s_disk st)) ->
     forall p, In p (map fst cs) <-> In p (sources (s_cfg st)) /\ ~ source_unchanged l (d_mt (s_disk st)) p) /\
  (stored (s_disk st) = None \/ s_dirty st = true \/
   (exists l, stored (s_disk st) = Some l /\ ~ compile_setup_unchanged l (s_cfg st) (d_mt (s_disk st))) ->
   Permutation (map fst cs) (sources (s_cfg st))).
Proof.
  intros T H P O EX X. pose proof (history_Inv rg e T _ _ _ _ H) as I.
  assert (RI : RunInv rg e h st) by (apply (i_run _ _ _ _ I); congruence).
  pose proof (r_like _ _ _ _ RI) as L. pose proof (r_load _ _ _ _ RI) as Ld.
  pose proof (nodup_sources e _ (proj1 (r_perm _ _ _ _ RI))) as ND.
  destruct (obj_check_selects st (s_cfg st) L ND O EX) as (pend & P1 & N1 & A & B).
  erewrite exec_cons in X by (cbn [step]; rewrite P; reflexivity).
  rewrite exec_app in X. destruct (exec e (obj_check st) (compiles cs)) as [st1|] eqn:X1; [|discriminate].
  destruct (compiles_pending e cs _ _ _ X1 P1) as (pend' & P2 & Pm).
  cbn [exec step] in X. rewrite P2 in X. destruct pend' as [|? ?]; [|discriminate]. cbn [il_paths map] in Pm.
  rewrite app_nil_r in Pm. split; [exact (Permutation_NoDup Pm N1)|]. rewrite <- Ld. split.
  - intros l E D C p. rewrite <- (A l E D C p). split; intros Hp; [apply (Permutation_in p (Permutation_sym Pm) Hp)|apply (Permutation_in p Pm Hp)].
  - intros K. rewrite <- Pm, (B K). reflexivity.
Qed.

(** ** Failures *)

Lemma take_pending_other (s : string) (l r : infolist) (i : pathinfo) :
  take_pending s l = Some (i, r) -> pi_path i = s.
Proof. intros H. exact (proj1 (take_pending_spec _ _ _ _ H)). Qed.

Lemma step_obj_bad e st ev st' k :
  step e st ev = Some st' -> d_obj_bad (s_disk st) k = true ->
  d_obj_bad (s_disk st') k = true \/ exists s, obj_of e s = k /\ ev = EvCompile s XOk.
Proof.
  intros S B. destruct ev; cbn [step] in S.
  - injection S as <-. left. exact B.
  - injection S as <-. left. exact B.
  - destruct (s_pc st); try discriminate; injection S as <-; left; exact B.
  - injection S as <-. left. exact B.
  - injection S as <-. left. stp. unfold upd. destruct (String.eqb_spec k o); [subst k|]; exact B.
  - injection S as <-. left. exact B.
  - injection S as <-. left. exact B.
  - destruct (s_pc st); try discriminate. unfold start in S. destruct (_ || _); [discriminate|].
    destruct (forallb _ _); injection S as <-; left; exact B.
  - destruct (s_pc st); try discriminate. injection S as <-. left. unfold pch_check.
    destruct (negb (s_ok st)); [exact B|]. destruct (pch_pre _ _). destruct (negb b); [exact B|].
    destruct (_ || _); exact B.
  - destruct (s_pc st); try discriminate. left. unfold pch_exec in S.
    destruct (pch_command _ _); try discriminate. injection S as <-. destruct (run_res _ _); exact B.
  - destruct (s_pc st); try discriminate. injection S as <-. left.
    unfold obj_check. destruct (negb (s_ok st)); [exact B|]. destruct (obj_pre _ _). destruct (negb b); [exact B|].
    destruct (if _ : bool then _ else _) as [[x y] z]. exact B.
  - destruct (s_pc st); try discriminate. unfold compile_one in S.
    destruct (take_pending _ _) as [[i r']|]; [|discriminate]. destruct (compile_command _ _ _); try discriminate.
    injection S as <-. destruct (run_res s0 r) as [|lo|] eqn:Er; stp.
    + apply run_res_ok in Er. subst r. unfold upd. destruct (String.eqb_spec k (obj_of e s)) as [->|]; [right; eauto|left; exact B].
    + left. unfold upd. destruct (String.eqb k (obj_of e s)); [reflexivity|exact B].
    + left. unfold upd. destruct (String.eqb k (obj_of e s)); [reflexivity|exact B].
  - destruct (s_pc st) as [| | | |[|? ?]| |]; try discriminate. injection S as <-. left.
    unfold link_check. destruct (negb (s_ok st)); [exact B|]. destruct (link_pre _ _). destruct (negb b); exact B.
  - destruct (s_pc st); try discriminate. left. unfold link_exec in S.
    destruct (link_command _ _ _); try discriminate. injection S as <-. destruct (run_res _ _); exact B.
  - destruct (s_pc st) eqn:E; try discriminate. left.
    assert (S' : step e st (EvEnd w) = Some st') by (cbn [step]; rewrite E; exact S).
    destruct (step_end _ _ _ _ S') as (_ & _ & _ & _ & (_ & _ & _ & _ & K & _) & _). rewrite <- K. exact B.
  - destruct (s_pc st); try discriminate. destruct (s_dirty st); [|discriminate].
    destruct (bind _ _); [|discriminate]. injection S as <-. left. exact B.
Qed.
Lemma exec_obj_bad e k evs : forall st st',
  exec e st evs = Some st' -> d_obj_bad (s_disk st) k = true ->
  d_obj_bad (s_disk st') k = true \/ exists s, obj_of e s = k /\ In (EvCompile s XOk) evs.
Proof.
  induction evs as [|ev evs IH]; intros st st' X B; cbn [exec] in X.
  - injection X as <-. left. exact B.
  - destruct (step e st ev) as [st1|] eqn:S; [|discriminate].
    destruct (step_obj_bad _ _ _ _ _ S B) as [B1|(s & E & ->)].
    + destruct (IH _ _ X B1) as [B2|(s & E & K)]; [left; exact B2|right; exists s; split; [exact E|right; exact K]].
    + right. exists s. split; [exact E|left; reflexivity].
Qed.
Lemma failed_compile_bad e st s r st' :
  step e st (EvCompile s r) = Some st' -> r <> XOk -> d_obj_bad (s_disk st') (obj_of e s) = true.
Proof.
  intros S N. destruct (compile_shape _ _ _ _ _ S) as (pend & i & rest & cmd & _ & Tk & Ec & _ & _ & K).
  unfold compile_one in K. rewrite Tk, Ec in K. injection K as <-.
  destruct (run_res cmd r) as [|lo|] eqn:Er; [apply run_res_ok in Er; contradiction| |]; stp; unfold upd; rewrite String.eqb_refl; reflexivity.
Qed.

Theorem failed_source_recompiled rg e d0 evs1 s r evs2 w h st :
  templates_ok e -> r <> XOk ->
  history rg e d0 (evs1 ++ EvCompile s r :: evs2 ++ [EvEnd w]) h st -> s_ok st = true -> h_edited h = false ->
  In s (sources (s_cfg st)) ->
  exists s', obj_of e s' = obj_of e s /\ In (EvCompile s' XOk) evs2.
Proof.
  intros T N H O E Hs.
  assert (H' : history rg e d0 ((evs1 ++ EvCompile s r :: evs2) ++ [EvEnd w]) h st).
  { rewrite <- app_assoc. exact H. }
  destruct (success_current rg e d0 _ w h st T H' O E) as (_ & C & _).
  destruct (C s Hs) as (a & _ & B & _).
  change (evs1 ++ EvCompile s r :: evs2 ++ [EvEnd w]) with (evs1 ++ (EvCompile s r :: (evs2 ++ [EvEnd w]))) in H.
  apply history_split in H as (h1 & st1 & H1 & X). cbn [exec] in X.
  destruct (step e st1 (EvCompile s r)) as [st2|] eqn:S; [|discriminate].
  pose proof (failed_compile_bad _ _ _ _ _ S N) as B1.
  destruct (exec_obj_bad e _ _ _ _ X B1) as [K|(s' & E' & K)]; [congruence|].
  exists s'. split; [exact E'|]. apply in_app_iff in K as [K|[K|[]]]; [exact K|discriminate].
Qed.

(** ** Stage gating *)

Definition no_start (evs : list event) : Prop := forall c ord, ~ In (EvStart c ord) evs.

Record Dead (st0 st : tstate) (stage : xcmd -> Prop) (pcs : pcount -> Prop) : Prop := {
  dd_ok : s_ok st = false;
  dd_log : exists l, s_log st = s_log st0 ++ l /\ Forall stage l;
  dd_pc : pcs (s_pc st) }.

Definition pcs_obj (p : pcount) : Prop := p = PcObj \/ p = PcCompile [] \/ p = PcEnd \/ p = Idle.
Definition pcs_compile (p : pcount) : Prop := (exists l, p = PcCompile l) \/ p = PcEnd \/ p = Idle.
Definition pcs_end (p : pcount) : Prop := p = PcEnd \/ p = Idle.

Lemma step_keeps e st ev st' : step e st ev = Some st' ->
  match ev with EvEdit _ _ | EvFail | EvDropStore | EvDelObj _ | EvDelPch | EvDelTgt => True | _ => False end ->
  s_pc st' = s_pc st /\ s_log st' = s_log st /\ (s_ok st = false -> s_ok st' = false).
Proof. destruct ev; cbn [step]; intros H K; try destruct K; injection H as <-; stp; auto. Qed.

Lemma end_log e st w st' : step e st (EvEnd w) = Some st' ->
  s_pc st' = Idle /\ s_log st' = s_log st /\ (s_ok st = false -> s_ok st' = false).
Proof.
  intros H. destruct (step_end _ _ _ _ H) as (_ & A & _ & _ & _ & B & C & _). repeat split; try assumption.
  intros K. destruct (s_ok st'); [rewrite (C eq_refl) in K; discriminate|reflexivity].
Qed.

Lemma Dead_step_compile e st0 st ev st' :
  step e st ev = Some st' -> is_start ev = false ->
  Dead st0 st is_xobj pcs_compile -> Dead st0 st' is_xobj pcs_compile.
Proof.
  intros S N [D1 (l & D2 & D3) D4].
  assert (Keep : s_pc st' = s_pc st /\ s_log st' = s_log st /\ (s_ok st = false -> s_ok st' = false) ->
     Dead st0 st' is_xobj pcs_compile).
  { intros (A & B & C). constructor; [exact (C D1)|exists l; rewrite B; split; assumption|rewrite A; exact D4]. }
  destruct ev; try discriminate N; try (apply Keep; exact (step_keeps _ _ _ _ S I)).
  - cbn [step] in S. destruct (s_pc st) eqn:E; try discriminate; injection S as <-;
      (constructor; [reflexivity|exists l; split; assumption|right; right; reflexivity]).
  - cbn [step] in S. destruct D4 as [(p & D4)|[D4|D4]]; rewrite D4 in S; discriminate.
  - cbn [step] in S. destruct D4 as [(p & D4)|[D4|D4]]; rewrite D4 in S; discriminate.
  - cbn [step] in S. destruct D4 as [(p & D4)|[D4|D4]]; rewrite D4 in S; discriminate.
  - destruct (compile_shape _ _ _ _ _ S) as (pend & i & rest & cmd & P & Tk & Ec & P' & _ & K).
    unfold compile_one in K. rewrite Tk, Ec in K. injection K as <-.
    destruct (run_res cmd r); stp; (constructor; stp; [assumption || reflexivity| |left; eauto]).
    + exists (l ++ [XObj s cmd]). rewrite D2, app_assoc. split; [reflexivity|]. apply Forall_app. split; [exact D3|repeat constructor].
    + exists (l ++ [XObj s cmd]). rewrite D2, app_assoc. split; [reflexivity|]. apply Forall_app. split; [exact D3|repeat constructor].
    + exists l. split; assumption.
  - cbn [step] in S. destruct (s_pc st) as [| | | |[|? ?]| |] eqn:E; try discriminate. injection S as <-.
    unfold link_check. rewrite D1. cbn [negb]. constructor; stp; [exact D1|eauto|right; left; reflexivity].
  - cbn [step] in S. destruct D4 as [(p & D4)|[D4|D4]]; rewrite D4 in S; discriminate.
  - destruct (end_log _ _ _ _ S) as (A & B & C). constructor; [exact (C D1)|exists l; rewrite B; split; assumption|right; right; exact A].
  - cbn [step] in S. destruct (s_pc st) eqn:E; try discriminate. destruct (s_dirty st); [|discriminate].
    destruct (bind _ _); [|discriminate]. injection S as <-. constructor; stp; [reflexivity|eauto|right; right; reflexivity].
Qed.
Lemma Dead_step_obj e st0 st ev st' stage :
  step e st ev = Some st' -> is_start ev = false ->
  Dead st0 st stage pcs_obj -> Dead st0 st' stage pcs_obj.
Proof.
  intros S N [D1 (l & D2 & D3) D4].
  assert (Keep : s_pc st' = s_pc st /\ s_log st' = s_log st /\ (s_ok st = false -> s_ok st' = false) ->
     Dead st0 st' stage pcs_obj).
  { intros (A & B & C). constructor; [exact (C D1)|exists l; rewrite B; split; assumption|rewrite A; exact D4]. }
  destruct ev; try discriminate N; try (apply Keep; exact (step_keeps _ _ _ _ S I)).
  - cbn [step] in S. destruct (s_pc st) eqn:E; try discriminate; injection S as <-;
      (constructor; [reflexivity|exists l; split; assumption|right; right; right; reflexivity]).
  - cbn [step] in S. destruct D4 as [D4|[D4|[D4|D4]]]; rewrite D4 in S; discriminate.
  - cbn [step] in S. destruct D4 as [D4|[D4|[D4|D4]]]; rewrite D4 in S; discriminate.
  - cbn [step] in S. destruct (s_pc st) eqn:E; try discriminate. injection S as <-. unfold obj_check. rewrite D1. cbn [negb].
    constructor; stp; [exact D1|eauto|right; left; reflexivity].
  - cbn [step] in S. destruct D4 as [D4|[D4|[D4|D4]]]; rewrite D4 in S; discriminate.
  - cbn [step] in S. destruct (s_pc st) as [| | | |[|? ?]| |] eqn:E; try discriminate. injection S as <-.
    unfold link_check. rewrite D1. cbn [negb]. constructor; stp; [exact D1|eauto|right; right; left; reflexivity].
  - cbn [step] in S. destruct D4 as [D4|[D4|[D4|D4]]]; rewrite D4 in S; discriminate.
  - destruct (end_log _ _ _ _ S) as (A & B & C). constructor; [exact (C D1)|exists l; rewrite B; split; assumption|right; right; right; exact A].
  - cbn [step] in S. destruct (s_pc st) eqn:E; try discriminate. destruct (s_dirty st); [|discriminate].
    destruct (bind _ _); [|discriminate]. injection S as <-. constructor; stp; [reflexivity|eauto|right; right; right; reflexivity].
Qed.

Lemma Dead_exec e st0 stage pcs evs :
  (forall st ev st', step e st ev = Some st' -> is_start ev = false -> Dead st0 st stage pcs -> Dead st0 st' stage pcs) ->
  forall st st', exec e st evs = Some st' -> forallb (fun ev => negb (is_start ev)) evs = true ->
  Dead st0 st stage pcs -> Dead st0 st' stage pcs.
Proof.
  intros St. induction evs as [|ev evs IH]; intros st st' X N D; cbn [exec forallb] in *.
  - injection X as <-. exact D.
  - apply andb_true_iff in N as [N1 N2]. destruct (step e st ev) as [st1|] eqn:S; [|discriminate].
    apply negb_true_iff in N1. exact (IH st1 st' X N2 (St st ev st1 S N1 D)).
Qed.

Theorem failure_stops e st ev stage evs st' :
  failing ev stage -> exec e st (ev :: evs) = Some st' -> forallb (fun ev => negb (is_start ev)) evs = true ->
  s_ok st' = false /\ exists l, s_log st' = s_log st ++ l /\ Forall stage l.
Proof.
  intros F X N. cbn [exec] in X. destruct (step e st ev) as [st1|] eqn:S; [|discriminate].
  destruct ev; cbn [failing] in F; try destruct F; try (destruct r; [destruct F| |]; subst stage).
  - assert (D : Dead st st1 is_xpch pcs_obj).
    { cbn [step] in S. destruct (s_pc st); try discriminate. unfold pch_exec in S. destruct (pch_command e (s_cfg st)) as [cmd| |]; try discriminate.
      injection S as <-. unfold run_res. destruct (String.eqb cmd ""); constructor; stp; try reflexivity; try (left; reflexivity).
      - exists []. rewrite app_nil_r. split; [reflexivity|constructor].
      - eexists. split; [reflexivity|repeat constructor]. }
    destruct (Dead_exec e st is_xpch pcs_obj evs (fun a b c => Dead_step_obj e st a b c is_xpch) st1 st' X N D). auto.
  - assert (D : Dead st st1 is_xpch pcs_obj).
    { cbn [step] in S. destruct (s_pc st); try discriminate. unfold pch_exec in S. destruct (pch_command e (s_cfg st)) as [cmd| |]; try discriminate.
      injection S as <-. unfold run_res. destruct (String.eqb cmd ""); constructor; stp; try reflexivity; try (left; reflexivity);
      exists []; rewrite app_nil_r; (split; [reflexivity|constructor]). }
    destruct (Dead_exec e st is_xpch pcs_obj evs (fun a b c => Dead_step_obj e st a b c is_xpch) st1 st' X N D). auto.
  - assert (D : Dead st st1 is_xobj pcs_compile).
    { destruct (compile_shape _ _ _ _ _ S) as (pend & i & rest & cmd & P & Tk & Ec & P' & _ & K).
      unfold compile_one in K. rewrite Tk, Ec in K. injection K as <-.
      unfold run_res. destruct (String.eqb cmd ""); constructor; stp; try reflexivity; try (left; eauto).
      - exists []. rewrite app_nil_r. split; [reflexivity|constructor].
      - eexists. split; [reflexivity|repeat constructor]. }
    destruct (Dead_exec e st is_xobj pcs_compile evs (Dead_step_compile e st) st1 st' X N D). auto.
  - assert (D : Dead st st1 is_xobj pcs_compile).
    { destruct (compile_shape _ _ _ _ _ S) as (pend & i & rest & cmd & P & Tk & Ec & P' & _ & K).
      unfold compile_one in K. rewrite Tk, Ec in K. injection K as <-.
      unfold run_res. destruct (String.eqb cmd ""); constructor; stp; try reflexivity; try (left; eauto);
      exists []; rewrite app_nil_r; (split; [reflexivity|constructor]). }
    destruct (Dead_exec e st is_xobj pcs_compile evs (Dead_step_compile e st) st1 st' X N D). auto.
  - assert (D : Dead st st1 is_xlink pcs_obj).
    { cbn [step] in S. destruct (s_pc st); try discriminate. unfold link_exec in S. destruct (link_command e (s_cfg st) (s_ord st)) as [cmd| |]; try discriminate.
      injection S as <-. unfold run_res. destruct (String.eqb cmd ""); constructor; stp; try reflexivity; try (right; right; left; reflexivity).
      - exists []. rewrite app_nil_r. split; [reflexivity|constructor].
      - eexists. split; [reflexivity|repeat constructor]. }
    destruct (Dead_exec e st is_xlink pcs_obj evs (fun a b c => Dead_step_obj e st a b c is_xlink) st1 st' X N D). auto.
  - assert (D : Dead st st1 is_xlink pcs_obj).
    { cbn [step] in S. destruct (s_pc st); try discriminate. unfold link_exec in S. destruct (link_command e (s_cfg st) (s_ord st)) as [cmd| |]; try discriminate.
      injection S as <-. unfold run_res. destruct (String.eqb cmd ""); constructor; stp; try reflexivity; try (right; right; left; reflexivity);
      exists []; rewrite app_nil_r; (split; [reflexivity|constructor]). }
    destruct (Dead_exec e st is_xlink pcs_obj evs (fun a b c => Dead_step_obj e st a b c is_xlink) st1 st' X N D). auto.
Qed.

Theorem link_has_all_objects rg e d0 evs h st r st' :
  templates_ok e -> history rg e d0 evs h st -> step e st (EvLinkExec r) = Some st' ->
  forall s, In s (sources (s_cfg st)) ->
  exists a, d_obj (s_disk st) (obj_of e s) = Some a /\ d_obj_bad (s_disk st) (obj_of e s) = false /\
    compile_command e (s_cfg st) s = FOk (a_cmd a).
Proof.
  intros T H S s Hs. pose proof (history_Inv rg e T _ _ _ _ H) as I. cbn [step] in S.
  destruct (s_pc st) eqn:E; try discriminate. assert (RI : RunInv rg e h st) by (apply (i_run _ _ _ _ I); congruence).
  destruct RI. unfold Stage in r_stage. rewrite E in r_stage. destruct r_stage. destruct r_buf.
  rewrite <- sl_perm in Hs. apply in_map_iff in Hs as (i & <- & Hi).
  destruct (b_src i Hi) as (_ & a & A1 & A2 & A3 & _). exists a. auto.
Qed.

(** ** Schedules *)

Lemma take_pending_swap (s1 s2 : string) (l r1 r12 : infolist) (i1 i2 : pathinfo) :
  s1 <> s2 -> take_pending s1 l = Some (i1, r1) -> take_pending s2 r1 = Some (i2, r12) ->
  exists r2, take_pending s2 l = Some (i2, r2) /\ take_pending s1 r2 = Some (i1, r12).
Proof.
  intros N. revert r1 r12. induction l as [|x l IH]; intros r1 r12 H1 H2; cbn [take_pending] in H1; [discriminate|].
  destruct (String.eqb (pi_path x) s1) eqn:E1.
  - injection H1 as <- <-. cbn [take_pending]. apply String.eqb_eq in E1.
    destruct (String.eqb_spec (pi_path x) s2) as [E2|E2]; [congruence|]. rewrite H2. eexists. split; [reflexivity|].
    cbn [take_pending]. rewrite E1, String.eqb_refl. reflexivity.
  - destruct (take_pending s1 l) as [[y r]|] eqn:Et; [|discriminate]. injection H1 as <- <-.
    cbn [take_pending] in *. destruct (String.eqb (pi_path x) s2) eqn:E2.
    + injection H2 as <- <-. eexists. split; [reflexivity|exact Et].
    + destruct (take_pending s2 r) as [[z r']|] eqn:Et2; [|discriminate]. injection H2 as <- <-.
      destruct (IH r r' eq_refl Et2) as (r2 & A & B). rewrite A. eexists. split; [reflexivity|].
      cbn [take_pending]. rewrite E1, B. reflexivity.
Qed.

Record eqv (a b : tstate) : Prop := {
  v_ok : s_ok a = s_ok b;
  v_dirty : s_dirty a = s_dirty b;
  v_objects : forall k, d_obj (s_disk a) k = d_obj (s_disk b) k;
  v_bad : forall k, d_obj_bad (s_disk a) k = d_obj_bad (s_disk b) k;
  v_disk : d_mt (s_disk a) = d_mt (s_disk b) /\ d_pch (s_disk a) = d_pch (s_disk b) /\
            d_tgt (s_disk a) = d_tgt (s_disk b) /\ d_store (s_disk a) = d_store (s_disk b) /\
            d_pch_bad (s_disk a) = d_pch_bad (s_disk b) /\ d_tgt_bad (s_disk a) = d_tgt_bad (s_disk b);
  v_recorded : Permutation (ts_sources (s_buf a)) (ts_sources (s_buf b)) /\
                with_sources (s_buf a) [] = with_sources (s_buf b) [];
  v_executed : Permutation (s_log a) (s_log b);
  v_memory : s_cfg a = s_cfg b /\ s_ord a = s_ord b /\ s_user a = s_user b /\ s_load a = s_load b;
  v_pc : s_pc a = s_pc b }.
Lemma eqv_refl (a : tstate) : eqv a a.
Proof. constructor; repeat split; reflexivity. Qed.
Lemma eqv_trans (a b c : tstate) : eqv a b -> eqv b c -> eqv a c.
Proof.
  intros [] []. constructor.
  - congruence.
  - congruence.
  - intros k. rewrite v_objects0. apply v_objects1.
  - intros k. rewrite v_bad0. apply v_bad1.
  - destruct v_disk0 as (?&?&?&?&?&?), v_disk1 as (?&?&?&?&?&?). repeat split; congruence.
  - destruct v_recorded0, v_recorded1. split; [etransitivity; eassumption|congruence].
  - etransitivity; eassumption.
  - destruct v_memory0 as (?&?&?&?), v_memory1 as (?&?&?&?). repeat split; congruence.
  - congruence.
Qed.

Lemma upd_ext {A} (f g : string -> A) (k : string) (v w : A) :
  (forall x, f x = g x) -> v = w -> forall x, upd f k v x = upd g k w x.
Proof. intros H -> x. unfold upd. destruct (String.eqb x k); [reflexivity|apply H]. Qed.

Lemma eqv_compile e a b s r a' :
  eqv a b -> step e a (EvCompile s r) = Some a' ->
  exists b', step e b (EvCompile s r) = Some b' /\ eqv a' b'.
Proof.
  intros [] S. destruct (compile_shape _ _ _ _ _ S) as (pend & i & rest & cmd & P & Tk & Ec & P' & _ & K).
  destruct v_disk0 as (X1 & X2 & X3 & X4 & X5 & X6), v_memory0 as (M1 & M2 & M3 & M4), v_recorded0 as [Y1 Y2].
  cbn [step]. rewrite <- v_pc0, P. unfold compile_one in *. rewrite <- M1. rewrite Tk, Ec in *. injection K as <-.
  destruct (run_res cmd r) as [|lo|]; eexists; (split; [reflexivity|]); constructor; stp; auto.
  - apply upd_ext; [exact v_objects0|]. rewrite X1, X2. reflexivity.
  - apply upd_ext; [exact v_bad0|reflexivity].
  - repeat split; assumption.
  - unfold add_source, il_emplace. tsp. split; [apply Permutation_app_tail; exact Y1|exact Y2].
  - apply Permutation_app_tail. exact v_executed0.
  - apply upd_ext; [exact v_objects0|reflexivity].
  - apply upd_ext; [exact v_bad0|reflexivity].
  - repeat split; assumption.
  - apply Permutation_app_tail. exact v_executed0.
  - apply upd_ext; [exact v_objects0|apply v_objects0].
  - apply upd_ext; [exact v_bad0|reflexivity].
  - repeat split; assumption.
Qed.
Lemma eqv_compiles e cs : forall a b a',
  eqv a b -> exec e a (compiles cs) = Some a' -> exists b', exec e b (compiles cs) = Some b' /\ eqv a' b'.
Proof.
  induction cs as [|[s r] cs IH]; intros a b a' V X; cbn [compiles map exec fst snd] in *.
  - injection X as <-. eauto.
  - destruct (step e a (EvCompile s r)) as [a1|] eqn:S; [|discriminate].
    destruct (eqv_compile e a b s r a1 V S) as (b1 & S' & V'). rewrite S'. exact (IH a1 b1 a' V' X).
Qed.

Lemma upd_swap {A} (f : string -> A) (k1 k2 : string) (v1 v2 : A) :
  k1 <> k2 -> forall x, upd (upd f k1 v1) k2 v2 x = upd (upd f k2 v2) k1 v1 x.
Proof.
  intros N x. unfold upd. destruct (String.eqb_spec x k1), (String.eqb_spec x k2); try reflexivity. congruence.
Qed.

(** Effect of one compile as a function. *)
Lemma compile_swap e st s1 r1 s2 r2 st12 :
  s1 <> s2 -> obj_of e s1 <> obj_of e s2 ->
  exec e st (compiles [(s1, r1); (s2, r2)]) = Some st12 ->
  exists st21, exec e st (compiles [(s2, r2); (s1, r1)]) = Some st21 /\ eqv st12 st21.
Proof.
  intros Ns No X. cbn [compiles map exec fst snd] in X.
  destruct (step e st (EvCompile s1 r1)) as [st1|] eqn:S1; [|discriminate].
  destruct (step e st1 (EvCompile s2 r2)) as [st2|] eqn:S2; [|discriminate]. injection X as <-.
  destruct (compile_shape _ _ _ _ _ S1) as (pend & i1 & rest1 & cmd1 & P & Tk1 & Ec1 & P1 & C1 & K1).
  destruct (compile_shape _ _ _ _ _ S2) as (pend1 & i2 & rest12 & cmd2 & Q & Tk2 & Ec2 & P2 & C2 & K2).
  assert (pend1 = rest1) as -> by congruence. rewrite C1 in Ec2.
  destruct (take_pending_swap _ _ _ _ _ _ _ Ns Tk1 Tk2) as (rest2 & Tk2' & Tk1').
  cbn [compiles map exec fst snd step]. rewrite P. unfold compile_one. rewrite Tk2', Ec2.
  unfold compile_one in K1. rewrite Tk1, Ec1 in K1. injection K1 as <-.
  unfold compile_one in K2.
  assert (Ec2' : forall x, s_cfg x = s_cfg st -> compile_command e (s_cfg x) s2 = FOk cmd2) by (intros x ->; exact Ec2).
  rewrite Tk2 in K2. rewrite Ec2' in K2 by exact C1. injection K2 as <-.
  clear S1 S2 C1 C2 P1 P2 Q.
  destruct (run_res cmd1 r1) as [|lo1|] eqn:E1, (run_res cmd2 r2) as [|lo2|]; stp; rewrite Tk1', Ec1, E1; eexists; (split; [reflexivity|]);
    constructor; stp; try reflexivity; try (repeat split; reflexivity); rewrite ?upd_other by congruence;
    try (apply upd_swap; exact No);
    try (rewrite <- !app_assoc; apply Permutation_app_head; apply perm_swap).
  unfold add_source, il_emplace. tsp. split; [|reflexivity]. rewrite <- !app_assoc. apply Permutation_app_head. apply perm_swap.
Qed.

Lemma compiles_app cs1 cs2 : compiles (cs1 ++ cs2) = compiles cs1 ++ compiles cs2.
Proof. unfold compiles. apply map_app. Qed.

Lemma schedule_eqv e cs1 cs2 : Permutation cs1 cs2 -> forall st st1,
  NoDup (map (fun x => obj_of e (fst x)) cs1) ->
  exec e st (compiles cs1) = Some st1 -> exists st2, exec e st (compiles cs2) = Some st2 /\ eqv st1 st2.
Proof.
  induction 1 as [|x l l' _ IH|x y l|l l' l'' P1 IH1 P2 IH2]; intros st st1 N X.
  - exists st1. split; [exact X|apply eqv_refl].
  - cbn [map] in N. apply NoDup_cons_iff in N as [_ N]. cbn [compiles map exec] in *.
    destruct (step e st _) as [st'|]; [|discriminate]. exact (IH st' st1 N X).
  - change (y :: x :: l) with ([y; x] ++ l) in X. change (x :: y :: l) with ([x; y] ++ l).
    rewrite compiles_app, exec_app in *. destruct (exec e st (compiles [y; x])) as [sa|] eqn:Xa; [|discriminate].
    destruct x as [s1 r1], y as [s2 r2].
    assert (No : obj_of e s2 <> obj_of e s1).
    { cbn in N. apply NoDup_cons_iff in N as [N _]. intros K. apply N. left. congruence. }
    assert (Ns : s2 <> s1) by congruence.
    destruct (compile_swap e st s2 r2 s1 r1 sa Ns No Xa) as (sb & Xb & V). rewrite Xb.
    exact (eqv_compiles e l sa sb st1 V X).
  - destruct (IH1 st st1 N X) as (st2 & X2 & V2).
    assert (N' : NoDup (map (fun x => obj_of e (fst x)) l')) by exact (Permutation_NoDup (Permutation_map _ P1) N).
    destruct (IH2 st st2 N' X2) as (st3 & X3 & V3). exists st3. split; [exact X3|exact (eqv_trans _ _ _ V2 V3)].
Qed.

Theorem schedule_independent e st pend cs1 cs2 st1 :
  s_pc st = PcCompile pend -> NoDup (map (obj_of e) (il_paths pend)) -> Permutation cs1 cs2 ->
  exec e st (compiles cs1) = Some st1 ->
  exists st2, exec e st (compiles cs2) = Some st2 /\ same_result st1 st2.
Proof.
  intros P N Pm X. destruct (compiles_pending e cs1 st st1 pend X P) as (pend' & _ & Q).
  assert (N1 : NoDup (map (fun x => obj_of e (fst x)) cs1)).
  { apply (Permutation_NoDup (Permutation_map (obj_of e) Q)) in N. rewrite map_app in N.
    apply NoDup_app_l in N. rewrite map_map in N. exact N. }
  destruct (schedule_eqv e cs1 cs2 Pm st st1 N1 X) as (st2 & X2 & []). exists st2. split; [exact X2|].
  constructor; auto.
Qed.

(** ** The pieces of [all_current] *)
Lemma quiet_objects e d0 evs w h st :
  templates_ok e -> history Quiet e d0 (evs ++ [EvEnd w]) h st -> s_ok st = true ->
  forall s, In s (sources (s_cfg st)) -> obj_current e (s_cfg st) (d_mt (s_disk st)) (s_disk st) s.
Proof. intros T H O. exact (proj1 (proj2 (quiet_current e d0 evs w h st T H O))). Qed.
Lemma quiet_target e d0 evs w h st :
  templates_ok e -> history Quiet e d0 (evs ++ [EvEnd w]) h st -> s_ok st = true ->
  tgt_current e (s_cfg st) (d_mt (s_disk st)) (s_disk st).
Proof. intros T H O. exact (proj2 (proj2 (quiet_current e d0 evs w h st T H O))). Qed.
Lemma quiet_pch e d0 evs w h st :
  templates_ok e -> history Quiet e d0 (evs ++ [EvEnd w]) h st -> s_ok st = true ->
  pchs (s_cfg st) <> [] -> pch_current e (s_cfg st) (d_mt (s_disk st)) (s_disk st).
Proof. intros T H O. exact (proj1 (quiet_current e d0 evs w h st T H O)). Qed.

(** A failed PCH command, a failed link. *)
Lemma step_pch_bad e st ev st' :
  step e st ev = Some st' -> d_pch_bad (s_disk st) = true ->
  d_pch_bad (s_disk st') = true \/ ev = EvPchExec XOk.
Proof.
  intros S B. destruct ev; cbn [step] in S.
  - injection S as <-. left. exact B.
  - injection S as <-. left. exact B.
  - destruct (s_pc st); try discriminate; injection S as <-; left; exact B.
  - injection S as <-. left. exact B.
  - injection S as <-. left. exact B.
  - injection S as <-. left. exact B.
  - injection S as <-. left. exact B.
  - destruct (s_pc st); try discriminate. unfold start in S. destruct (_ || _); [discriminate|].
    destruct (forallb _ _); injection S as <-; left; exact B.
  - destruct (s_pc st); try discriminate. injection S as <-. left. unfold pch_check.
    destruct (negb (s_ok st)); [exact B|]. destruct (pch_pre _ _). destruct (negb b); [exact B|].
    destruct (_ || _); exact B.
  - destruct (s_pc st); try discriminate. unfold pch_exec in S.
    destruct (pch_command _ _) as [cmd| |]; try discriminate. injection S as <-.
    destruct (run_res cmd r) as [|lo|] eqn:Er; [|left; reflexivity|left; reflexivity].
    right. apply run_res_ok in Er. congruence.
  - destruct (s_pc st); try discriminate. injection S as <-. left.
    unfold obj_check. destruct (negb (s_ok st)); [exact B|]. destruct (obj_pre _ _). destruct (negb b); [exact B|].
    destruct (if _ : bool then _ else _) as [[x y] z]. exact B.
  - destruct (s_pc st); try discriminate. unfold compile_one in S.
    destruct (take_pending _ _) as [[i r']|]; [|discriminate]. destruct (compile_command _ _ _); try discriminate.
    injection S as <-. left. destruct (run_res _ r); exact B.
  - destruct (s_pc st) as [| | | |[|? ?]| |]; try discriminate. injection S as <-. left.
    unfold link_check. destruct (negb (s_ok st)); [exact B|]. destruct (link_pre _ _). destruct (negb b); exact B.
  - destruct (s_pc st); try discriminate. left. unfold link_exec in S.
    destruct (link_command _ _ _); try discriminate. injection S as <-. destruct (run_res _ _); exact B.
  - left. destruct (s_pc st) eqn:E; try discriminate.
    assert (S' : step e st (EvEnd w) = Some st') by (cbn [step]; rewrite E; exact S).
    destruct (step_end _ _ _ _ S') as (_ & _ & _ & _ & (_ & _ & _ & K & _) & _). rewrite <- K. exact B.
  - destruct (s_pc st); try discriminate. destruct (s_dirty st); [|discriminate].
    destruct (bind _ _); [|discriminate]. injection S as <-. left. exact B.
Qed.
Lemma step_tgt_bad e st ev st' :
  step e st ev = Some st' -> d_tgt_bad (s_disk st) = true ->
  d_tgt_bad (s_disk st') = true \/ ev = EvLinkExec XOk.
Proof.
  intros S B. destruct ev; cbn [step] in S.
  - injection S as <-. left. exact B.
  - injection S as <-. left. exact B.
  - destruct (s_pc st); try discriminate; injection S as <-; left; exact B.
  - injection S as <-. left. exact B.
  - injection S as <-. left. exact B.
  - injection S as <-. left. exact B.
  - injection S as <-. left. exact B.
  - destruct (s_pc st); try discriminate. unfold start in S. destruct (_ || _); [discriminate|].
    destruct (forallb _ _); injection S as <-; left; exact B.
  - destruct (s_pc st); try discriminate. injection S as <-. left. unfold pch_check.
    destruct (negb (s_ok st)); [exact B|]. destruct (pch_pre _ _). destruct (negb b); [exact B|].
    destruct (_ || _); exact B.
  - destruct (s_pc st); try discriminate. unfold pch_exec in S.
    destruct (pch_command _ _) as [cmd| |]; try discriminate. injection S as <-.
    left. destruct (run_res cmd r); exact B.
  - destruct (s_pc st); try discriminate. injection S as <-. left.
    unfold obj_check. destruct (negb (s_ok st)); [exact B|]. destruct (obj_pre _ _). destruct (negb b); [exact B|].
    destruct (if _ : bool then _ else _) as [[x y] z]. exact B.
  - destruct (s_pc st); try discriminate. unfold compile_one in S.
    destruct (take_pending _ _) as [[i r']|]; [|discriminate]. destruct (compile_command _ _ _); try discriminate.
    injection S as <-. left. destruct (run_res _ r); exact B.
  - destruct (s_pc st) as [| | | |[|? ?]| |]; try discriminate. injection S as <-. left.
    unfold link_check. destruct (negb (s_ok st)); [exact B|]. destruct (link_pre _ _). destruct (negb b); exact B.
  - destruct (s_pc st); try discriminate. unfold link_exec in S.
    destruct (link_command _ _ _) as [cmd| |]; try discriminate. injection S as <-.
    destruct (run_res cmd r) as [|lo|] eqn:Er; [|left; reflexivity|left; reflexivity].
    right. apply run_res_ok in Er. congruence.
  - left. destruct (s_pc st) eqn:E; try discriminate.
    assert (S' : step e st (EvEnd w) = Some st') by (cbn [step]; rewrite E; exact S).
    destruct (step_end _ _ _ _ S') as (_ & _ & _ & _ & (_ & _ & _ & _ & _ & K) & _). rewrite <- K. exact B.
  - destruct (s_pc st); try discriminate. destruct (s_dirty st); [|discriminate].
    destruct (bind _ _); [|discriminate]. injection S as <-. left. exact B.
Qed.
Lemma exec_sticky e (bad : tstate -> bool) (fix_ev : event) evs :
  (forall st ev st', step e st ev = Some st' -> bad st = true -> bad st' = true \/ ev = fix_ev) ->
  forall st st', exec e st evs = Some st' -> bad st = true -> bad st' = true \/ In fix_ev evs.
Proof.
  intros St. induction evs as [|ev evs IH]; intros st st' X B; cbn [exec] in X.
  - injection X as <-. left. exact B.
  - destruct (step e st ev) as [st1|] eqn:S; [|discriminate].
    destruct (St _ _ _ S B) as [B1|K]; [|right; left; exact K].
    destruct (IH _ _ X B1) as [B2|K]; [left; exact B2|right; right; exact K].
Qed.

Theorem failed_pch_recompiled rg e d0 evs1 r evs2 w h st :
  templates_ok e -> r <> XOk ->
  history rg e d0 (evs1 ++ EvPchExec r :: evs2 ++ [EvEnd w]) h st -> s_ok st = true -> h_edited h = false ->
  pchs (s_cfg st) <> [] -> In (EvPchExec XOk) evs2.
Proof.
  intros T N H O E Hp.
  assert (H' : history rg e d0 ((evs1 ++ EvPchExec r :: evs2) ++ [EvEnd w]) h st) by (rewrite <- app_assoc; exact H).
  destruct (success_current rg e d0 _ w h st T H' O E) as (C & _). destruct (C Hp) as (p & _ & B & _).
  change (evs1 ++ EvPchExec r :: evs2 ++ [EvEnd w]) with (evs1 ++ (EvPchExec r :: (evs2 ++ [EvEnd w]))) in H.
  apply history_split in H as (h1 & st1 & H1 & X). cbn [exec] in X.
  destruct (step e st1 (EvPchExec r)) as [st2|] eqn:S; [|discriminate].
  assert (B1 : d_pch_bad (s_disk st2) = true).
  { cbn [step] in S. destruct (s_pc st1); try discriminate. unfold pch_exec in S.
    destruct (pch_command _ _) as [cmd| |]; try discriminate. injection S as <-.
    destruct (run_res cmd r) as [|lo|] eqn:Er; [|reflexivity|reflexivity]. apply run_res_ok in Er. congruence. }
  destruct (exec_sticky e (fun s => d_pch_bad (s_disk s)) (EvPchExec XOk) _ (step_pch_bad e) _ _ X B1) as [K|K]; [congruence|].
  apply in_app_iff in K as [K|[K|[]]]; [exact K|discriminate].
Qed.
Theorem failed_link_relinked rg e d0 evs1 r evs2 w h st :
  templates_ok e -> r <> XOk ->
  history rg e d0 (evs1 ++ EvLinkExec r :: evs2 ++ [EvEnd w]) h st -> s_ok st = true -> h_edited h = false ->
  In (EvLinkExec XOk) evs2.
Proof.
  intros T N H O E.
  assert (H' : history rg e d0 ((evs1 ++ EvLinkExec r :: evs2) ++ [EvEnd w]) h st) by (rewrite <- app_assoc; exact H).
  destruct (success_current rg e d0 _ w h st T H' O E) as (_ & _ & (l & ord & _ & B & _)).
  change (evs1 ++ EvLinkExec r :: evs2 ++ [EvEnd w]) with (evs1 ++ (EvLinkExec r :: (evs2 ++ [EvEnd w]))) in H.
  apply history_split in H as (h1 & st1 & H1 & X). cbn [exec] in X.
  destruct (step e st1 (EvLinkExec r)) as [st2|] eqn:S; [|discriminate].
  assert (B1 : d_tgt_bad (s_disk st2) = true).
  { cbn [step] in S. destruct (s_pc st1); try discriminate. unfold link_exec in S.
    destruct (link_command _ _ _) as [cmd| |]; try discriminate. injection S as <-.
    destruct (run_res cmd r) as [|lo|] eqn:Er; [|reflexivity|reflexivity]. apply run_res_ok in Er. congruence. }
  destruct (exec_sticky e (fun s => d_tgt_bad (s_disk s)) (EvLinkExec XOk) _ (step_tgt_bad e) _ _ X B1) as [K|K]; [congruence|].
  apply in_app_iff in K as [K|[K|[]]]; [exact K|discriminate].
Qed.
