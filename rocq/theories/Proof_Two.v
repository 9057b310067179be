(** Processes that build the same configuration in one build directory: all of
    them decide the same, and write the same artifacts. *)
From Verif Require Import Prelude Proof_Prelude Model_Path Model_Json Model_Schema Proof_Schema Model_Command Spec_Command
  Model_ToolchainConfig Model_Target Spec_Target Proof_TargetBase Proof_TargetInv Proof_TargetRun
  Proof_TargetStep Proof_TargetStep2 Proof_TargetMain Model_Two Spec_Two.

Definition fcmd (r : fres) : string := match r with FOk s => s | _ => "" end.

Section Two.
Context (rg : regime) (e : tenv) (h : hist) (d0 : disk) (c : cfg).
Hypothesis Perm : permitted e h c.
Hypothesis Ex : forall f, In f (tracked c) -> d_mt d0 f <> None.
Notation mt := (d_mt d0).
Notation s0 := (stored d0).

Let NDO : NoDup (map (obj_of e) (sources c)) := proj1 Perm.
Let NDS : NoDup (sources c) := nodup_sources e c NDO.

(** ** What every process decides *)
Definition U0 : tschema := if contains_pch c then fst (pch_pre mt (user_of c)) else user_of c.
Definition U1 : tschema := fst (obj_pre mt U0).
Definition U2 : tschema := fst (link_pre mt U1).
Definition B0 : tschema := if contains_pch c then update_pch_compiled ts_default U0 else ts_default.
Definition dp : bool := contains_pch c && match s0 with None => true | Some l => negb (pch_same l U0) end.
Definition picked : infolist * infolist * bool :=
  if match s0 with None => true | Some l => dp || negb (obj_same l U1) end then (ts_sources U1, [], true)
  else match s0 with None => ([], [], true) | Some l => recompile_sources (ts_sources l) (ts_sources U1) end.
Definition sel : infolist := fst (fst picked).
Definition dum : infolist := snd (fst picked).
Definition dob : bool := snd picked.
Definition dl : bool := match s0 with None => true | Some l => dob || negb (link_same l U2) end.

Lemma ex_in l : incl l (tracked c) -> forall p, In p l -> mt p <> None.
Proof using Ex Perm. intros H p Hp. exact (Ex p (H p Hp)). Qed.

Lemma pre0 : contains_pch c = true -> pch_pre mt (user_of c) = (U0, true) /\
  Hashed mt (headers c) (ts_headers U0) /\ Hashed mt (pchs c) (ts_pchs U0).
Proof using Ex Perm.
  intros Hc. unfold U0. rewrite Hc. destruct (pch_pre mt (user_of c)) as [u b] eqn:E. cbn [fst].
  destruct (pch_pre_like mt c _ _ _ (like_user c) E) as (L & H & Hb).
  assert (b = true) as ->.
  { apply Hb. apply ex_in. intros p. unfold tracked. rewrite !in_app_iff. tauto. }
  split; [reflexivity|]. exact (H eq_refl).
Qed.
Lemma like0 : like c U0.
Proof using Ex Perm.
  unfold U0. destruct (contains_pch c); [|apply like_user].
  destruct (pch_pre mt (user_of c)) as [u b] eqn:E. exact (proj1 (pch_pre_like mt c _ _ _ (like_user c) E)).
Qed.
Lemma pre1 : obj_pre mt U0 = (U1, true) /\ like c U1 /\ Hashed mt (sources c) (ts_sources U1) /\
  Hashed mt (headers c) (ts_headers U1) /\ Hashed mt (compile_deps c) (ts_compile_deps U1).
Proof using Ex Perm.
  unfold U1. destruct (obj_pre mt U0) as [u b] eqn:E. cbn [fst].
  destruct (obj_pre_like mt c _ _ _ like0 E) as (L & H & Hb).
  assert (b = true) as ->.
  { apply Hb. apply ex_in. intros p. unfold tracked. rewrite !in_app_iff. tauto. }
  split; [reflexivity|]. split; [exact L|]. exact (H eq_refl).
Qed.
Lemma link_pre_keeps (m : times) (u u' : tschema) (b : bool) : link_pre m u = (u', b) ->
  ts_headers u' = ts_headers u /\ ts_compile_deps u' = ts_compile_deps u /\ ts_sources u' = ts_sources u /\ ts_pchs u' = ts_pchs u.
Proof using Ex Perm.
  unfold link_pre. destruct (hash_all m (ts_libs u)) as [l b1]. destruct b1; [|intros [= <- _]; tsp; auto].
  tsp. destruct (hash_all m (ts_link_deps u)) as [k b2]. intros [= <- _]. tsp. auto.
Qed.
Lemma pre2 : link_pre mt U1 = (U2, true) /\ like c U2 /\ Hashed mt (libs c) (ts_libs U2) /\
  Hashed mt (link_deps c) (ts_link_deps U2) /\ Hashed mt (headers c) (ts_headers U2) /\
  Hashed mt (compile_deps c) (ts_compile_deps U2).
Proof using Ex Perm.
  destruct pre1 as (E1 & L1 & H1 & H2 & H3).
  unfold U2. destruct (link_pre mt U1) as [u b] eqn:E. cbn [fst].
  destruct (link_pre_like mt c _ _ _ L1 E) as (L & H & Hb). destruct (link_pre_keeps _ _ _ _ E) as (K1 & K2 & _).
  assert (b = true) as ->.
  { apply Hb. apply ex_in. intros p. unfold tracked. rewrite !in_app_iff. tauto. }
  destruct (H eq_refl) as (H5 & H6).
  split; [reflexivity|]. split; [exact L|]. split; [exact H5|]. split; [exact H6|]. rewrite K1, K2. split; assumption.
Qed.

(** ** Reading the decisions *)
Lemma dp_false : dp = false -> pchs c <> [] -> exists s, s0 = Some s /\ pchclean s c mt.
Proof using Ex Perm.
  unfold dp. intros H P. apply contains_pch_iff in P. rewrite P in H. destruct (pre0 P) as (E & H1 & H2).
  destruct s0 as [s|]; [|discriminate]. cbn [andb] in H. apply negb_false_iff in H. exists s. split; [reflexivity|].
  exact (proj1 (pch_same_iff _ _ _ _ like0 H1 H2) H).
Qed.
Lemma picked_spec :
  Permutation (ts_sources U1) (sel ++ dum) /\
  (forall i, In i dum -> exists s, s0 = Some s /\ (pchs c <> [] -> pchclean s c mt) /\ objclean s c mt /\
     matches s mt (pi_path i)) /\
  (dob = false -> sel = [] /\ dp = false /\ exists s, s0 = Some s /\ objclean s c mt /\ srcclean s c mt) /\
  (sel <> [] -> dob = true) /\ (dp = true -> dob = true) /\ (s0 = None -> dob = true).
Proof using Ex Perm.
  destruct pre1 as (E & L & H1 & H2 & H3). unfold sel, dum, dob, picked.
  destruct s0 as [s|] eqn:Es.
  - destruct (dp || negb (obj_same s U1)) eqn:D.
    + cbn [fst snd]. rewrite app_nil_r. repeat split; try reflexivity; try discriminate. intros i [].
    + apply orb_false_iff in D as [D1 D2]. apply negb_false_iff in D2.
      apply (obj_same_iff _ _ _ _ L H2 H3) in D2.
      destruct (recompile_sources (ts_sources s) (ts_sources U1)) as [[a b] ch] eqn:R. cbn [fst snd].
      assert (ND' : NoDup (il_paths (ts_sources U1))) by (rewrite (like_sources _ _ L); exact NDS).
      destruct (recompile_sources_spec _ _ _ _ _ ND' R) as (Sel & Dum & Ch & Pm).
      split; [exact Pm|]. split; [|split; [|split; [|split]]].
      * intros i Hi. exists s. split; [reflexivity|]. split; [|split; [exact D2|]].
        -- intros P. destruct (dp_false D1 P) as (s' & K & Q). congruence.
        -- apply Dum in Hi as [Hi K]. exists (pi_hash i). split; [exact K|]. exact (Hashed_In _ _ _ _ H1 Hi).
      * intros ->. destruct (proj1 Ch eq_refl) as [-> K]. split; [reflexivity|]. split; [exact D1|].
        exists s. split; [reflexivity|]. split; [exact D2|]. split.
        -- intros p Hp. destruct (Hashed_ex _ _ _ _ H1 Hp) as (i & Hi & <- & Hh).
           exists (pi_hash i). split; [|exact Hh]. rewrite Pm in Hi. cbn [app] in Hi. exact (proj2 (proj1 (Dum i) Hi)).
        -- intros p Hp. rewrite <- (like_sources _ _ L). exact (K p Hp).
      * intros K. destruct ch; [reflexivity|]. destruct (proj1 Ch eq_refl). congruence.
      * intros K. congruence.
      * discriminate.
  - cbn [fst snd]. rewrite app_nil_r. repeat split; try reflexivity; try discriminate. intros i [].
Qed.
Lemma dl_false : dl = false -> dob = false /\ exists s, s0 = Some s /\ allclean s c mt.
Proof using Ex Perm.
  unfold dl. destruct s0 as [s|] eqn:Es; [|discriminate]. intros H. apply orb_false_iff in H as [H1 H2].
  apply negb_false_iff in H2. split; [exact H1|]. exists s. split; [reflexivity|].
  destruct pre2 as (_ & L & A1 & A2 & _ & _). apply (link_same_iff _ _ _ _ L A1 A2) in H2.
  destruct picked_spec as (_ & _ & K & _). destruct (K H1) as (_ & D & s' & Q1 & Q2 & Q3).
  rewrite Es in Q1. injection Q1 as <-.
  split; [|split; [exact Q2|split; [exact Q3|exact H2]]].
  intros P. destruct (dp_false D P) as (s' & Q & R). congruence.
Qed.

(** ** What every process writes *)
Definition PS : pch_art := PA (fcmd (pch_command e c)) (pch_header_text (pchs c)) mt.
Definition FP : option pch_art := if dp then Some PS else d_pch d0.
Definition chosen (p : string) : bool := mem_str p (il_paths sel).
Definition FO (p : string) : option obj_art :=
  if chosen p then Some (OA (fcmd (compile_command e c p)) mt FP) else d_obj d0 (obj_of e p).

(** Nobody touches what need not be made. *)
Record Kept (d : disk) : Prop := {
  k_mt : d_mt d = mt;
  k_pch : dp = false -> d_pch d = d_pch d0 /\ d_pch_bad d = d_pch_bad d0;
  k_obj : forall p, In p (sources c) -> chosen p = false ->
    d_obj d (obj_of e p) = d_obj d0 (obj_of e p) /\ d_obj_bad d (obj_of e p) = d_obj_bad d0 (obj_of e p);
  k_tgt : dl = false -> d_tgt d = d_tgt d0 /\ d_tgt_bad d = d_tgt_bad d0 }.
Definition doneP (d : disk) : Prop := dp = true ->
  d_pch d = Some PS /\ d_pch_bad d = false /\ pch_command e c = FOk (fcmd (pch_command e c)).
Definition doneO (d : disk) (p : string) : Prop := chosen p = true ->
  d_obj d (obj_of e p) = FO p /\ d_obj_bad d (obj_of e p) = false /\
  compile_command e c p = FOk (fcmd (compile_command e c p)).
Definition doneT (d : disk) : Prop := dl = true ->
  exists l ord, d_tgt d = Some l /\ d_tgt_bad d = false /\ Permutation ord (sources c) /\
    link_command e c ord = FOk (l_cmd l) /\ l_snap l = mt /\
    (forall p, In p (sources c) -> l_objs l (obj_of e p) = FO p).
Definition Done (d : disk) : Prop :=
  doneP d /\ (forall p, In p (sources c) -> doneO d p) /\ doneT d.
Definition Fin (d : disk) : Prop :=
  (exists s, stored d = Some s /\ allclean s c mt) /\ Done d.

Lemma FP_of d : Kept d -> doneP d -> d_pch d = FP.
Proof using Ex Perm.
  intros K D. unfold FP. destruct dp eqn:E; [exact (proj1 (D E))|exact (proj1 (k_pch d K E))].
Qed.
Lemma FO_of d p : Kept d -> In p (sources c) -> doneO d p -> d_obj d (obj_of e p) = FO p.
Proof using Ex Perm.
  intros K Hp D. destruct (chosen p) eqn:E; [exact (proj1 (D E))|]. unfold FO. rewrite E. exact (proj1 (k_obj d K p Hp E)).
Qed.
Lemma chosen_false p : In p (sources c) -> chosen p = false -> exists s, s0 = Some s /\
  (pchs c <> [] -> pchclean s c mt) /\ objclean s c mt /\ matches s mt p.
Proof using Ex Perm.
  intros Hp K. destruct picked_spec as (Pm & Dm & _). destruct pre1 as (_ & L & H1 & _).
  destruct (Hashed_ex _ _ _ _ H1 Hp) as (i & Hi & <- & Hh).
  rewrite Pm in Hi. apply in_app_iff in Hi as [Hi|Hi]; [|exact (Dm i Hi)].
  unfold chosen in K. apply mem_str_false in K. exfalso. apply K. apply in_map. exact Hi.
Qed.

Hypothesis Safe : forall s, stored d0 = Some s -> SafeS rg e h d0 s.
Theorem done_current d : Kept d -> Done d -> all_current e c d.
Proof using All.
  intros K (DP & DO & DT). pose proof (R_refl rg h mt) as Rr. split; [|split].
  - intros P. rewrite (k_mt d K). destruct dp eqn:E.
    + destruct (DP E) as (A & B & C). exists PS. split; [exact A|]. split; [exact B|]. split; [exact C|].
      split; [reflexivity|]. intros f _. reflexivity.
    + destruct (dp_false E P) as (s & Hs & Cl). destruct (k_pch d K E) as (A & B).
      destruct (Safe s Hs c Perm) as (S1 & _). pose proof (S1 _ Rr P Cl) as X. unfold pch_current in *. rewrite A, B. exact X.
  - intros p Hp. rewrite (k_mt d K). destruct (chosen p) eqn:E.
    + destruct (DO p Hp E) as (A & B & C). unfold FO in A. rewrite E in A.
      eexists. split; [exact A|]. split; [exact B|]. cbn [a_cmd a_snap a_pch]. split; [exact C|].
      split; [reflexivity|]. intros _. symmetry. exact (FP_of d K DP).
    + destruct (chosen_false p Hp E) as (s & Hs & C1 & C2 & C3). destruct (k_obj d K p Hp E) as (A & B).
      destruct (Safe s Hs c Perm) as (_ & S2 & _). pose proof (S2 _ _ Rr Rr C1 C2 p Hp C3) as (a & X1 & X2 & X3 & X4 & X5).
      exists a. rewrite A, B. repeat split; try assumption. intros P. rewrite (X5 P). symmetry.
      assert (dp = false) as Ed.
      { unfold dp. rewrite Hs. destruct (contains_pch c) eqn:Ec; [|reflexivity]. cbn [andb]. apply negb_false_iff.
        destruct (pre0 Ec) as (_ & H1 & H2). apply (pch_same_iff _ _ _ _ like0 H1 H2). exact (C1 P). }
      exact (proj1 (k_pch d K Ed)).
  - rewrite (k_mt d K). destruct dl eqn:E.
    + destruct (DT E) as (l & ord & A & B & C & D & F & G). exists l, ord. repeat split; try assumption.
      * intros f _. rewrite F. reflexivity.
      * intros p Hp. rewrite (G p Hp). symmetry. exact (FO_of d p K Hp (DO p Hp)).
    + destruct (dl_false E) as (Eb & s & Hs & (C1 & C2 & C3 & C4)). destruct (k_tgt d K E) as (A & B).
      destruct (Safe s Hs c Perm) as (_ & _ & S3). destruct (S3 _ _ _ Rr Rr Rr C1 C2 C3 C4) as (l & ord & X1 & X2 & X3 & X4 & X5 & X6).
      exists l, ord. rewrite A, B. repeat split; try assumption. intros p Hp. rewrite (X6 p Hp). symmetry.
      destruct picked_spec as (_ & _ & Q & _). destruct (Q Eb) as (Q1 & _).
      assert (chosen p = false) as Ec by (unfold chosen; rewrite Q1; reflexivity).
      exact (proj1 (k_obj d K p Hp Ec)).
Qed.

(** ** Writing keeps what is there *)
Record Grows (d d' : disk) : Prop := {
  g_kept : Kept d';
  g_p : doneP d -> doneP d';
  g_o : forall p, In p (sources c) -> doneO d p -> doneO d' p;
  g_t : doneT d -> doneT d';
  g_st : Fin d -> exists s, stored d' = Some s /\ allclean s c mt }.

Lemma Grows_refl d : Kept d -> Grows d d.
Proof using Ex Perm. intros K. constructor; auto. intros [A _]. exact A. Qed.
Lemma Grows_fin d d' : Grows d d' -> Fin d -> Fin d'.
Proof using Ex Perm.
  intros [] F. split; [exact (g_st0 F)|]. destruct F as (_ & A & B & C). split; [auto|]. split; auto.
Qed.

Lemma grows_pch d cmd : Kept d -> dp = true -> pch_command e c = FOk cmd -> Grows d (set_pch d (Some PS) false).
Proof using Ex Perm.
  intros [] D C. constructor.
  - constructor; cbn; auto. congruence.
  - intros _ _. cbn. rewrite C. auto.
  - intros p Hp X. exact X.
  - intros X. exact X.
  - intros [A _]. exact A.
Qed.
Lemma obj_inj p q : In p (sources c) -> In q (sources c) -> obj_of e p = obj_of e q -> p = q.
Proof using Ex Perm. intros A B. exact (NoDup_map_inj (obj_of e) (sources c) p q NDO A B). Qed.
Lemma grows_obj d p cmd : Kept d -> doneP d -> In p (sources c) -> chosen p = true -> compile_command e c p = FOk cmd ->
  let d' := set_obj d (obj_of e p) (Some (OA cmd (d_mt d) (d_pch d))) false in Grows d d' /\ doneO d' p.
Proof using Ex Perm.
  intros K DP Hp Hc C d'. pose proof (FP_of d K DP) as EF. pose proof (k_mt d K) as Em.
  assert (Hd : doneO d' p).
  { intros _. subst d'. cbn. rewrite !upd_same. unfold FO. rewrite Hc, C, EF, Em. auto. }
  split; [|exact Hd]. constructor.
  - destruct K. constructor; cbn; auto.
    intros q Hq Hn. assert (obj_of e q <> obj_of e p) as Ne.
    { intros X. apply obj_inj in X; auto. congruence. }
    rewrite !upd_other by exact Ne. auto.
  - intros X. exact X.
  - intros q Hq X. destruct (string_dec q p) as [->|Ne]; [exact Hd|]. intros Hch.
    assert (obj_of e q <> obj_of e p) as Ne'. { intros Y. apply Ne. apply obj_inj; auto. }
    subst d'. cbn. rewrite !upd_other by exact Ne'. exact (X Hch).
  - intros X. exact X.
  - intros [A _]. exact A.
Qed.
Lemma grows_tgt d ord cmd : Kept d -> (forall p, In p (sources c) -> doneO d p) -> dl = true ->
  Permutation ord (sources c) -> link_command e c ord = FOk cmd ->
  let d' := set_tgt d (Some (TA cmd (d_mt d) (d_obj d))) false in Grows d d' /\ doneT d'.
Proof using Ex Perm.
  intros K DO D P C d'.
  assert (Hd : doneT d').
  { intros _. eexists _, ord. subst d'. cbn. split; [reflexivity|]. split; [reflexivity|]. split; [exact P|]. split; [exact C|].
    split; [exact (k_mt d K)|]. intros p Hp. exact (FO_of d p K Hp (DO p Hp)). }
  split; [|exact Hd]. constructor.
  - destruct K. constructor; cbn; auto. congruence.
  - intros X. exact X.
  - intros q Hq X. exact X.
  - intros _. exact Hd.
  - intros [A _]. exact A.
Qed.
Lemma grows_store d t s : Kept d -> Done d -> load_text t = Some s -> allclean s c mt ->
  Grows d (set_store d (Some t)) /\ Fin (set_store d (Some t)).
Proof using Ex Perm.
  intros K D L A. assert (S : exists s, stored (set_store d (Some t)) = Some s /\ allclean s c mt).
  { exists s. split; [exact L|exact A]. }
  split; [|split; [exact S|exact D]]. constructor; auto.
  - destruct K. constructor; cbn; auto.
Qed.

(** ** One process *)
Definition runs (ord : list string) : Prop :=
  Permutation ord (sources c) /\ forallb is_fok (all_commands e c ord) = true /\ ~ In (FOk "") (all_commands e c ord).
Definition stageA (d : disk) (st : tstate) : Prop :=
  match s_pc st with
  | Idle => True
  | PcPch => contains_pch c = true /\ s_user st = user_of c /\ s_buf st = ts_default /\ s_dirty st = false
  | PcPchExec => contains_pch c = true /\ s_user st = U0 /\ s_buf st = ts_default /\ s_dirty st = true /\ dp = true
  | PcObj => s_user st = U0 /\ s_buf st = B0 /\ s_dirty st = dp /\ doneP d
  | PcCompile pend => s_user st = U1 /\ s_dirty st = dob /\ doneP d /\ incl pend sel /\
      (forall p, In p (sources c) -> In p (il_paths pend) \/ doneO d p) /\
      exists l, s_buf st = with_sources B0 l /\ Permutation (pend ++ l) (ts_sources U1)
  | PcLinkExec => s_user st = U2 /\ s_dirty st = true /\ dl = true /\ doneP d /\
      (forall p, In p (sources c) -> doneO d p) /\
      exists l, s_buf st = with_sources B0 l /\ Permutation l (ts_sources U1)
  | PcEnd => s_user st = U2 /\ s_dirty st = dl /\ Done d /\
      (dl = true -> exists l, s_buf st = with_linked (with_sources B0 l) true /\ Permutation l (ts_sources U1))
  end.
Record ProcA (d : disk) (st : tstate) : Prop := {
  a_cfg : s_cfg st = c;
  a_load : s_load st = s0;
  a_ok : s_ok st = true;
  a_runs : runs (s_ord st);
  a_stage : stageA d st }.
Record ProcB (d : disk) (st : tstate) : Prop := {
  b_cfg : s_cfg st = c;
  b_load : exists s, s_load st = Some s /\ allclean s c mt;
  b_ok : s_ok st = true;
  b_dirty : s_dirty st = false;
  b_like : like c (s_user st);
  b_fin : Fin d;
  b_pc : match s_pc st with PcPch => pchs c <> [] | PcPchExec | PcLinkExec => False | PcCompile p => p = [] | _ => True end }.
Definition ProcOk (d : disk) (st : tstate) : Prop := s_pc st = Idle \/ ProcA d st \/ ProcB d st.

Lemma ProcOk_grows d d' st : Grows d d' -> ProcOk d st -> ProcOk d' st.
Proof using Ex Perm.
  intros G [H|[[]|[]]]; [left; exact H|right; left|right; right].
  - constructor; auto. unfold stageA in *. destruct G. destruct (s_pc st); auto.
    + intuition.
    + destruct a_stage0 as (A & B & C & D & E & F). split; [exact A|]. split; [exact B|]. split; [auto|]. split; [exact D|].
      split; [|exact F]. intros p Hp. destruct (E p Hp) as [K|K]; [left; exact K|right; auto].
    + destruct a_stage0 as (A & B & C & D & E & F). split; [exact A|]. split; [exact B|]. split; [auto|]. split; [auto|].
      split; [|exact F]. intros p Hp. auto.
    + destruct a_stage0 as (A & B & (C & D & E) & F). split; [exact A|]. split; [exact B|]. split; [|exact F].
      split; [auto|]. split; auto.
  - constructor; auto. exact (Grows_fin _ _ G b_fin0).
Qed.

Definition stok (d : disk) : Prop := stored d = s0 \/ Fin d.
Definition Result (d : disk) (st' : tstate) (ended : Prop) : Prop :=
  Grows d (s_disk st') /\ stok (s_disk st') /\ ProcOk (s_disk st') st' /\ (ended -> s_ok st' = true -> Fin (s_disk st')).

Lemma in_commands ord p : In p ord -> In (compile_command e c p) (all_commands e c ord).
Proof using Ex Perm. intros H. unfold all_commands. rewrite !in_app_iff. right. left. apply in_map. exact H. Qed.
Lemma link_in ord : In (link_command e c ord) (all_commands e c ord).
Proof using Ex Perm. unfold all_commands. rewrite !in_app_iff. right. right. left. reflexivity. Qed.
Lemma pch_in ord : contains_pch c = true -> In (pch_command e c) (all_commands e c ord).
Proof using Ex Perm. intros H. unfold all_commands. rewrite H, !in_app_iff. left. left. reflexivity. Qed.
Lemma runs_cmd {A} ord r (x : xres A) : runs ord -> In r (all_commands e c ord) ->
  exists cmd, r = FOk cmd /\ run_res cmd x = x.
Proof using Ex Perm.
  intros (_ & F & N) Hr. rewrite forallb_forall in F. specialize (F r Hr). destruct r as [cmd| |]; try discriminate.
  exists cmd. split; [reflexivity|]. unfold run_res. destruct (String.eqb_spec cmd "") as [->|]; [|reflexivity].
  destruct (N Hr).
Qed.

(** A process that has seen the state file of the beginning. *)
Lemma stepA d st ev st' : Kept d -> stok d -> s_pc st <> Idle -> s_disk st = d -> ProcA d st -> orderly e c ev ->
  step e st ev = Some st' -> Result d st' (exists w, ev = EvEnd w).
Proof using Ex Perm.
  intros K SO NI Ed [A1 A2 A3 A4 A5] O S. pose proof (k_mt d K) as Em.
  assert (Same : forall (st' : tstate) (P : Prop), s_disk st' = d -> ProcOk d st' -> (P -> s_ok st' = true -> Fin d) ->
            Result d st' P).
  { intros t P E X Y. unfold Result. rewrite E. split; [exact (Grows_refl d K)|]. auto. }
  destruct ev as [f t| | | |o| | |c' ord| |r| |s r| |r|w|n]; cbn [orderly] in O; try contradiction; cbn [step] in S.
  - (* crash *) destruct (s_pc st) eqn:Ep; try congruence; injection S as <-; apply Same; stp; auto;
      try (left; reflexivity); intros [w [=]].
  - (* start *) destruct (s_pc st); congruence.
  - (* PCH check *) destruct (s_pc st) eqn:Ep; try discriminate. injection S as <-. unfold stageA in A5. rewrite Ep in A5.
    destruct A5 as (Hc & Hu & Hb & Hd). destruct (pre0 Hc) as (E0 & H1 & H2).
    unfold pch_check. rewrite A3, Ed, Em, Hu, E0. cbn [negb]. stp. rewrite Hd, A2. cbn [orb].
    assert (Dp : dp = match s0 with None => true | Some l => negb (pch_same l U0) end) by (unfold dp; rewrite Hc; reflexivity).
    rewrite <- Dp. destruct dp eqn:Edp.
    + apply Same; stp; auto; [|intros [w [=]]]. right. left. constructor; stp; auto. unfold stageA. stp. auto.
    + apply Same; stp; auto; [|intros [w [=]]]. right. left. constructor; stp; auto. unfold stageA. stp.
      split; [reflexivity|]. split; [unfold B0; rewrite Hc, Hb; reflexivity|]. split; [congruence|]. unfold doneP. congruence.
  - (* PCH command *) subst r. destruct (s_pc st) eqn:Ep; try discriminate. unfold stageA in A5. rewrite Ep in A5.
    destruct A5 as (Hc & Hu & Hb & Hd & Hp). unfold pch_exec in S. rewrite A1 in S.
    destruct (runs_cmd (A := pch_art) (s_ord st) _ XOk A4 (pch_in _ Hc)) as (cmd & Ec & Er). rewrite Ec, Er in S.
    injection S as <-. rewrite Ed, Em, Hu, (like_pchs _ _ like0).
    pose proof (grows_pch d cmd K Hp Ec) as G. unfold PS in G. rewrite Ec in G. cbn [fcmd] in G.
    unfold Result. stp. split; [exact G|]. split; [|split; [|intros [w [=]]]].
    + destruct SO as [SO|SO]; [left; exact SO|right; exact (Grows_fin _ _ G SO)].
    + right. left. constructor; stp; auto. unfold stageA. stp. split; [first [exact Hu|reflexivity]|].
      split; [unfold B0; rewrite Hc, Hb; reflexivity|]. split; [congruence|].
      intros _. cbn. unfold PS. rewrite Ec. auto.
  - (* object check *) destruct (s_pc st) eqn:Ep; try discriminate. injection S as <-. unfold stageA in A5. rewrite Ep in A5.
    destruct A5 as (Hu & Hb & Hd & DP). destruct pre1 as (E1 & L1 & H1 & H2 & H3).
    unfold obj_check. rewrite A3, Ed, Em, Hu, E1. cbn [negb]. stp. rewrite Hd, A2.
    assert (Pk : (if match s0 with None => true | Some l => dp || negb (obj_same l U1) end then (ts_sources U1, [], true)
                  else match s0 with None => ([], [], true) | Some l => recompile_sources (ts_sources l) (ts_sources U1) end)
                 = picked) by reflexivity.
    rewrite Pk. destruct picked_spec as (Pm & _). unfold sel, dum in Pm.
    destruct picked as [[a b] ch] eqn:Ek. cbn [fst snd] in Pm.
    assert (Es : sel = a) by (unfold sel; rewrite Ek; reflexivity).
    assert (Eb : dob = ch) by (unfold dob; rewrite Ek; reflexivity).
    assert (Nd : nlist b).
    { assert (N1 : nlist (ts_sources U1)) by (apply (nlist_like (sources c)); [exact (like_sources _ _ L1)|apply sources_npath]).
      unfold nlist in *. rewrite Forall_forall in *. intros i Hi. apply N1. rewrite Pm, in_app_iff. right. exact Hi. }
    apply Same; stp; auto; [|intros [w [=]]]. right. left. constructor; stp; auto. unfold stageA. stp.
    split; [reflexivity|]. split; [congruence|]. split; [exact DP|]. split; [rewrite Es; apply incl_refl|]. split.
    + intros p Hp. destruct (chosen p) eqn:Ech; [left|right; unfold doneO; congruence].
      unfold chosen in Ech. apply mem_str_In in Ech. rewrite Es in Ech. exact Ech.
    + exists b. rewrite fold_add by exact Nd. rewrite Hb. split; [|symmetry; exact Pm].
      assert (ts_sources B0 = []) as -> by (unfold B0; destruct (contains_pch c); reflexivity). reflexivity.
  - (* compile *) subst r. destruct (s_pc st) as [| | | |pend| |] eqn:Ep; try discriminate. unfold stageA in A5. rewrite Ep in A5.
    destruct A5 as (Hu & Hd & DP & Hi & HO & (l & Hb & Hl)). unfold compile_one in S. rewrite A1 in S.
    destruct (take_pending s pend) as [[i rest]|] eqn:Et; [|discriminate].
    destruct (take_pending_spec _ _ _ _ Et) as (Hpi & Hpm).
    destruct pre1 as (_ & L1 & _).
    assert (Hpend : In i pend) by (rewrite Hpm; left; reflexivity).
    assert (Hs : In s (sources c)).
    { rewrite <- (like_sources _ _ L1), <- Hpi. apply in_map. rewrite <- Hl, in_app_iff. left. exact Hpend. }
    assert (Hch : chosen s = true).
    { unfold chosen. apply mem_str_In. rewrite <- Hpi. apply in_map. exact (Hi i Hpend). }
    destruct (runs_cmd (A := obj_art) (s_ord st) _ XOk A4 (in_commands (s_ord st) s
      (Permutation_in s (Permutation_sym (proj1 A4)) Hs))) as (cmd & Ec & Er).
    rewrite Ec, Er in S. injection S as <-. rewrite Ed.
    destruct (grows_obj d s cmd K DP Hs Hch Ec) as (G & DOs).
    unfold Result. stp. split; [exact G|]. split; [|split; [|intros [w [=]]]].
    + destruct SO as [SO|SO]; [left; exact SO|right; exact (Grows_fin _ _ G SO)].
    + right. left. constructor; stp; auto. unfold stageA. stp. split; [exact Hu|]. split; [exact Hd|].
      split; [exact (g_p _ _ G DP)|]. split; [|split].
      * intros j Hj. apply Hi. rewrite Hpm. right. exact Hj.
      * intros p Hp. destruct (string_dec p s) as [->|Ne]; [right; exact DOs|].
        destruct (HO p Hp) as [Hin|Hdn]; [|right; exact (g_o _ _ G p Hp Hdn)].
        left. unfold il_paths in Hin. apply in_map_iff in Hin as (j & <- & Hj). rewrite Hpm in Hj.
        destruct Hj as [<-|Hj]; [congruence|]. apply in_map. exact Hj.
      * exists (l ++ [i]). rewrite Hb, add_source_npath; [|].
        -- tsp. split; [reflexivity|]. rewrite <- Hl, Hpm. rewrite app_assoc, <- Permutation_cons_append. reflexivity.
        -- rewrite Hpi. pose proof (sources_npath c) as Np. rewrite Forall_forall in Np. exact (Np s Hs).
  - (* link check *) destruct (s_pc st) as [| | | |pend| |] eqn:Ep; try discriminate. destruct pend; [|discriminate].
    injection S as <-. unfold stageA in A5. rewrite Ep in A5.
    destruct A5 as (Hu & Hd & DP & Hi & HO & (l & Hb & Hl)). destruct pre2 as (E2 & L2 & _).
    assert (HO' : forall p, In p (sources c) -> doneO d p).
    { intros p Hp. destruct (HO p Hp) as [[]|X]; exact X. }
    unfold link_check. rewrite A3, Ed, Em, Hu, E2. cbn [negb]. stp. rewrite Hd, A2.
    assert (Dl : match s0 with None => true | Some l => dob || negb (link_same l U2) end = dl) by reflexivity.
    rewrite Dl. destruct dl eqn:Edl.
    + apply Same; stp; auto; [|intros [w [=]]]. right. left. constructor; stp; auto. unfold stageA. stp.
      repeat (split; [auto; reflexivity|]). exists l. split; [exact Hb|exact Hl].
    + apply Same; stp; auto; [|intros [w [=]]]. right. left. constructor; stp; auto. unfold stageA. stp.
      split; [reflexivity|]. split; [congruence|]. split; [|congruence].
      split; [exact DP|]. split; [exact HO'|]. unfold doneT. congruence.
  - (* link command *) subst r. destruct (s_pc st) eqn:Ep; try discriminate. unfold stageA in A5. rewrite Ep in A5.
    destruct A5 as (Hu & Hd & Hl & DP & HO & (l & Hb & Hpm)). unfold link_exec in S. rewrite A1 in S.
    destruct (runs_cmd (A := tgt_art) (s_ord st) _ XOk A4 (link_in _)) as (cmd & Ec & Er). rewrite Ec, Er in S.
    injection S as <-. rewrite Ed.
    destruct (grows_tgt d (s_ord st) cmd K HO Hl (proj1 A4) Ec) as (G & DT).
    unfold Result. stp. split; [exact G|]. split; [|split; [|intros [w [=]]]].
    + destruct SO as [SO|SO]; [left; exact SO|right; exact (Grows_fin _ _ G SO)].
    + right. left. constructor; stp; auto. unfold stageA. stp. split; [exact Hu|]. split; [congruence|]. split.
      * split; [exact (g_p _ _ G DP)|]. split; [|exact DT]. intros p Hp. exact (g_o _ _ G p Hp (HO p Hp)).
      * intros _. exists l. rewrite Hb. split; [reflexivity|exact Hpm].
  - (* end *) destruct (s_pc st) eqn:Ep; try discriminate. unfold stageA in A5. rewrite Ep in A5.
    destruct A5 as (Hu & Hd & Dn & Hb). unfold end_task in S. rewrite Hd in S. destruct dl eqn:Edl.
    + destruct (Hb eq_refl) as (l & Hbl & Hpm).
      destruct pre1 as (_ & L1 & H1 & _). destruct pre2 as (_ & L2 & H5 & H6 & H7 & H8).
      assert (Cl : allclean (update_store (s_buf st) (s_user st)) c mt).
      { rewrite Hu. apply (written_clean st); try assumption.
        - rewrite Hbl. tsp. rewrite <- (like_sources _ _ L1). apply Permutation_map. exact Hpm.
        - intros P. apply contains_pch_iff in P. rewrite Hbl. unfold B0. rewrite P. reflexivity.
        - rewrite Hbl. reflexivity.
        - intros P. apply contains_pch_iff in P. rewrite Hbl. unfold B0. rewrite P. tsp. exact (proj2 (proj2 (pre0 P))).
        - intros i Hi. rewrite Hbl in Hi. tsp. rewrite Hpm in Hi. exact (Hashed_In _ _ _ _ H1 Hi). }
      destruct (store_text (update_store (s_buf st) (s_user st))) as [t|] eqn:Et.
      * destruct O as [-> | ->]; injection S as <-.
        -- destruct (grows_store d t _ K Dn (target_text_rt _ _ Et) Cl) as (G & F). unfold Result. stp. rewrite Ed.
           split; [exact G|]. split; [right; exact F|]. split; [left; reflexivity|]. intros _ _. exact F.
        -- apply Same; stp; auto; [left; reflexivity|]. discriminate.
      * destruct O as [-> | ->]; try discriminate. injection S as <-. apply Same; stp; auto; [left; reflexivity|]. discriminate.
    + destruct O as [-> | ->]; try discriminate. injection S as <-. apply Same; stp; auto; [left; reflexivity|].
      intros _ _. destruct SO as [SO|SO]; [|exact SO]. destruct (dl_false Edl) as (_ & s & Hs & Cl).
      split; [|exact Dn]. exists s. split; [congruence|exact Cl].
Qed.

(** A process that has seen the state file of one that has finished. *)
Lemma stepB d st ev st' : Kept d -> stok d -> s_pc st <> Idle -> s_disk st = d -> ProcB d st -> orderly e c ev ->
  step e st ev = Some st' -> Result d st' (exists w, ev = EvEnd w).
Proof using Ex Perm.
  intros K SO NI Ed [B1 (s & B2 & B2') B3 B4 B5 B6 B7] O S. pose proof (k_mt d K) as Em.
  assert (Cl : allclean s c (d_mt (s_disk st))) by (rewrite Ed, Em; exact B2').
  assert (Same : forall (st' : tstate) (P : Prop), s_disk st' = d -> ProcOk d st' -> Result d st' P).
  { intros t P E X. unfold Result. rewrite E. split; [exact (Grows_refl d K)|]. auto. }
  destruct ev as [f t| | | |o| | |c' ord| |r| |q r| |r|w|n]; cbn [orderly] in O; try contradiction; cbn [step] in S.
  - destruct (s_pc st) eqn:Ep; try congruence; injection S as <-; apply Same; stp; auto; left; reflexivity.
  - destruct (s_pc st); congruence.
  - destruct (s_pc st) eqn:Ep; try discriminate. injection S as <-.
    destruct (clean_pch_check c s st B5 B2 B4 B3 Cl B7) as (u & Lu & ->).
    apply Same; stp; auto. right. right. constructor; stp; eauto.
  - destruct (s_pc st); try discriminate. contradiction.
  - destruct (s_pc st) eqn:Ep; try discriminate. injection S as <-.
    destruct (clean_obj_check c s NDS st B5 B2 B4 B3 Cl) as (u & b & Lu & ->).
    apply Same; stp; auto. right. right. constructor; stp; eauto.
  - destruct (s_pc st) eqn:Ep; try discriminate. subst pending. unfold compile_one in S. discriminate.
  - destruct (s_pc st) as [| | | |pend| |] eqn:Ep; try discriminate. destruct pend; [|discriminate]. injection S as <-.
    destruct (clean_link_check c s st B5 B2 B4 B3 Cl) as (u & Lu & ->).
    apply Same; stp; auto. right. right. constructor; stp; eauto.
  - destruct (s_pc st); try discriminate. contradiction.
  - destruct (s_pc st) eqn:Ep; try discriminate. unfold end_task in S. rewrite B4 in S.
    destruct O as [-> | ->]; try discriminate. injection S as <-. apply Same; stp; auto. left. reflexivity.
Qed.

(** A process starts. *)
Lemma step_idle d st ev st' : Kept d -> stok d -> s_pc st = Idle -> s_disk st = d -> orderly e c ev ->
  step e st ev = Some st' -> Result d st' (exists w, ev = EvEnd w).
Proof using Ex Perm.
  intros K SO NI Ed O S.
  assert (Same : forall st', s_disk st' = d -> ProcOk d st' -> Result d st' (exists w, ev = EvEnd w)).
  { intros t E X. unfold Result. rewrite E. split; [exact (Grows_refl d K)|]. split; [exact SO|]. split; [exact X|].
    intros [w ->]. cbn [step] in S. rewrite NI in S. discriminate. }
  destruct ev as [f t| | | |o| | |c' ord| |r| |q r| |r|w|n]; cbn [orderly] in O; try contradiction; cbn [step] in S; rewrite NI in S;
    try discriminate.
  destruct O as [-> N]. unfold start in S.
  destruct (negb (ord_ok ord (sources c)) || existsb is_fother (all_commands e c ord)) eqn:E1; [discriminate|].
  apply orb_false_iff in E1 as [E1 _]. apply negb_false_iff in E1.
  destruct (forallb is_fok (all_commands e c ord)) eqn:E2; injection S as <-.
  - apply Same; stp; [exact Ed|]. right.
    assert (Rn : runs ord). { split; [exact (ord_ok_perm _ _ NDS E1)|]. split; [exact E2|exact N]. }
    rewrite Ed. destruct SO as [SO|SO].
    + left. constructor; stp; auto. unfold stageA. stp. destruct (contains_pch c) eqn:Ec; stp.
      * auto.
      * unfold U0, B0, doneP. rewrite Ec. split; [reflexivity|]. split; [reflexivity|].
        assert (dp = false) as Edp by (unfold dp; rewrite Ec; reflexivity). rewrite Edp. split; [reflexivity|discriminate].
    + right. pose proof SO as F. destruct SO as ((s & Hs & Cl) & _).
      assert (Q : match (if contains_pch c then PcPch else PcObj) with PcPch => pchs c <> [] | PcPchExec | PcLinkExec => False
                  | PcCompile p => p = [] | _ => True end).
      { destruct (contains_pch c) eqn:Ec; [apply contains_pch_iff; exact Ec|exact Logic.I]. }
      constructor; stp; auto; [|apply like_user]. exists s. split; [exact Hs|exact Cl].
  - apply Same; stp; [exact Ed|]. left. exact NI.
Qed.

Lemma step_ok d st ev st' : Kept d -> stok d -> s_disk st = d -> ProcOk d st -> orderly e c ev ->
  step e st ev = Some st' -> Result d st' (exists w, ev = EvEnd w).
Proof using Ex Perm.
  intros K SO Ed P O S. destruct (s_pc st) eqn:Ep; [exact (step_idle d st ev st' K SO Ep Ed O S)|..];
    (destruct P as [P|[P|P]]; [congruence|apply (stepA d st ev st'); auto; congruence|apply (stepB d st ev st'); auto; congruence]).
Qed.

(** ** All processes *)
Definition SInv (s : shared) : Prop :=
  Kept (sh_disk s) /\ stok (sh_disk s) /\ forall i, ProcOk (sh_disk s) (sh_proc s i).
Lemma SInv_step s i ev s' : SInv s -> orderly e c ev -> sh_step e s i ev = Some s' ->
  SInv s' /\ Grows (sh_disk s) (sh_disk s') /\
  ((exists w, ev = EvEnd w) -> s_ok (sh_proc s' i) = true -> Fin (sh_disk s')).
Proof using Ex Perm.
  intros (K & SO & P) O S. unfold sh_step in S.
  destruct (step e (with_disk (sh_proc s i) (sh_disk s)) ev) as [st'|] eqn:E; [|discriminate]. injection S as <-.
  assert (Pi : ProcOk (sh_disk s) (with_disk (sh_proc s i) (sh_disk s))).
  { destruct (P i) as [Q|[Q|Q]]; [left; exact Q|right; left|right; right]; destruct Q; constructor; stp; auto. }
  destruct (step_ok (sh_disk s) (with_disk (sh_proc s i) (sh_disk s)) ev st' K SO eq_refl Pi O E) as (G & SO' & P' & F). cbn [sh_disk sh_proc].
  split; [|split; [exact G|]].
  - split; [exact (g_kept _ _ G)|]. split; [exact SO'|]. cbn [sh_disk sh_proc]. intros j.
    destruct (Nat.eqb j i); [exact P'|exact (ProcOk_grows _ _ _ G (P j))].
  - rewrite Nat.eqb_refl. exact F.
Qed.
Lemma SInv_exec l : forall s s', Forall (fun x => orderly e c (snd x)) l -> SInv s -> sh_exec e s l = Some s' ->
  SInv s' /\ (Fin (sh_disk s) -> Fin (sh_disk s')).
Proof using Ex Perm.
  induction l as [|[i ev] l IH]; intros s s' Hl I S; cbn [sh_exec] in S; [injection S as <-; auto|].
  apply Forall_cons_iff in Hl as [H1 H2]. destruct (sh_step e s i ev) as [s1|] eqn:E; [|discriminate].
  destruct (SInv_step s i ev s1 I H1 E) as (I1 & G & _). destruct (IH s1 s' H2 I1 S) as (I2 & F). split; [exact I2|].
  intros X. apply F. exact (Grows_fin _ _ G X).
Qed.
Lemma sh_exec_app l1 : forall s l2, sh_exec e s (l1 ++ l2) = match sh_exec e s l1 with Some s1 => sh_exec e s1 l2 | None => None end.
Proof using Type.
  induction l1 as [|[i ev] l1 IH]; intros s l2; [reflexivity|]. cbn [app sh_exec]. destruct (sh_step e s i ev); [apply IH|reflexivity].
Qed.
Lemma SInv_start s : sh_disk s = d0 -> (forall i, s_pc (sh_proc s i) = Idle) -> SInv s.
Proof using Ex Perm.
  intros E P. unfold SInv. rewrite E. split; [|split].
  - constructor; auto.
  - left. reflexivity.
  - intros i. left. apply P.
Qed.

Theorem same_build s l1 i w l2 s1 s2 :
  sh_disk s = d0 -> (forall i, s_pc (sh_proc s i) = Idle) ->
  Forall (fun x => orderly e c (snd x)) (l1 ++ (i, EvEnd w) :: l2) ->
  sh_exec e s (l1 ++ [(i, EvEnd w)]) = Some s1 -> s_ok (sh_proc s1 i) = true -> sh_exec e s1 l2 = Some s2 ->
  all_current e c (sh_disk s2) /\ exists t, stored (sh_disk s2) = Some t /\ allclean t c (d_mt (sh_disk s2)).
Proof using All.
  intros E P H S1 O S2. apply Forall_app in H as [Ha Hb]. apply Forall_cons_iff in Hb as [Hb Hc].
  rewrite sh_exec_app in S1. destruct (sh_exec e s l1) as [sa|] eqn:Sa; [|discriminate].
  destruct (SInv_exec l1 s sa Ha (SInv_start s E P) Sa) as (Ia & _). cbn [sh_exec] in S1.
  destruct (sh_step e sa i (EvEnd w)) as [sb|] eqn:Sb; [|discriminate]. injection S1 as <-.
  destruct (SInv_step sa i _ sb Ia Hb Sb) as (Ib & _ & F).
  destruct (SInv_exec l2 sb s2 Hc Ib S2) as ((K & _ & _) & F2). specialize (F2 (F (ex_intro _ w eq_refl) O)).
  split; [exact (done_current _ K (proj2 F2))|]. destruct F2 as ((t & T1 & T2) & _). exists t. split; [exact T1|].
  rewrite (k_mt _ K). exact T2.
Qed.
End Two.
