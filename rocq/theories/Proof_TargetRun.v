(** The invariant of the transition system and its preservation. *)
From Verif Require Import Prelude Proof_Prelude Model_Path Model_Json Model_Schema Proof_Dec
  Proof_Schema Model_Command Spec_Command Proof_Command Model_ToolchainConfig Model_Target Spec_Target
  Proof_TargetBase Proof_TargetInv.

Section Run.
Context (rg : regime) (e : tenv) (T : templates_ok e).

Local Notation R := (R rg).
Local Notation fresh := (fresh rg).
Local Notation Fresh := (Fresh rg).
Local Notation SafeS := (SafeS rg e).
Local Notation BufInv := (BufInv rg e).
Local Notation mtof st := (d_mt (s_disk st)).

(** ** In the forward regime a check that fails now fails for ever *)

Lemma Hashed_back (h : hist) (mt m : times) (l : list string) (a : infolist) :
  (forall i, In i a -> fresh h mt i) -> R h mt m -> Hashed m l a -> Hashed mt l a.
Proof.
  intros F HR H. rewrite <- (Hashed_paths _ _ _ H). apply Hashed_of. intros i Hi.
  pose proof (Hashed_In _ _ _ _ H Hi) as Hh. pose proof (fresh_now rg h mt m i (F i Hi) HR Hh) as E.
  destruct Hh as (t & A & B). exists t. split; [congruence|exact B].
Qed.
Lemma Fresh_sub (h : hist) (mt : times) (s : tschema) (l : infolist) :
  Fresh h mt s -> incl l (all_infos s) -> forall i, In i l -> fresh h mt i.
Proof. intros F Hl i Hi. exact (F i (Hl i Hi)). Qed.
Ltac sub := unfold all_infos; intros ? ?; rewrite !in_app_iff; tauto.
Lemma pchclean_back (h : hist) (mt m : times) (s : tschema) (c : cfg) :
  Fresh h mt s -> R h mt m -> pchclean s c m -> pchclean s c mt.
Proof.
  intros F HR []. constructor; try assumption.
  - eapply Hashed_back; [|exact HR|eassumption]. apply (Fresh_sub _ _ _ _ F). sub.
  - eapply Hashed_back; [|exact HR|eassumption]. apply (Fresh_sub _ _ _ _ F). sub.
Qed.
Lemma objclean_back (h : hist) (mt m : times) (s : tschema) (c : cfg) :
  Fresh h mt s -> R h mt m -> objclean s c m -> objclean s c mt.
Proof.
  intros F HR []. constructor; try assumption.
  - eapply Hashed_back; [|exact HR|eassumption]. apply (Fresh_sub _ _ _ _ F). sub.
  - eapply Hashed_back; [|exact HR|eassumption]. apply (Fresh_sub _ _ _ _ F). sub.
Qed.
Lemma linkclean_back (h : hist) (mt m : times) (s : tschema) (c : cfg) :
  Fresh h mt s -> R h mt m -> linkclean s c m -> linkclean s c mt.
Proof.
  intros F HR []. constructor; try assumption.
  - eapply Hashed_back; [|exact HR|eassumption]. apply (Fresh_sub _ _ _ _ F). sub.
  - eapply Hashed_back; [|exact HR|eassumption]. apply (Fresh_sub _ _ _ _ F). sub.
Qed.
Lemma matches_back (h : hist) (mt m : times) (s : tschema) (p : string) :
  Fresh h mt s -> R h mt m -> matches s m p -> matches s mt p.
Proof.
  intros F HR (hh & A & B). exists hh. split; [exact A|].
  pose proof (lookup_In _ _ _ A) as Hi.
  assert (Hf : fresh h mt (PI p hh)). { apply F. unfold all_infos. apply in_app_iff. left. exact Hi. }
  pose proof (fresh_now rg h mt m _ Hf HR B) as E. cbn in E. destruct B as (t & B1 & B2). exists t. split; [congruence|exact B2].
Qed.
Lemma srcclean_back (h : hist) (mt m : times) (s : tschema) (c : cfg) :
  Fresh h mt s -> R h mt m -> srcclean s c m -> srcclean s c mt.
Proof. intros F HR [A B]. split; [|exact B]. intros p Hp. exact (matches_back h mt m s p F HR (A p Hp)). Qed.

(** ** The invariant *)

Definition allclean (s : tschema) (c : cfg) (mt : times) : Prop :=
  (pchs c <> [] -> pchclean s c mt) /\ objclean s c mt /\ srcclean s c mt /\ linkclean s c mt.

Definition forcedP (h : hist) (st : tstate) : Prop :=
  rg = Forward -> forall s m, stored (s_disk st) = Some s -> R h (mtof st) m -> ~ pchclean s (s_cfg st) m.

Record StPch (h : hist) (st : tstate) : Prop := {
  sp_user : s_user st = user_of (s_cfg st);
  sp_buf : s_buf st = ts_default;
  sp_dirty : s_dirty st = false;
  sp_pch : pchs (s_cfg st) <> [] }.
Record StPchExec (h : hist) (st : tstate) : Prop := {
  sx_buf : s_buf st = ts_default;
  sx_dirty : s_dirty st = true;
  sx_pch : pchs (s_cfg st) <> [];
  sx_hdr : Hashed (mtof st) (headers (s_cfg st)) (ts_headers (s_user st));
  sx_pchs : h_edited h = false -> Hashed (mtof st) (pchs (s_cfg st)) (ts_pchs (s_user st));
  sx_forced : forcedP h st }.
Record StObj (h : hist) (st : tstate) : Prop := {
  so_src : ts_sources (s_buf st) = [];
  so_lnk : ts_target_linked (s_buf st) = false;
  so_nopch : pchs (s_cfg st) = [] ->
    s_user st = user_of (s_cfg st) /\ s_buf st = ts_default /\ s_dirty st = false;
  so_pch : pchs (s_cfg st) <> [] -> s_ok st = true ->
    ts_pch_compiled (s_buf st) = true /\
    Hashed (mtof st) (headers (s_cfg st)) (ts_headers (s_user st)) /\
    (h_edited h = false -> Hashed (mtof st) (pchs (s_cfg st)) (ts_pchs (s_buf st)));
  so_forced : s_dirty st = true -> pchs (s_cfg st) <> [] /\ forcedP h st;
  so_clean : pchs (s_cfg st) <> [] -> s_ok st = true -> s_dirty st = false ->
    exists s, s_load st = Some s /\
      (forall m p, R h (mtof st) m -> objclean s (s_cfg st) m -> In p (sources (s_cfg st)) -> matches s m p ->
         obj_current e (s_cfg st) m (s_disk st) p) /\
      (h_edited h = false -> pchclean s (s_cfg st) (mtof st)) }.
Definition nowObj (st : tstate) (pend : infolist) : Prop :=
  (pchs (s_cfg st) <> [] -> Hashed (mtof st) (pchs (s_cfg st)) (ts_pchs (s_buf st))) /\
  Hashed (mtof st) (headers (s_cfg st)) (ts_headers (s_user st)) /\
  Hashed (mtof st) (compile_deps (s_cfg st)) (ts_compile_deps (s_user st)) /\
  (forall i, In i (pend ++ ts_sources (s_buf st)) -> hashed (mtof st) (pi_path i) (pi_hash i)).
Record StCompile (h : hist) (st : tstate) (pend : infolist) : Prop := {
  sc_nd : NoDup (map (obj_of e) (il_paths pend ++ il_paths (ts_sources (s_buf st))));
  sc_in : forall i, In i pend -> In i (ts_sources (s_user st));
  sc_lnk : ts_target_linked (s_buf st) = false;
  sc_dirty : pend <> [] -> s_dirty st = true;
  sc_ok : s_ok st = true ->
    Permutation (il_paths pend ++ il_paths (ts_sources (s_buf st))) (sources (s_cfg st)) /\
    (pchs (s_cfg st) <> [] -> ts_pch_compiled (s_buf st) = true);
  sc_forced : rg = Forward -> forall s m1 m2, stored (s_disk st) = Some s ->
    R h (mtof st) m1 -> R h (mtof st) m2 ->
    (pchs (s_cfg st) <> [] -> pchclean s (s_cfg st) m1) -> objclean s (s_cfg st) m2 ->
    (forall i, In i pend -> ~ matches s m2 (pi_path i)) /\
    (s_dirty st = true -> ~ srcclean s (s_cfg st) m2);
  sc_now : s_ok st = true -> h_edited h = false -> nowObj st pend;
  sc_clean : s_ok st = true -> s_dirty st = false ->
    exists s, s_load st = Some s /\
      (h_edited h = false ->
       (pchs (s_cfg st) <> [] -> pchclean s (s_cfg st) (mtof st)) /\
       objclean s (s_cfg st) (mtof st) /\ srcclean s (s_cfg st) (mtof st)) }.
Definition nowAll (st : tstate) : Prop :=
  nowObj st [] /\
  Hashed (mtof st) (libs (s_cfg st)) (ts_libs (s_user st)) /\
  Hashed (mtof st) (link_deps (s_cfg st)) (ts_link_deps (s_user st)).
Record StLinkExec (h : hist) (st : tstate) : Prop := {
  sl_dirty : s_dirty st = true;
  sl_perm : Permutation (il_paths (ts_sources (s_buf st))) (sources (s_cfg st));
  sl_pch : pchs (s_cfg st) <> [] -> ts_pch_compiled (s_buf st) = true;
  sl_lnk : ts_target_linked (s_buf st) = false;
  sl_forced : rg = Forward -> forall s m1 m2 m3, stored (s_disk st) = Some s ->
    R h (mtof st) m1 -> R h (mtof st) m2 -> R h (mtof st) m3 ->
    (pchs (s_cfg st) <> [] -> pchclean s (s_cfg st) m1) -> objclean s (s_cfg st) m2 ->
    srcclean s (s_cfg st) m2 -> ~ linkclean s (s_cfg st) m3;
  sl_now : h_edited h = false -> nowAll st }.
Record StEnd (h : hist) (st : tstate) : Prop := {
  se_dirty : s_ok st = true -> s_dirty st = true ->
    Permutation (il_paths (ts_sources (s_buf st))) (sources (s_cfg st)) /\
    (pchs (s_cfg st) <> [] -> ts_pch_compiled (s_buf st) = true) /\
    ts_target_linked (s_buf st) = true /\ (h_edited h = false -> nowAll st);
  se_clean : s_ok st = true -> s_dirty st = false ->
    exists s, s_load st = Some s /\ (h_edited h = false -> allclean s (s_cfg st) (mtof st)) }.

Definition Stage (h : hist) (st : tstate) : Prop :=
  match s_pc st with
  | Idle => True
  | PcPch => StPch h st
  | PcPchExec => StPchExec h st
  | PcObj => StObj h st
  | PcCompile p => StCompile h st p
  | PcLinkExec => StLinkExec h st
  | PcEnd => StEnd h st
  end.

Record RunInv (h : hist) (st : tstate) : Prop := {
  r_perm : permitted e h (s_cfg st);
  r_lang : pchs (s_cfg st) <> [] -> h_lang h = Some (contains_cpp e (s_cfg st));
  r_load : s_load st = stored (s_disk st);
  r_like : like (s_cfg st) (s_user st);
  r_fresh : Fresh h (mtof st) (s_user st);
  r_freshb : forall i, In i (ts_sources (s_buf st) ++ ts_pchs (s_buf st)) ->
    fresh h (mtof st) i /\ In (pi_path i) (tracked (s_cfg st));
  r_buf : BufInv h (s_disk st) (s_cfg st) (s_user st) (s_buf st);
  r_ord : Permutation (s_ord st) (sources (s_cfg st));
  r_stage : Stage h st }.

Record Inv (h : hist) (st : tstate) : Prop := {
  i_next : nextok h (mtof st);
  i_bound : rg = Forward -> forall s, stored (s_disk st) = Some s -> Fresh h (mtof st) s;
  i_safe : rg = Forward \/ h_taint h = None -> forall s, stored (s_disk st) = Some s -> SafeS h (s_disk st) s;
  i_quiet : rg = Quiet -> h_taint h <> None -> s_pc st <> Idle /\ s_dirty st = true;
  i_run : s_pc st <> Idle -> RunInv h st }.

(** ** Initially *)

Lemma Inv_init (d : disk) : Inv (hist0 d) (init d).
Proof.
  constructor; cbn.
  - intros f t H. cbn [hist0 h_next]. rewrite H. lia.
  - intros _ s H. discriminate.
  - intros _ s H. discriminate.
  - intros _ H. congruence.
  - intros H. congruence.
Qed.

(** ** Environment events *)

(** Everything in a stage is kept if the possible times shrink, the edited flag
    is only raised, and what is claimed about the present times still holds. *)
Lemma Fresh_mono (h h' : hist) (mt mt' : times) (u : tschema) :
  (forall i, fresh h mt i -> fresh h' mt' i) -> Fresh h mt u -> Fresh h' mt' u.
Proof. intros H F i Hi. exact (H i (F i Hi)). Qed.

Lemma Hashed_upd (mt : times) (f : string) (t : option N) (l : list string) (a : infolist) :
  ~ In f l -> Hashed mt l a -> Hashed (upd mt f t) l a.
Proof.
  intros Hf H. induction H as [|p x l a [Hx1 (v & Hv1 & Hv2)] _ IH]; constructor.
  - split; [exact Hx1|]. exists v. split; [|exact Hv2]. unfold upd.
    destruct (String.eqb_spec p f) as [->|]; [|exact Hv1]. exfalso. apply Hf. left. reflexivity.
  - apply IH. intros K. apply Hf. right. exact K.
Qed.

Lemma permitted_same (h h' : hist) (c : cfg) :
  h_lang h = h_lang h' -> h_taint h = h_taint h' -> permitted e h' c -> permitted e h c.
Proof. intros A B (P1 & P2 & P3 & P4). unfold permitted. rewrite A, B. tauto. Qed.

Lemma tracked_not (f : string) (c : cfg) :
  mem_str f (tracked c) = false ->
  ~ In f (sources c) /\ ~ In f (headers c) /\ ~ In f (pchs c) /\ ~ In f (libs c) /\
  ~ In f (compile_deps c) /\ ~ In f (link_deps c).
Proof. intros H. apply mem_str_false in H. unfold tracked in H. rewrite !in_app_iff in H. tauto. Qed.
Lemma pchclean_upd (s : tschema) (c : cfg) (mt : times) (f : string) (t : option N) :
  mem_str f (tracked c) = false -> pchclean s c mt -> pchclean s c (upd mt f t).
Proof. intros N H. apply tracked_not in N. destruct H. constructor; try assumption; apply Hashed_upd; tauto. Qed.
Lemma objclean_upd (s : tschema) (c : cfg) (mt : times) (f : string) (t : option N) :
  mem_str f (tracked c) = false -> objclean s c mt -> objclean s c (upd mt f t).
Proof. intros N H. apply tracked_not in N. destruct H. constructor; try assumption; apply Hashed_upd; tauto. Qed.
Lemma linkclean_upd (s : tschema) (c : cfg) (mt : times) (f : string) (t : option N) :
  mem_str f (tracked c) = false -> linkclean s c mt -> linkclean s c (upd mt f t).
Proof. intros N H. apply tracked_not in N. destruct H. constructor; try assumption; apply Hashed_upd; tauto. Qed.
Lemma srcclean_upd (s : tschema) (c : cfg) (mt : times) (f : string) (t : option N) :
  mem_str f (tracked c) = false -> srcclean s c mt -> srcclean s c (upd mt f t).
Proof.
  intros N [A B]. apply tracked_not in N. split; [|exact B]. intros p Hp. destruct (A p Hp) as (hh & L & v & V1 & V2).
  exists hh. split; [exact L|]. exists v. split; [|exact V2]. unfold upd.
  destruct (String.eqb_spec p f) as [->|]; [tauto|exact V1].
Qed.
Lemma allclean_upd (s : tschema) (c : cfg) (mt : times) (f : string) (t : option N) :
  mem_str f (tracked c) = false -> allclean s c mt -> allclean s c (upd mt f t).
Proof.
  intros N (A & B & C & D). split; [intros P; apply pchclean_upd; auto|]. split; [apply objclean_upd; assumption|].
  split; [exact (srcclean_upd s c mt f t N C)|exact (linkclean_upd s c mt f t N D)].
Qed.
Lemma hashed_upd (c : cfg) (mt : times) (f p hh : string) (t : option N) :
  mem_str f (tracked c) = false -> In p (tracked c) -> hashed mt p hh -> hashed (upd mt f t) p hh.
Proof.
  intros N P (v & A & B). exists v. split; [|exact B]. unfold upd.
  destruct (String.eqb_spec p f) as [->|]; [|exact A]. apply mem_str_false in N. contradiction.
Qed.

(** Times moving forward: [f] gets a later time, or disappears. *)
Section Edit.
Context (h : hist) (st : tstate) (f : string) (t : option N).
Let h' := track e h st (EvEdit f t).
Let st' := with_disk st (set_mt (s_disk st) (upd (mtof st) f t)).

Lemma edit_next : nextok h (mtof st) -> nextok h' (mtof st').
Proof.
  intros N g v H. unfold h', st', track in *. stp. cbn [h_next]. unfold upd in *.
  destruct t as [w|].
  - destruct (String.eqb g f) eqn:E; [injection H as <-; lia|exact (N _ _ H)].
  - destruct (String.eqb g f); [discriminate|exact (N _ _ H)].
Qed.
Lemma edit_Rsub : admissible rg e h st (EvEdit f t) -> Rsub rg h (mtof st) h' (mtof st').
Proof.
  cbn. unfold Rsub, h', st', Proof_TargetInv.R, track. stp. cbn [h_next]. destruct rg; [tauto|].
  intros [Hadm _] m H g. specialize (H g). unfold upd in *. destruct t as [w|].
  - specialize (Hadm w eq_refl). destruct (String.eqb g f) eqn:Egf; [apply String.eqb_eq in Egf; rewrite Egf in *|].
    + destruct H as [H|[H|(v & H & Hv)]]; [left; exact H| |].
      * right. right. exists w. split; assumption.
      * right. right. exists v. split; [exact H|lia].
    + destruct H as [H|[H|(v & H & Hv)]]; [left|right; left|right; right; exists v; split]; assumption.
  - destruct (String.eqb g f).
    + destruct H as [H|[H|H]]; [left; exact H|left; exact H|right; right; exact H].
    + exact H.
Qed.
Lemma edit_fresh : rg = Forward -> forall i, fresh h (mtof st) i -> fresh h' (mtof st') i.
Proof.
  intros F i. unfold Proof_TargetInv.fresh, h', track. rewrite F. cbn [h_next]. intros H v Hv. specialize (H v Hv).
  destruct t; [|exact H]. unfold upd. destruct (String.eqb_spec (pi_path i) f) as [E|]; [|exact H].
  rewrite E in H. lia.
Qed.

(** After an edit that does not raise the flag, the flag was not raised before
    and the file is not tracked. *)
Lemma edit_flag : s_pc st <> Idle -> ~ before_checks st -> h_edited h' = false ->
  h_edited h = false /\ mem_str f (tracked (s_cfg st)) = false.
Proof.
  intros Hi Hb. unfold h', track, before_checks in *. cbn [h_edited].
  destruct (s_pc st); try (intros H; apply orb_false_iff in H; exact H); try tauto.
  destruct (contains_pch (s_cfg st)); [|tauto]. cbn [andb]. intros H. apply orb_false_iff in H. exact H.
Qed.
Lemma edit_untracked : rg = Quiet -> s_pc st <> Idle -> ~ before_checks st -> admissible rg e h st (EvEdit f t) ->
  mem_str f (tracked (s_cfg st)) = false.
Proof. intros Q Hi Hb A. cbn in A. rewrite Q in A. apply mem_str_false. tauto. Qed.

Lemma nowObj_upd (pend : infolist) : mem_str f (tracked (s_cfg st)) = false ->
  (forall i, In i (pend ++ ts_sources (s_buf st)) -> In (pi_path i) (tracked (s_cfg st))) ->
  nowObj st pend -> nowObj st' pend.
Proof.
  intros N P (A & B & C & D). pose proof (tracked_not _ _ N) as K. unfold nowObj, st'. stp. repeat split.
  - intros Q. apply Hashed_upd; [tauto|exact (A Q)].
  - apply Hashed_upd; [tauto|exact B].
  - apply Hashed_upd; [tauto|exact C].
  - intros i Hi. apply (hashed_upd (s_cfg st)); [exact N|exact (P i Hi)|exact (D i Hi)].
Qed.
Lemma nowAll_upd : mem_str f (tracked (s_cfg st)) = false ->
  (forall i, In i (ts_sources (s_buf st)) -> In (pi_path i) (tracked (s_cfg st))) -> nowAll st -> nowAll st'.
Proof.
  intros N P (A & B & C). pose proof (tracked_not _ _ N) as K. split; [exact (nowObj_upd [] N P A)|]. unfold st'. stp. split.
  - apply Hashed_upd; [tauto|exact B].
  - apply Hashed_upd; [tauto|exact C].
Qed.

Lemma edit_stage : admissible rg e h st (EvEdit f t) -> Rsub rg h (mtof st) h' (mtof st') ->
  like (s_cfg st) (s_user st) ->
  (forall i, In i (ts_sources (s_buf st)) -> In (pi_path i) (tracked (s_cfg st))) ->
  Stage h st -> Stage h' st'.
Proof.
  intros Hadm HR HL HB. pose proof edit_flag as EF. unfold Stage. change (s_pc st') with (s_pc st).
  destruct (s_pc st) eqn:Epc; intros S.
  - exact I.
  - destruct S. constructor; assumption.
  - (* PcPchExec *)
    destruct S.
    assert (NB : ~ before_checks st) by (unfold before_checks; rewrite Epc; intros [H|[H _]]; discriminate).
    assert (Hn : ~ In f (headers (s_cfg st))).
    { destruct rg eqn:Erg.
      - rewrite <- Erg in Hadm. apply tracked_not. apply edit_untracked; [exact Erg|congruence|exact NB|exact Hadm].
      - cbn in Hadm. intros K. apply (proj2 Hadm). split; [|exact K].
        split; [apply contains_pch_iff; assumption|left; exact Epc]. }
    constructor; try assumption.
    + apply Hashed_upd; assumption.
    + intros K. destruct (EF ltac:(discriminate) NB K) as [K1 K2]. apply Hashed_upd; [apply tracked_not in K2; tauto|exact (sx_pchs0 K1)].
    + intros Hf s m Hs Hm. apply (sx_forced0 Hf s m Hs). exact (HR m Hm).
  - (* PcObj *)
    destruct S.
    assert (NB : pchs (s_cfg st) <> [] -> ~ before_checks st).
    { intros P. unfold before_checks. rewrite Epc. apply contains_pch_iff in P. intros [H|[_ H]]; congruence. }
    assert (W : pchs (s_cfg st) <> [] -> ~ In f (headers (s_cfg st))).
    { intros P. destruct rg eqn:Erg.
      - rewrite <- Erg in Hadm. apply tracked_not. apply edit_untracked; [exact Erg|congruence|exact (NB P)|exact Hadm].
      - apply contains_pch_iff in P. cbn in Hadm. intros K.
        apply (proj2 Hadm). split; [|exact K]. split; [exact P|right; exact Epc]. }
    constructor; try assumption.
    + intros P O. destruct (so_pch0 P O) as (A & B & C). split; [exact A|].
      split; [apply Hashed_upd; [exact (W P)|exact B]|]. intros K.
      destruct (EF ltac:(discriminate) (NB P) K) as [K1 K2]. apply Hashed_upd; [apply tracked_not in K2; tauto|exact (C K1)].
    + intros D. destruct (so_forced0 D) as [P F]. split; [exact P|]. intros Hf s m Hs Hm.
      apply (F Hf s m Hs). exact (HR m Hm).
    + intros P O D. destruct (so_clean0 P O D) as (s & A & B & C). exists s. split; [exact A|]. split.
      * intros m p Hm X Y Z. apply (same_art_obj e _ _ (s_disk st)); [repeat split|]. exact (B m p (HR m Hm) X Y Z).
      * intros K. destruct (EF ltac:(discriminate) (NB P) K) as [K1 K2]. apply pchclean_upd; [exact K2|exact (C K1)].
  - (* PcCompile *)
    assert (NB : ~ before_checks st) by (unfold before_checks; rewrite Epc; intros [H|[H _]]; discriminate).
    destruct S. constructor; try assumption.
    + intros Hf s m1 m2 Hs H1 H2. apply (sc_forced0 Hf s m1 m2 Hs (HR _ H1) (HR _ H2)).
    + intros O K. destruct (EF ltac:(discriminate) NB K) as [K1 K2]. apply nowObj_upd; [exact K2| |exact (sc_now0 O K1)].
      intros i Hi. apply in_app_iff in Hi as [Hi|Hi]; [|exact (HB i Hi)].
      apply (all_infos_tracked _ (s_user st) i HL). unfold all_infos. apply in_app_iff. left. exact (sc_in0 i Hi).
    + intros O D. destruct (sc_clean0 O D) as (s & A & B). exists s. split; [exact A|]. intros K.
      destruct (EF ltac:(discriminate) NB K) as [K1 K2]. destruct (B K1) as (B1 & B2 & B3).
      split; [intros P; apply pchclean_upd; auto|]. split; [apply objclean_upd|apply srcclean_upd]; assumption.
  - assert (NB : ~ before_checks st) by (unfold before_checks; rewrite Epc; intros [H|[H _]]; discriminate).
    destruct S. constructor; try assumption.
    + intros Hf s m1 m2 m3 Hs H1 H2 H3. apply (sl_forced0 Hf s m1 m2 m3 Hs (HR _ H1) (HR _ H2) (HR _ H3)).
    + intros K. destruct (EF ltac:(discriminate) NB K) as [K1 K2]. apply nowAll_upd; auto.
  - assert (NB : ~ before_checks st) by (unfold before_checks; rewrite Epc; intros [H|[H _]]; discriminate).
    destruct S. constructor.
    + intros O D. destruct (se_dirty0 O D) as (A & B & C & E). split; [exact A|]. split; [exact B|]. split; [exact C|].
      intros K. destruct (EF ltac:(discriminate) NB K) as [K1 K2]. apply nowAll_upd; auto.
    + intros O D. destruct (se_clean0 O D) as (s & A & B). exists s. split; [exact A|].
      intros K. destruct (EF ltac:(discriminate) NB K) as [K1 K2]. apply allclean_upd; auto.
Qed.

Lemma edit_Inv : admissible rg e h st (EvEdit f t) -> Inv h st -> Inv h' st'.
Proof.
  intros Hadm I. pose proof (edit_Rsub Hadm) as HR. destruct I as [I1 I2 I3 I4 I5].
  assert (HP : forall c, permitted e h' c -> permitted e h c) by (intros c H; exact H).
  constructor.
  - exact (edit_next I1).
  - intros Hf s Hs. apply (Fresh_mono h h' (mtof st)); [exact (edit_fresh Hf)|]. exact (I2 Hf s Hs).
  - intros K s Hs. apply (SafeS_mono rg e h h' (s_disk st)); [exact (I3 K s Hs)|repeat split|exact HR|exact HP].
  - exact I4.
  - intros Hpc. specialize (I5 Hpc). assert (Hst : Stage h' st').
    { apply (edit_stage Hadm HR (r_like _ _ I5)); [|exact (r_stage _ _ I5)].
      intros i Hi. exact (proj2 (r_freshb _ _ I5 i (in_or_app _ _ i (or_introl Hi)))). }
    assert (FR : Fresh h' (mtof st') (s_user st) /\
                 forall i, In i (ts_sources (s_buf st) ++ ts_pchs (s_buf st)) ->
                   fresh h' (mtof st') i /\ In (pi_path i) (tracked (s_cfg st))).
    { destruct rg eqn:Erg.
      - rewrite <- Erg in *.
        assert (D : before_checks st \/ ~ before_checks st).
        { unfold before_checks. destruct (s_pc st); try (right; intros [K|[K _]]; discriminate); [left; left; reflexivity|].
          destruct (contains_pch (s_cfg st)); [right; intros [K|[_ K]]; discriminate|left; right; split; reflexivity]. }
        destruct D as [D|D].
        + assert (Hu : s_user st = user_of (s_cfg st) /\ s_buf st = ts_default).
          { pose proof (r_stage _ _ I5) as S. unfold Stage in S. destruct D as [H|[H P]]; rewrite H in S.
            - destruct S. split; assumption.
            - destruct S. apply contains_pch_false in P. destruct (so_nopch0 P) as (A & B & _). split; assumption. }
          destruct Hu as [Hu Hb]. rewrite Hu, Hb. split; [apply Fresh_user|intros i []].
        + pose proof (edit_untracked Erg Hpc D Hadm) as N. apply mem_str_false in N.
          assert (K : forall i, fresh h (mtof st) i -> In (pi_path i) (tracked (s_cfg st)) -> fresh h' (mtof st') i).
          { intros i Fi Hi. unfold Proof_TargetInv.fresh, st' in *. rewrite Erg in *. stp. intros v Hv. unfold upd.
            destruct (String.eqb_spec (pi_path i) f) as [Ef|]; [congruence|exact (Fi v Hv)]. }
          split.
          * intros i Hi. apply K; [exact (r_fresh _ _ I5 i Hi)|exact (all_infos_tracked _ _ i (r_like _ _ I5) Hi)].
          * intros i Hi. destruct (r_freshb _ _ I5 i Hi). split; auto.
      - rewrite <- Erg in *. split.
        + apply (Fresh_mono h h' (mtof st)); [exact (edit_fresh Erg)|exact (r_fresh _ _ I5)].
        + intros i Hi. destruct (r_freshb _ _ I5 i Hi) as [B1 B2]. split; [exact (edit_fresh Erg i B1)|exact B2]. }
    destruct FR as [FR1 FR2]. destruct I5. constructor; try assumption.
    apply (BufInv_mono rg e h h' (s_disk st)); [repeat split|exact HR|assumption].
Qed.
End Edit.
End Run.
