(** The invariant that ties the stored schema to the artifacts' provenance. *)
From Verif Require Import Prelude Proof_Prelude Model_Path Model_Json Model_Schema Proof_Dec
  Proof_Schema Model_Command Spec_Command Proof_Command Model_ToolchainConfig Model_Target Spec_Target
  Proof_TargetBase.

Section Inv.
Context (rg : regime) (e : tenv) (T : templates_ok e).

(** ** Times that may still be seen *)

Definition R (h : hist) (mt mt' : times) : Prop :=
  match rg with
  | Quiet => True
  | Forward => forall f, mt' f = None \/ mt' f = mt f \/ exists t, mt' f = Some t /\ (h_next h f <= t)%N
  end.
Definition nextok (h : hist) (mt : times) : Prop := forall f t, mt f = Some t -> (t < h_next h f)%N.

(** If the recorded hash can still be met, then by exactly the version [v] that
    the artifact has seen. *)
Definition rec_ok (h : hist) (mt : times) (i : pathinfo) (v : option N) : Prop :=
  forall mt', R h mt mt' -> hashed mt' (pi_path i) (pi_hash i) -> v = mt' (pi_path i).

Definition fresh (h : hist) (mt : times) (i : pathinfo) : Prop :=
  match rg with
  | Quiet => forall t, pi_hash i = dec_of_N t -> mt (pi_path i) = Some t
  | Forward => forall t, pi_hash i = dec_of_N t -> (t < h_next h (pi_path i))%N
  end.

Lemma R_refl (h : hist) (mt : times) : R h mt mt.
Proof. unfold R. destruct rg; [exact I|]. intros f. right. left. reflexivity. Qed.

Lemma fresh_now (h : hist) (mt mt' : times) (i : pathinfo) :
  fresh h mt i -> R h mt mt' -> hashed mt' (pi_path i) (pi_hash i) -> mt (pi_path i) = mt' (pi_path i).
Proof.
  unfold fresh, R. intros F HR (t & Ht & Hh). destruct rg.
  - rewrite (F t Hh). symmetry. exact Ht.
  - specialize (F t Hh). destruct (HR (pi_path i)) as [K|[K|(t' & K & L)]].
    + congruence.
    + symmetry. exact K.
    + rewrite K in Ht. injection Ht as ->. lia.
Qed.
Lemma fresh_rec (h : hist) (mt : times) (i : pathinfo) : fresh h mt i -> rec_ok h mt i (mt (pi_path i)).
Proof. intros F mt' HR Hh. exact (fresh_now h mt mt' i F HR Hh). Qed.
Lemma fresh_hashed (h : hist) (mt : times) (i : pathinfo) :
  nextok h mt -> hashed mt (pi_path i) (pi_hash i) -> fresh h mt i.
Proof.
  intros N (t & Ht & Hh). unfold fresh. destruct rg; intros t' E; rewrite Hh in E; apply dec_of_N_inj in E; subst t'.
  - exact Ht.
  - exact (N _ _ Ht).
Qed.
Lemma fresh_empty (h : hist) (mt : times) (i : pathinfo) : pi_hash i = "" -> fresh h mt i.
Proof. intros E. unfold fresh. destruct rg; intros t K; rewrite E in K; symmetry in K; destruct (dec_nonempty t K). Qed.

Definition all_infos (u : tschema) : infolist :=
  ts_sources u ++ ts_headers u ++ ts_pchs u ++ ts_libs u ++ ts_compile_deps u ++ ts_link_deps u.
Definition Fresh (h : hist) (mt : times) (u : tschema) : Prop := forall i, In i (all_infos u) -> fresh h mt i.

Lemma Fresh_user (h : hist) (mt : times) (c : cfg) : Fresh h mt (user_of c).
Proof.
  intros i Hi. apply fresh_empty. unfold all_infos in Hi. cbn in Hi.
  pose proof (fun l => proj1 (Forall_forall _ _) (infos_hash l) i) as K.
  rewrite !in_app_iff in Hi. intuition eauto.
Qed.

Lemma all_infos_tracked (c : cfg) (u : tschema) (i : pathinfo) :
  like c u -> In i (all_infos u) -> In (pi_path i) (tracked c).
Proof.
  intros L Hi. unfold tracked.
  rewrite <- (like_sources _ _ L), <- (like_headers _ _ L), <- (like_pchs _ _ L), <- (like_libs _ _ L),
    <- (like_cdeps _ _ L), <- (like_ldeps _ _ L).
  unfold il_paths. rewrite <- !map_app. apply in_map. exact Hi.
Qed.
Lemma Fresh_tracked (h : hist) (mt : times) (c : cfg) (u : tschema) (i : pathinfo) :
  like c u -> Fresh h mt u -> In i (all_infos u) -> fresh h mt i /\ In (pi_path i) (tracked c).
Proof. intros L F Hi. split; [exact (F i Hi)|exact (all_infos_tracked c u i L Hi)]. Qed.

(** ** Safety of a stored schema *)

Definition SafeS (h : hist) (d : disk) (s : tschema) : Prop :=
  forall c, permitted e h c ->
  (forall m, R h (d_mt d) m -> pchs c <> [] -> pchclean s c m -> pch_current e c m d) /\
  (forall m1 m2, R h (d_mt d) m1 -> R h (d_mt d) m2 ->
     (pchs c <> [] -> pchclean s c m1) -> objclean s c m2 ->
     forall p, In p (sources c) -> matches s m2 p -> obj_current e c m2 d p) /\
  (forall m1 m2 m3, R h (d_mt d) m1 -> R h (d_mt d) m2 -> R h (d_mt d) m3 ->
     (pchs c <> [] -> pchclean s c m1) -> objclean s c m2 -> srcclean s c m2 -> linkclean s c m3 ->
     tgt_current e c m3 d).

Definition same_art (d d' : disk) : Prop :=
  d_pch d = d_pch d' /\ d_obj d = d_obj d' /\ d_tgt d = d_tgt d' /\
  d_pch_bad d = d_pch_bad d' /\ d_obj_bad d = d_obj_bad d' /\ d_tgt_bad d = d_tgt_bad d'.
Lemma same_art_refl (d : disk) : same_art d d.
Proof. repeat split. Qed.
Lemma same_art_pch (c : cfg) (m : times) (d d' : disk) :
  same_art d d' -> pch_current e c m d -> pch_current e c m d'.
Proof. intros (A & B & C & D & E & F). unfold pch_current. rewrite A, D. tauto. Qed.
Lemma same_art_obj (c : cfg) (m : times) (d d' : disk) (p : string) :
  same_art d d' -> obj_current e c m d p -> obj_current e c m d' p.
Proof. intros (A & B & C & D & E & F). unfold obj_current. rewrite A, B, E. tauto. Qed.
Lemma same_art_tgt (c : cfg) (m : times) (d d' : disk) :
  same_art d d' -> tgt_current e c m d -> tgt_current e c m d'.
Proof. intros (A & B & C & D & E & F). unfold tgt_current. rewrite B, C, F. tauto. Qed.

Definition Rsub (h : hist) (mt : times) (h' : hist) (mt' : times) : Prop :=
  forall m, R h' mt' m -> R h mt m.
Lemma Rsub_refl (h : hist) (mt : times) : Rsub h mt h mt.
Proof. intros m H. exact H. Qed.
Lemma Rsub_next (h h' : hist) (mt : times) : h_next h = h_next h' -> Rsub h mt h' mt.
Proof. intros E m. unfold R. rewrite E. tauto. Qed.

Lemma SafeS_mono (h h' : hist) (d d' : disk) (s : tschema) :
  SafeS h d s -> same_art d d' -> Rsub h (d_mt d) h' (d_mt d') ->
  (forall c, permitted e h' c -> permitted e h c) -> SafeS h' d' s.
Proof.
  intros S A HR P c Hc. destruct (S c (P c Hc)) as (S1 & S2 & S3). repeat split.
  - intros m Hm X Y. apply (same_art_pch c m d d' A). exact (S1 m (HR m Hm) X Y).
  - intros m1 m2 H1 H2 X Y p Hp M. apply (same_art_obj c m2 d d' p A).
    exact (S2 m1 m2 (HR _ H1) (HR _ H2) X Y p Hp M).
  - intros m1 m2 m3 H1 H2 H3 X Y Z W. apply (same_art_tgt c m3 d d' A).
    exact (S3 m1 m2 m3 (HR _ H1) (HR _ H2) (HR _ H3) X Y Z W).
Qed.

Lemma rec_ok_mono (h h' : hist) (mt mt' : times) (i : pathinfo) (v : option N) :
  Rsub h mt h' mt' -> rec_ok h mt i v -> rec_ok h' mt' i v.
Proof. intros HR H m Hm. exact (H m (HR m Hm)). Qed.

(** ** What the run's buffer says *)

Definition PchGood (h : hist) (d : disk) (c : cfg) (hs ps : infolist) : Prop :=
  exists p, d_pch d = Some p /\ d_pch_bad d = false /\
    pch_command e c = FOk (p_cmd p) /\ p_text p = pch_header_text (pchs c) /\
    (forall i, In i (hs ++ ps) -> rec_ok h (d_mt d) i (p_snap p (pi_path i))).
Definition ObjGood (h : hist) (d : disk) (c : cfg) (hs ds : infolist) (i : pathinfo) : Prop :=
  exists a, d_obj d (obj_of e (pi_path i)) = Some a /\ d_obj_bad d (obj_of e (pi_path i)) = false /\
    compile_command e c (pi_path i) = FOk (a_cmd a) /\
    (forall j, In j (i :: hs ++ ds) -> rec_ok h (d_mt d) j (a_snap a (pi_path j))) /\
    (pchs c <> [] -> a_pch a = d_pch d).
Definition LinkGood (h : hist) (d : disk) (c : cfg) (ls ds : infolist) : Prop :=
  exists l ord, d_tgt d = Some l /\ d_tgt_bad d = false /\
    Permutation ord (sources c) /\ link_command e c ord = FOk (l_cmd l) /\
    (forall i, In i (ls ++ ds) -> rec_ok h (d_mt d) i (l_snap l (pi_path i))) /\
    (forall s, In s (sources c) -> l_objs l (obj_of e s) = d_obj d (obj_of e s)).

Record BufInv (h : hist) (d : disk) (c : cfg) (u b : tschema) : Prop := {
  b_pch : ts_pch_compiled b = true ->
    pchs c <> [] /\ il_paths (ts_pchs b) = pchs c /\ PchGood h d c (ts_headers u) (ts_pchs b);
  b_src : forall i, In i (ts_sources b) ->
    In (pi_path i) (sources c) /\ ObjGood h d c (ts_headers u) (ts_compile_deps u) i;
  b_lnk : ts_target_linked b = true ->
    LinkGood h d c (ts_libs u) (ts_link_deps u) /\
    (forall p, In p (sources c) -> In p (il_paths (ts_sources b))) }.

Lemma PchGood_mono (h h' : hist) (d d' : disk) (c : cfg) (hs ps : infolist) :
  same_art d d' -> Rsub h (d_mt d) h' (d_mt d') -> PchGood h d c hs ps -> PchGood h' d' c hs ps.
Proof.
  intros (A & B & C & D & E & F) HR (p & P1 & P2 & P3 & P4 & P5). exists p. rewrite <- A, <- D.
  repeat split; try assumption. intros i Hi. exact (rec_ok_mono _ _ _ _ _ _ HR (P5 i Hi)).
Qed.
Lemma ObjGood_mono (h h' : hist) (d d' : disk) (c : cfg) (hs ps : infolist) (i : pathinfo) :
  same_art d d' -> Rsub h (d_mt d) h' (d_mt d') -> ObjGood h d c hs ps i -> ObjGood h' d' c hs ps i.
Proof.
  intros (A & B & C & D & E & F) HR (p & P1 & P2 & P3 & P4 & P5). exists p. rewrite <- A, <- B, <- E.
  repeat split; try assumption. intros j Hj. exact (rec_ok_mono _ _ _ _ _ _ HR (P4 j Hj)).
Qed.
Lemma LinkGood_mono (h h' : hist) (d d' : disk) (c : cfg) (hs ps : infolist) :
  same_art d d' -> Rsub h (d_mt d) h' (d_mt d') -> LinkGood h d c hs ps -> LinkGood h' d' c hs ps.
Proof.
  intros (A & B & C & D & E & F) HR (l & ord & P1 & P2 & P3 & P4 & P5 & P6). exists l, ord. rewrite <- B, <- C, <- F.
  repeat split; try assumption. intros j Hj. exact (rec_ok_mono _ _ _ _ _ _ HR (P5 j Hj)).
Qed.
Lemma BufInv_mono (h h' : hist) (d d' : disk) (c : cfg) (u b : tschema) :
  same_art d d' -> Rsub h (d_mt d) h' (d_mt d') -> BufInv h d c u b -> BufInv h' d' c u b.
Proof.
  intros A HR []. constructor.
  - intros X. destruct (b_pch0 X) as (P & Q & G). split; [exact P|]. split; [exact Q|].
    exact (PchGood_mono _ _ _ _ _ _ _ A HR G).
  - intros i Hi. destruct (b_src0 i Hi) as (P & G). split; [exact P|]. exact (ObjGood_mono _ _ _ _ _ _ _ _ A HR G).
  - intros X. destruct (b_lnk0 X) as (G & P). split; [|exact P]. exact (LinkGood_mono _ _ _ _ _ _ _ A HR G).
Qed.
Lemma BufInv_default (h : hist) (d : disk) (c : cfg) (u : tschema) : BufInv h d c u ts_default.
Proof. constructor; [discriminate|intros i []|discriminate]. Qed.

Lemma lookup_In (l : infolist) (p hh : string) : il_lookup l p = Some hh -> In (PI p hh) l.
Proof.
  unfold il_lookup. intros H. apply assoc_In in H. apply in_map_iff in H as (i & E & Hi).
  injection E as <- <-. destruct i. exact Hi.
Qed.
Lemma lookup_Some (l : infolist) (p : string) : In p (il_paths l) -> exists hh, il_lookup l p = Some hh.
Proof.
  intros H. unfold il_lookup. destruct (assoc p _) eqn:E; [eauto|].
  exfalso. apply assoc_None in E. apply E. rewrite map_map. exact H.
Qed.

Lemma nodup_sources (c : cfg) : NoDup (map (obj_of e) (sources c)) -> NoDup (sources c).
Proof. apply NoDup_map_inv. Qed.

(** A schema written at the end of a run of [c] is safe for every permitted
    configuration. *)
Lemma BufInv_safe (h : hist) (d : disk) (c : cfg) (u b : tschema) :
  like c u -> BufInv h d c u b ->
  NoDup (map (obj_of e) (sources c)) ->
  (pchs c <> [] -> h_lang h = Some (contains_cpp e c)) ->
  SafeS h d (update_store b u).
Proof using T.
  intros L [BP BS BL] ND HL c' (ND' & P1 & P2 & _).
  destruct (like_flags c u L) as (F1 & F2 & F3 & F4 & F5 & F6 & F7 & F8 & F9 & F10 & F11).
  pose proof (like_headers c u L) as Lh. pose proof (like_cdeps c u L) as Lc.
  pose proof (like_libs c u L) as Ll. pose proof (like_ldeps c u L) as Lk.
  destruct T as [T1 T2].
  assert (PP : forall m, pchs c' <> [] -> pchclean (update_store b u) c' m ->
    pchs c <> [] /\ pchs c' = pchs c /\ c_pch_compile c = c_pch_compile c' /\ contains_cpp e c = contains_cpp e c').
  { intros m X []. tsp. destruct (BP pc_done) as (Q1 & Q2 & _). split; [exact Q1|].
    apply Hashed_paths in pc_pchs. split; [congruence|]. split; [congruence|]. symmetry. apply P2. apply HL. exact Q1. }
  assert (OO : forall m1 m2, (pchs c' <> [] -> pchclean (update_store b u) c' m1) ->
             objclean (update_store b u) c' m2 -> obj_opts c c').
  { intros m1 m2 X []. tsp.
    assert (EP : contains_pch c = contains_pch c').
    { destruct (contains_pch c') eqn:E'.
      - apply contains_pch_iff. apply contains_pch_iff in E'. exact (proj1 (PP m1 E' (X E'))).
      - destruct (contains_pch c) eqn:E; [|reflexivity]. exfalso. apply contains_pch_iff in E.
        apply contains_pch_false in E'. rewrite (HL E) in P1. apply P1; [discriminate|exact E']. }
    constructor; try congruence. intros E. rewrite E in EP. symmetry in EP. apply contains_pch_iff in EP.
    exact (proj1 (proj2 (proj2 (PP m1 EP (X EP))))). }
  repeat split.
  - intros m Hm X PC. destruct (PP m X PC) as (Q1 & Q2 & Q3 & Q4). destruct PC. tsp.
    destruct (BP pc_done) as (_ & B2 & (p & G1 & G2 & G3 & G4 & G5)).
    exists p. split; [exact G1|]. split; [exact G2|]. split; [|split].
    + rewrite <- G3. symmetry. apply pch_congr; [exact T2|]. constructor; try congruence; apply contains_pch_iff; congruence.
    + congruence.
    + intros f Hf. apply in_app_iff in Hf as [Hf|Hf].
      * destruct (Hashed_ex _ _ _ _ pc_hdr Hf) as (i & Hi & <- & Hh).
        apply (G5 i); [apply in_app_iff; left; exact Hi|exact Hm|exact Hh].
      * destruct (Hashed_ex _ _ _ _ pc_pchs Hf) as (i & Hi & <- & Hh).
        apply (G5 i); [apply in_app_iff; right; exact Hi|exact Hm|exact Hh].
  - intros m1 m2 H1 H2 X OC p Hp (hh & M1 & M2). pose proof (OO m1 m2 X OC) as Opts. destruct OC. tsp.
    apply lookup_In in M1. destruct (BS _ M1) as (_ & (a & G1 & G2 & G3 & G4 & G5)). cbn [pi_path] in *.
    exists a. split; [exact G1|]. split; [exact G2|]. split; [|split].
    + rewrite <- G3. symmetry. apply compile_congr; [exact T1|exact Opts].
    + intros f [<-|Hf].
      * apply (G4 (PI p hh)); [left; reflexivity|exact H2|exact M2].
      * apply in_app_iff in Hf as [Hf|Hf].
        -- destruct (Hashed_ex _ _ _ _ oc_hdr Hf) as (i & Hi & <- & Hh).
           apply (G4 i); [right; apply in_app_iff; left; exact Hi|exact H2|exact Hh].
        -- destruct (Hashed_ex _ _ _ _ oc_dep Hf) as (i & Hi & <- & Hh).
           apply (G4 i); [right; apply in_app_iff; right; exact Hi|exact H2|exact Hh].
    + intros Hp'. apply G5. apply contains_pch_iff. rewrite (oo_pch _ _ Opts). apply contains_pch_iff. exact Hp'.
  - intros m1 m2 m3 H1 H2 H3 X OC [SC1 SC2] LC. pose proof (OO m1 m2 X OC) as Opts. destruct LC. tsp.
    destruct (BL lc_done) as ((l & ord & G1 & G2 & G3 & G4 & G5 & G6) & AllS).
    assert (ES : forall p, In p (sources c) <-> In p (sources c')).
    { intros p. split; intros Hp.
      - apply SC2. apply AllS. exact Hp.
      - destruct (SC1 p Hp) as (hh & M1 & _). apply lookup_In in M1. exact (proj1 (BS _ M1)). }
    exists l, ord. split; [exact G1|]. split; [exact G2|]. split; [|split; [|split]].
    + rewrite G3. apply NoDup_Permutation; [apply nodup_sources; exact ND|apply nodup_sources; exact ND'|exact ES].
    + rewrite <- G4. symmetry. apply link_congr. constructor; [exact Opts|congruence|congruence| |congruence].
      apply Hashed_paths in lc_libs. congruence.
    + intros f Hf. apply in_app_iff in Hf as [Hf|Hf].
      * destruct (Hashed_ex _ _ _ _ lc_libs Hf) as (i & Hi & <- & Hh).
        apply (G5 i); [apply in_app_iff; left; exact Hi|exact H3|exact Hh].
      * destruct (Hashed_ex _ _ _ _ lc_dep Hf) as (i & Hi & <- & Hh).
        apply (G5 i); [apply in_app_iff; right; exact Hi|exact H3|exact Hh].
    + intros p Hp. apply G6. apply ES. exact Hp.
Qed.
End Inv.
