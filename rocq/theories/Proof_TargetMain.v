(** Consequences of the invariant, and properties of single runs. *)
From Verif Require Import Prelude Proof_Prelude Model_Path Model_Json Model_Schema Spec_Json Proof_Dec
  Proof_Schema Model_Command Spec_Command Proof_Command Model_ToolchainConfig Model_Target Spec_Target
  Proof_TargetBase Proof_TargetInv Proof_TargetRun Proof_TargetStep Proof_TargetStep2.

(** ** Histories *)

Lemma exec_app (e : tenv) (a b : list event) : forall st,
  exec e st (a ++ b) = match exec e st a with Some st' => exec e st' b | None => None end.
Proof.
  induction a as [|ev a IH]; intros st; cbn [app exec]; [reflexivity|].
  destruct (step e st ev); [apply IH|reflexivity].
Qed.
Lemma exec_cons (e : tenv) (st st1 : tstate) (ev : event) (r : list event) :
  step e st ev = Some st1 -> exec e st (ev :: r) = exec e st1 r.
Proof. intros H. cbn [exec]. rewrite H. reflexivity. Qed.
Lemma exec_snoc (e : tenv) (a : list event) (ev : event) (st st' : tstate) :
  exec e st (a ++ [ev]) = Some st' <-> exists st1, exec e st a = Some st1 /\ step e st1 ev = Some st'.
Proof.
  rewrite exec_app. destruct (exec e st a) as [st1|]; cbn [exec].
  - split.
    + intros H. exists st1. split; [reflexivity|]. destruct (step e st1 ev); exact H.
    + intros (x & [= <-] & H). rewrite H. reflexivity.
  - split; [discriminate|]. intros (x & H & _). discriminate.
Qed.

Lemma history_snoc_inv rg e d0 evs ev h st :
  history rg e d0 (evs ++ [ev]) h st ->
  exists h1 st1, history rg e d0 evs h1 st1 /\ admissible rg e h1 st1 ev /\
    step e st1 ev = Some st /\ h = track e h1 st1 ev.
Proof.
  intros H. inversion H as [E|evs' h1 st1 ev' st' H1 A S E].
  - destruct evs; discriminate.
  - apply app_inj_tail in E as [-> ->]. exists h1, st1. auto.
Qed.
Lemma history_split rg e d0 evs2 : forall evs1 h st,
  history rg e d0 (evs1 ++ evs2) h st ->
  exists h1 st1, history rg e d0 evs1 h1 st1 /\ exec e st1 evs2 = Some st.
Proof.
  induction evs2 as [|ev evs2 IH] using rev_ind; intros evs1 h st H.
  - rewrite app_nil_r in H. exists h, st. split; [exact H|reflexivity].
  - rewrite app_assoc in H. apply history_snoc_inv in H as (h1 & st1 & H1 & A & S & _).
    apply IH in H1 as (h2 & st2 & H2 & X). exists h2, st2. split; [exact H2|].
    apply exec_snoc. exists st1. split; assumption.
Qed.

Lemma step_end (e : tenv) (st st' : tstate) (w : wres) :
  step e st (EvEnd w) = Some st' ->
  s_pc st = PcEnd /\ s_pc st' = Idle /\ s_cfg st' = s_cfg st /\ d_mt (s_disk st') = d_mt (s_disk st) /\
  same_art (s_disk st) (s_disk st') /\ s_log st' = s_log st /\ (s_ok st' = true -> s_ok st = true) /\ s_dirty st' = false.
Proof.
  cbn [step]. destruct (s_pc st) eqn:E; try discriminate. unfold end_task. intros H. split; [reflexivity|].
  destruct (s_dirty st) eqn:Ed.
  - destruct (store_text _) as [t|].
    + destruct w as [| |n rep].
      * injection H as <-. stp. repeat split; auto.
      * injection H as <-. stp. repeat split; auto. discriminate.
      * destruct (short n t); [|discriminate]. destruct rep; injection H as <-; stp; repeat split; auto; discriminate.
    + destruct w; try discriminate. injection H as <-. stp. repeat split; auto. discriminate.
  - destruct w; try discriminate. injection H as <-. stp. repeat split; auto.
Qed.

Lemma same_art_all (e : tenv) (c : cfg) (d d' : disk) :
  same_art d d' -> d_mt d' = d_mt d -> all_current e c d -> all_current e c d'.
Proof.
  intros A M (X & Y & Z). unfold all_current. rewrite M. repeat split.
  - intros P. exact (same_art_pch e c _ _ _ A (X P)).
  - intros s Hs. exact (same_art_obj e c _ _ _ s A (Y s Hs)).
  - exact (same_art_tgt e c _ _ _ A Z).
Qed.

Theorem success_current rg e d0 evs w h st :
  templates_ok e -> history rg e d0 (evs ++ [EvEnd w]) h st -> s_ok st = true -> h_edited h = false ->
  all_current e (s_cfg st) (s_disk st).
Proof.
  intros T H O E. apply history_snoc_inv in H as (h1 & st1 & H1 & A & S & Eh).
  pose proof (history_Inv rg e T _ _ _ _ H1) as I.
  destruct (step_end _ _ _ _ S) as (P1 & P2 & P3 & P4 & P5 & _ & P6 & _).
  rewrite P3. apply (same_art_all e _ (s_disk st1)); [exact P5|exact P4|].
  apply (end_current rg e T h1); auto. rewrite Eh in E. exact E.
Qed.

Lemma quiet_unedited e d0 evs h st : history Quiet e d0 evs h st -> h_edited h = false.
Proof.
  induction 1 as [|evs h st ev st' _ IH A S]; [reflexivity|]. destruct ev; cbn [track]; try exact IH; cbn [h_edited]; try exact IH.
  - cbn [admissible] in A. rewrite IH. destruct A as [->|[[->|[-> ->]]|A]]; try reflexivity. apply mem_str_false in A. rewrite A.
    destruct (s_pc st); try reflexivity. apply andb_false_r.
  - reflexivity.
Qed.

Definition edit_free (evs : list event) : Prop := forall f t, ~ In (EvEdit f t) evs.
Lemma unedited_since_start rg e d0 pre c ord run : forall h st,
  history rg e d0 (pre ++ EvStart c ord :: run) h st -> (forall f t, ~ In (EvEdit f t) run) -> h_edited h = false.
Proof.
  induction run as [|ev run IH] using rev_ind; intros h st H N.
  - apply history_snoc_inv in H as (h1 & st1 & _ & _ & _ & ->). reflexivity.
  - rewrite app_comm_cons, app_assoc in H. apply history_snoc_inv in H as (h1 & st1 & H1 & A & S & ->).
    assert (Hh : h_edited h1 = false).
    { apply (IH h1 st1 H1). intros f t K. apply (N f t). apply in_app_iff. left. exact K. }
    destruct ev; cbn [track]; try exact Hh; cbn [h_edited]; try exact Hh; [|reflexivity].
    exfalso. apply (N f t). apply in_app_iff. right. left. reflexivity.
Qed.

Theorem quiet_current e d0 evs w h st :
  templates_ok e -> history Quiet e d0 (evs ++ [EvEnd w]) h st -> s_ok st = true ->
  all_current e (s_cfg st) (s_disk st).
Proof. intros T H O. exact (success_current Quiet e d0 evs w h st T H O (quiet_unedited _ _ _ _ _ H)). Qed.

Theorem forward_current e d0 pre c ord run w h st :
  templates_ok e -> history Forward e d0 (pre ++ EvStart c ord :: run ++ [EvEnd w]) h st ->
  (forall f t, ~ In (EvEdit f t) run) -> s_ok st = true ->
  all_current e (s_cfg st) (s_disk st).
Proof.
  intros T H N O. assert (E : h_edited h = false).
  { apply (unedited_since_start Forward e d0 pre c ord (run ++ [EvEnd w]) h st H).
    intros f t K. apply in_app_iff in K as [K|[K|[]]]; [exact (N f t K)|discriminate]. }
  rewrite app_comm_cons, app_assoc in H. exact (success_current Forward e d0 _ w h st T H O E).
Qed.

(** ** Nothing changed *)

Lemma stored_after_end rg e d0 evs h st :
  templates_ok e -> history rg e d0 (evs ++ [EvEnd WOk]) h st -> s_ok st = true -> h_edited h = false ->
  exists s, stored (s_disk st) = Some s /\ allclean s (s_cfg st) (d_mt (s_disk st)).
Proof.
  intros T H O E. apply history_snoc_inv in H as (h1 & st1 & H1 & A & S & Eh).
  pose proof (history_Inv rg e T _ _ _ _ H1) as I.
  destruct (step_end _ _ _ _ S) as (P1 & P2 & P3 & P4 & P5 & _ & P6 & _).
  assert (E1 : h_edited h1 = false) by (rewrite Eh in E; exact E).
  destruct (end_clean rg e h1 st1 I P1 (P6 O) E1) as [C1 C2].
  cbn [step] in S. rewrite P1 in S. unfold end_task in S. destruct (s_dirty st1) eqn:D.
  - destruct (store_text (update_store (s_buf st1) (s_user st1))) as [t|] eqn:Et.
    + injection S as <-. stp. eexists. split; [|exact (C1 eq_refl)]. unfold stored. cbn. exact (target_text_rt _ _ Et).
    + injection S as <-. discriminate.
  - injection S as <-. stp. exact (C2 eq_refl).
Qed.

(** The pre steps without freshness. *)
Lemma pch_pre_like (mt : times) (c : cfg) (u u' : tschema) (b : bool) :
  like c u -> pch_pre mt u = (u', b) ->
  like c u' /\ (b = true -> Hashed mt (headers c) (ts_headers u') /\ Hashed mt (pchs c) (ts_pchs u')) /\
  ((forall p, In p (headers c ++ pchs c) -> mt p <> None) -> b = true).
Proof.
  intros L H. unfold pch_pre in H. pose proof (like_headers c u L) as Lh. pose proof (like_pchs c u L) as Lp.
  pose proof (nlist_like _ _ Lh (headers_npath c)) as Nh. pose proof (nlist_like _ _ Lp (pchs_npath c)) as Np.
  destruct (hash_all mt (ts_headers u)) as [hs b1] eqn:E1. destruct (hash_all_spec _ _ _ _ Nh E1) as (P1 & Q1 & _).
  pose proof (hash_all_true mt _ Nh) as V1. rewrite Lh, E1 in V1.
  destruct b1.
  - tsp. destruct (hash_all mt (ts_pchs u)) as [ps b2] eqn:E2. injection H as <- <-.
    destruct (hash_all_spec _ _ _ _ Np E2) as (P2 & Q2 & _).
    pose proof (hash_all_true mt _ Np) as V2. rewrite Lp, E2 in V2. split; [|split].
    + apply (like_of c u); [exact L|]. unfold strip. tsp. rewrite (strip_paths_eq _ _ P1), (strip_paths_eq _ _ P2). reflexivity.
    + intros ->. tsp. rewrite <- Lh, <- Lp. split; [apply Q1|apply Q2]; reflexivity.
    + intros K. destruct V2 as (l' & [=]); [|assumption]. intros p Hp. apply K. apply in_app_iff. right. exact Hp.
  - injection H as <- <-. split; [|split; [discriminate|]].
    + apply (like_of c u); [exact L|]. unfold strip. tsp. rewrite (strip_paths_eq _ _ P1). reflexivity.
    + intros K. destruct V1 as (l' & [=]). intros p Hp. apply K. apply in_app_iff. left. exact Hp.
Qed.
Lemma obj_pre_like (mt : times) (c : cfg) (u u' : tschema) (b : bool) :
  like c u -> obj_pre mt u = (u', b) ->
  like c u' /\ (b = true -> Hashed mt (sources c) (ts_sources u') /\ Hashed mt (headers c) (ts_headers u') /\
                            Hashed mt (compile_deps c) (ts_compile_deps u')) /\
  ((forall p, In p (sources c ++ headers c ++ compile_deps c) -> mt p <> None) -> b = true).
Proof.
  intros L H. unfold obj_pre in H. pose proof (like_sources c u L) as Ls.
  pose proof (like_headers c u L) as Lh. pose proof (like_cdeps c u L) as Lc.
  pose proof (nlist_like _ _ Ls (sources_npath c)) as Ns.
  pose proof (nlist_like _ _ Lh (headers_npath c)) as Nh. pose proof (nlist_like _ _ Lc (cdeps_npath c)) as Nc.
  destruct (hash_all mt (ts_sources u)) as [ss b1] eqn:E1. destruct (hash_all_spec _ _ _ _ Ns E1) as (P1 & Q1 & _).
  pose proof (hash_all_true mt _ Ns) as V1. rewrite Ls, E1 in V1.
  destruct b1.
  - tsp. destruct (hash_all mt (ts_headers u)) as [hs b2] eqn:E2. destruct (hash_all_spec _ _ _ _ Nh E2) as (P2 & Q2 & _).
    pose proof (hash_all_true mt _ Nh) as V2. rewrite Lh, E2 in V2.
    destruct b2.
    + destruct (hash_all mt (ts_compile_deps u)) as [cs b3] eqn:E3. injection H as <- <-.
      destruct (hash_all_spec _ _ _ _ Nc E3) as (P3 & Q3 & _).
      pose proof (hash_all_true mt _ Nc) as V3. rewrite Lc, E3 in V3.
      split; [|split].
      * apply (like_of c u); [exact L|]. unfold strip. tsp.
        rewrite (strip_paths_eq _ _ P1), (strip_paths_eq _ _ P2), (strip_paths_eq _ _ P3). reflexivity.
      * intros ->. tsp. rewrite <- Ls, <- Lh, <- Lc. split; [apply Q1|split; [apply Q2|apply Q3]]; reflexivity.
      * intros K. destruct V3 as (l' & [=]); [|assumption]. intros p Hp. apply K. rewrite !in_app_iff. tauto.
    + injection H as <- <-. split; [|split; [discriminate|]].
      * apply (like_of c u); [exact L|]. unfold strip. tsp.
        rewrite (strip_paths_eq _ _ P1), (strip_paths_eq _ _ P2). reflexivity.
      * intros K. destruct V2 as (l' & [=]). intros p Hp. apply K. rewrite !in_app_iff. tauto.
  - injection H as <- <-. split; [|split; [discriminate|]].
    * apply (like_of c u); [exact L|]. unfold strip. tsp.
      rewrite (strip_paths_eq _ _ P1). reflexivity.
    * intros K. destruct V1 as (l' & [=]). intros p Hp. apply K. rewrite !in_app_iff. tauto.
Qed.
Lemma link_pre_like (mt : times) (c : cfg) (u u' : tschema) (b : bool) :
  like c u -> link_pre mt u = (u', b) ->
  like c u' /\ (b = true -> Hashed mt (libs c) (ts_libs u') /\ Hashed mt (link_deps c) (ts_link_deps u')) /\
  ((forall p, In p (libs c ++ link_deps c) -> mt p <> None) -> b = true).
Proof.
  intros L H. unfold link_pre in H. pose proof (like_libs c u L) as Ll. pose proof (like_ldeps c u L) as Lk.
  pose proof (nlist_like _ _ Ll (libs_npath c)) as Nl. pose proof (nlist_like _ _ Lk (ldeps_npath c)) as Nk.
  destruct (hash_all mt (ts_libs u)) as [hs b1] eqn:E1. destruct (hash_all_spec _ _ _ _ Nl E1) as (P1 & Q1 & _).
  pose proof (hash_all_true mt _ Nl) as V1. rewrite Ll, E1 in V1.
  destruct b1.
  - tsp. destruct (hash_all mt (ts_link_deps u)) as [ps b2] eqn:E2. injection H as <- <-.
    destruct (hash_all_spec _ _ _ _ Nk E2) as (P2 & Q2 & _).
    pose proof (hash_all_true mt _ Nk) as V2. rewrite Lk, E2 in V2. split; [|split].
    + apply (like_of c u); [exact L|]. unfold strip. tsp. rewrite (strip_paths_eq _ _ P1), (strip_paths_eq _ _ P2). reflexivity.
    + intros ->. tsp. rewrite <- Ll, <- Lk. split; [apply Q1|apply Q2]; reflexivity.
    + intros K. destruct V2 as (l' & [=]); [|assumption]. intros p Hp. apply K. apply in_app_iff. right. exact Hp.
  - injection H as <- <-. split; [|split; [discriminate|]].
    + apply (like_of c u); [exact L|]. unfold strip. tsp. rewrite (strip_paths_eq _ _ P1). reflexivity.
    + intros K. destruct V1 as (l' & [=]). intros p Hp. apply K. apply in_app_iff. left. exact Hp.
Qed.

Lemma Hashed_exists (mt : times) (l : list string) (a : infolist) (p : string) :
  Hashed mt l a -> In p l -> mt p <> None.
Proof. intros H Hp. destruct (Hashed_ex _ _ _ _ H Hp) as (i & _ & _ & (t & E & _)). congruence. Qed.

Section Clean.
Variables (e : tenv) (c : cfg) (s : tschema).
Hypothesis ND : NoDup (sources c).

Lemma clean_pch_check (st : tstate) :
  like c (s_user st) -> s_load st = Some s -> s_dirty st = false -> s_ok st = true ->
  allclean s c (d_mt (s_disk st)) -> pchs c <> [] ->
  exists u, like c u /\
    pch_check st = with_pc (with_buf (with_user st u) (update_pch_compiled (s_buf st) u)) PcObj.
Proof using Type.
  intros L Ld D O (A1 & A2 & A3 & A4) P. specialize (A1 P). unfold pch_check. rewrite O. cbn [negb].
  destruct (pch_pre (d_mt (s_disk st)) (s_user st)) as [u b] eqn:E.
  destruct (pch_pre_like _ c _ _ _ L E) as (L' & HH & Hb).
  assert (b = true) as ->.
  { apply Hb. intros p Hp. apply in_app_iff in Hp as [Hp|Hp]; eapply Hashed_exists; try exact Hp; apply A1. }
  destruct (HH eq_refl) as [H1 H2]. stp. cbn [negb]. rewrite D, Ld. cbn [orb].
  apply (pch_same_iff _ _ _ _ L' H1 H2) in A1. rewrite A1. cbn [negb]. exists u. split; [exact L'|reflexivity].
Qed.
Lemma clean_obj_check (st : tstate) :
  like c (s_user st) -> s_load st = Some s -> s_dirty st = false -> s_ok st = true ->
  allclean s c (d_mt (s_disk st)) ->
  exists u b, like c u /\
    obj_check st = with_pc (with_buf (with_dirty (with_user st u) false) b) (PcCompile []).
Proof using ND.
  intros L Ld D O (A1 & A2 & A3 & A4). unfold obj_check. rewrite O. cbn [negb].
  destruct (obj_pre (d_mt (s_disk st)) (s_user st)) as [u b] eqn:E.
  destruct (obj_pre_like _ c _ _ _ L E) as (L' & HH & Hb).
  assert (b = true) as ->.
  { apply Hb. intros p Hp. rewrite !in_app_iff in Hp. destruct Hp as [Hp|[Hp|Hp]].
    - destruct (proj1 A3 p Hp) as (hh & _ & (t & K & _)). congruence.
    - eapply Hashed_exists; try exact Hp; apply A2.
    - eapply Hashed_exists; try exact Hp; apply A2. }
  destruct (HH eq_refl) as (H1 & H2 & H3). stp. cbn [negb]. rewrite D, Ld. cbn [orb].
  pose proof A2 as A2'. apply (obj_same_iff _ _ _ _ L' H2 H3) in A2'. rewrite A2'. cbn [negb].
  destruct (recompile_sources (ts_sources s) (ts_sources u)) as [[sel dum] ch] eqn:Er.
  assert (ND' : NoDup (il_paths (ts_sources u))) by (rewrite (like_sources _ _ L'); exact ND).
  destruct (recompile_sources_spec _ _ _ _ _ ND' Er) as (Sel & Dum & Ch & Pm).
  assert (sel = []) as ->.
  { destruct sel as [|i sel]; [reflexivity|exfalso]. destruct (proj1 (Sel i) (or_introl eq_refl)) as [Hi K].
    apply K. apply (Hashed_lookup _ s (ts_sources u) i (Hashed_In _ _ _ _ H1 Hi)). apply (proj1 A3).
    rewrite <- (like_sources _ _ L'). apply in_map. exact Hi. }
  assert (ch = false) as ->.
  { apply Ch. split; [reflexivity|]. rewrite (like_sources _ _ L'). exact (proj2 A3). }
  eexists u, _. split; [exact L'|reflexivity].
Qed.
Lemma clean_link_check (st : tstate) :
  like c (s_user st) -> s_load st = Some s -> s_dirty st = false -> s_ok st = true ->
  allclean s c (d_mt (s_disk st)) ->
  exists u, like c u /\ link_check st = with_pc (with_dirty (with_user st u) false) PcEnd.
Proof using Type.
  intros L Ld D O (A1 & A2 & A3 & A4). unfold link_check. rewrite O. cbn [negb].
  destruct (link_pre (d_mt (s_disk st)) (s_user st)) as [u b] eqn:E.
  destruct (link_pre_like _ c _ _ _ L E) as (L' & HH & Hb).
  assert (b = true) as ->.
  { apply Hb. intros p Hp. apply in_app_iff in Hp as [Hp|Hp]; eapply Hashed_exists; try exact Hp; apply A4. }
  destruct (HH eq_refl) as [H1 H2]. stp. cbn [negb]. rewrite D, Ld. cbn [orb].
  apply (link_same_iff _ _ _ _ L' H1 H2) in A4. rewrite A4. cbn [negb]. exists u. split; [exact L'|reflexivity].
Qed.

(** Untracked edits do not matter. *)
Lemma matches_upd (mt : times) (f p : string) (t : option N) :
  f <> p -> matches s mt p -> matches s (upd mt f t) p.
Proof using Type.
  intros N (hh & A & (v & B & C)). exists hh. split; [exact A|]. exists v. split; [|exact C].
  rewrite upd_other; [exact B|congruence].
Qed.
Lemma allclean_upd (mt : times) (f : string) (t : option N) :
  ~ In f (tracked c) -> allclean s c mt -> allclean s c (upd mt f t).
Proof using Type.
  intros N (A1 & A2 & A3 & A4). unfold tracked in N. rewrite !in_app_iff in N.
  split; [|split; [|split]].
  - intros P. destruct (A1 P). constructor; try assumption; apply Hashed_upd; tauto.
  - destruct A2. constructor; try assumption; apply Hashed_upd; tauto.
  - destruct A3 as [B1 B2]. split; [|exact B2]. intros p Hp. apply matches_upd; [intros ->; tauto|exact (B1 p Hp)].
  - destruct A4. constructor; try assumption; apply Hashed_upd; tauto.
Qed.

Record Still (st0 st : tstate) : Prop := {
  k_store : stored (s_disk st) = Some s;
  k_out : same_outputs (s_disk st0) (s_disk st);
  k_log : s_log st = s_log st0;
  k_clean : allclean s c (d_mt (s_disk st));
  k_dirty : s_dirty st = false;
  k_pc : s_pc st <> Idle -> s_cfg st = c /\ like c (s_user st) /\ s_load st = Some s /\
         ((s_pc st = PcPch /\ pchs c <> []) \/ s_pc st = PcObj \/ s_pc st = PcCompile [] \/ s_pc st = PcEnd) }.




Lemma Still_step (st0 st st' : tstate) (ev : event) :
  undisturbed c ev -> step e st ev = Some st' -> Still st0 st -> Still st0 st'.
Proof using ND.
  intros U S K. pose proof K as K'. destruct K' as [K1 K2 K3 K4 K5 K6]. destruct ev; cbn [step undisturbed] in *.
  - injection S as <-. constructor; stp; try assumption. apply allclean_upd; assumption.
  - injection S as <-. constructor; stp; assumption.
  - destruct (s_pc st) eqn:E; try discriminate; injection S as <-; constructor; stp; try assumption; try reflexivity; congruence.
  - destruct U.
  - destruct U.
  - destruct U.
  - destruct U.
  - destruct (s_pc st) eqn:E; try discriminate. subst c0. unfold start in S.
    destruct (_ || _); [discriminate|]. destruct (forallb _ _); injection S as <-; constructor; stp; try assumption; try reflexivity.
    + intros _. split; [reflexivity|]. split; [apply like_user|]. split; [exact K1|].
      destruct (contains_pch c) eqn:Ec; [left; split; [reflexivity|apply contains_pch_iff; exact Ec]|right; left; reflexivity].
    + congruence.
  - destruct (s_pc st) eqn:E; try discriminate. injection S as <-.
    destruct K6 as (C1 & C2 & C3 & C4); [congruence|].
    destruct C4 as [[_ P]|[?|[?|?]]]; try congruence.
    destruct (s_ok st) eqn:O.
    + destruct (clean_pch_check st C2 C3 K5 O K4 P) as (u & Lu & ->). constructor; stp; try assumption.
      intros _. repeat split; try assumption. tauto.
    + unfold pch_check. rewrite O. cbn [negb]. constructor; stp; try assumption.
      intros _. repeat split; try assumption. tauto.
  - destruct (s_pc st) eqn:E; try discriminate. destruct K6 as (_ & _ & _ & [[? ?]|[?|[?|?]]]); congruence.
  - destruct (s_pc st) eqn:E; try discriminate. injection S as <-.
    destruct K6 as (C1 & C2 & C3 & _); [congruence|].
    destruct (s_ok st) eqn:O.
    + destruct (clean_obj_check st C2 C3 K5 O K4) as (u & b & Lu & ->). constructor; stp; try assumption; try reflexivity.
      intros _. repeat split; try assumption. tauto.
    + unfold obj_check. rewrite O. cbn [negb]. constructor; stp; try assumption.
      intros _. repeat split; try assumption. tauto.
  - destruct (s_pc st) eqn:E; try discriminate.
    destruct K6 as (_ & _ & _ & [[K6 ?]|[K6|[K6|K6]]]); try congruence.
    injection K6 as ->. discriminate.
  - destruct (s_pc st) as [| | | |[|? ?]| |] eqn:E; try discriminate. injection S as <-.
    destruct K6 as (C1 & C2 & C3 & _); [congruence|].
    destruct (s_ok st) eqn:O.
    + destruct (clean_link_check st C2 C3 K5 O K4) as (u & Lu & ->). constructor; stp; try assumption; try reflexivity.
      intros _. repeat split; try assumption. tauto.
    + unfold link_check. rewrite O. cbn [negb]. constructor; stp; try assumption.
      intros _. repeat split; try assumption. tauto.
  - destruct (s_pc st) eqn:E; try discriminate. destruct K6 as (_ & _ & _ & [[? ?]|[?|[?|?]]]); congruence.
  - destruct (s_pc st) eqn:E; try discriminate. unfold end_task in S. rewrite K5 in S.
    destruct w; try discriminate. injection S as <-. constructor; stp; try assumption. congruence.
  - destruct (s_pc st) eqn:E; try discriminate. rewrite K5 in S. discriminate.
Qed.
Lemma Still_exec (st0 : tstate) (evs : list event) : forall st st',
  Forall (undisturbed c) evs -> exec e st evs = Some st' -> Still st0 st -> Still st0 st'.
Proof using ND.
  induction evs as [|ev evs IH]; intros st st' F X K; cbn [exec] in X.
  - injection X as <-. exact K.
  - apply Forall_cons_iff in F as [F1 F2]. destruct (step e st ev) as [st1|] eqn:S; [|discriminate].
    exact (IH st1 st' F2 X (Still_step st0 st st1 ev F1 S K)).
Qed.
End Clean.

Lemma same_outputs_refl (d : disk) : same_outputs d d.
Proof. repeat split. Qed.
Lemma permitted_of_end rg e d0 evs w h st :
  templates_ok e -> history rg e d0 (evs ++ [EvEnd w]) h st -> NoDup (map (obj_of e) (sources (s_cfg st))).
Proof.
  intros T H. apply history_snoc_inv in H as (h1 & st1 & H1 & A & S & Eh).
  pose proof (history_Inv rg e T _ _ _ _ H1) as I.
  destruct (step_end _ _ _ _ S) as (P1 & P2 & P3 & _). rewrite P3.
  assert (RI : RunInv rg e h1 st1) by (apply (i_run _ _ _ _ I); congruence).
  exact (proj1 (r_perm _ _ _ _ RI)).
Qed.

Theorem nothing_executed rg e d0 evs h st evs2 st2 :
  templates_ok e -> history rg e d0 (evs ++ [EvEnd WOk]) h st -> s_ok st = true -> h_edited h = false ->
  Forall (undisturbed (s_cfg st)) evs2 -> exec e st evs2 = Some st2 ->
  s_log st2 = s_log st /\ same_outputs (s_disk st) (s_disk st2).
Proof.
  intros T H O E U X. destruct (stored_after_end rg e d0 evs h st T H O E) as (s & S1 & S2).
  pose proof (nodup_sources e _ (permitted_of_end rg e d0 evs WOk h st T H)) as ND.
  apply history_snoc_inv in H as (h1 & st1 & H1 & A & S & Eh).
  destruct (step_end _ _ _ _ S) as (P1 & P2 & P3 & P4 & P5 & _ & P6 & P7).
  assert (K : Still (s_cfg st) s st st).
  { constructor; auto using same_outputs_refl. congruence. }
  pose proof (Still_exec e (s_cfg st) s ND st evs2 st st2 U X K) as []. auto.
Qed.

(** The commands of a configuration can be constructed or not, whatever the
    order of the objects. *)
Definition fkind (r : fres) : nat := match r with FOk _ => 0 | FErr => 1 | FOther => 2 end.
Lemma fkind_prefix (v : string) (r : fres) : fkind (fprefix v r) = fkind r.
Proof. destruct r; reflexivity. Qed.
Lemma fscan_kind (f g : string -> option string) (s : string) :
  (forall k, f k = None <-> g k = None) -> forall st, fkind (fscan f st s) = fkind (fscan g st s).
Proof.
  intros H. induction s as [|ch s IH]; intros st; cbn [fscan]; [destruct st; reflexivity|].
  destruct st.
  - destruct (Ascii.eqb ch ch_lbrace); [apply IH|]. destruct (Ascii.eqb ch ch_rbrace); [apply IH|].
    rewrite !fkind_prefix. apply IH.
  - destruct (Ascii.eqb ch ch_lbrace); [rewrite !fkind_prefix; apply IH|].
    destruct (_ || _); [reflexivity|]. destruct (is_name_start ch); [apply IH|reflexivity].
  - destruct (is_name_char ch); [apply IH|]. destruct (f acc) eqn:Ef, (g acc) eqn:Eg.
    + destruct (Ascii.eqb ch ch_rbrace); [rewrite !fkind_prefix; apply IH|reflexivity].
    + apply H in Eg. congruence.
    + apply H in Ef. congruence.
    + reflexivity.
  - destruct (Ascii.eqb ch ch_rbrace); [rewrite !fkind_prefix; apply IH|reflexivity].
Qed.
Lemma link_kind (e : tenv) (c : cfg) (ord ord' : list string) :
  fkind (link_command e c ord) = fkind (link_command e c ord').
Proof.
  unfold link_command, construct. apply fscan_kind. intros k. rewrite !assoc_app.
  destruct (assoc k (default_args e c)); [split; discriminate|]. cbn [assoc].
  destruct (String.eqb k "output"); [split; discriminate|].
  destruct (String.eqb k "compiled_sources"); [split; discriminate|]. reflexivity.
Qed.
Lemma is_fok_kind (a b : fres) : fkind a = fkind b -> is_fok a = is_fok b /\ is_fother a = is_fother b.
Proof. destruct a, b; cbn; intros H; try discriminate; split; reflexivity. Qed.

Lemma start_ord (e : tenv) (st st' st1 : tstate) (c : cfg) (ord ord' : list string) :
  NoDup (sources c) -> ord_ok ord' (sources c) = true ->
  start e st c ord = Some st1 -> s_pc st1 <> Idle -> s_pc st = Idle ->
  start e st' c ord' =
    Some (ST (s_disk st') (if contains_pch c then PcPch else PcObj) c ord' (user_of c)
             (stored (s_disk st')) ts_default false true (s_log st')).
Proof.
  intros ND O' S P I. unfold start in *.
  destruct (ord_ok ord (sources c)) eqn:O; cbn [negb orb] in S; [|discriminate]. rewrite O'. cbn [negb orb].
  assert (Pm : Permutation ord ord').
  { rewrite (ord_ok_perm _ _ ND O). symmetry. exact (ord_ok_perm _ _ ND O'). }
  destruct (existsb is_fother (all_commands e c ord)) eqn:E1; [discriminate|].
  destruct (forallb is_fok (all_commands e c ord)) eqn:E2; [|injection S as <-; stp; congruence].
  assert (All : forall f, In f (all_commands e c ord') -> is_fok f = true).
  { rewrite forallb_forall in E2. intros f Hf. unfold all_commands in *. rewrite !in_app_iff in Hf.
    destruct Hf as [Hf|[Hf|[<-|[]]]].
    - apply E2. rewrite !in_app_iff. left. exact Hf.
    - apply E2. rewrite !in_app_iff. right. left. apply (Permutation_in f (Permutation_sym (Permutation_map _ Pm))). exact Hf.
    - rewrite (proj1 (is_fok_kind _ _ (link_kind e c ord' ord))). apply E2. rewrite !in_app_iff. right. right. left. reflexivity. }
  assert (E3 : existsb is_fother (all_commands e c ord') = false).
  { destruct (existsb is_fother (all_commands e c ord')) eqn:X; [|reflexivity]. apply existsb_exists in X as (f & Hf & K).
    specialize (All f Hf). destruct f; discriminate. }
  rewrite E3. assert (E4 : forallb is_fok (all_commands e c ord') = true) by (apply forallb_forall; exact All).
  rewrite E4. reflexivity.
Qed.

(** The configuration of a state that is in the middle of a run was accepted. *)
Lemma started rg e d0 evs h st :
  history rg e d0 evs h st -> s_pc st <> Idle ->
  exists sta ord stb, start e sta (s_cfg st) ord = Some stb /\ s_pc stb <> Idle /\ s_pc sta = Idle.
Proof.
  induction 1 as [|evs h st ev st' _ IH A S]; intros P; [destruct (P eq_refl)|].
  assert (G : s_pc st <> Idle -> s_cfg st' = s_cfg st ->
      exists sta ord stb, start e sta (s_cfg st') ord = Some stb /\ s_pc stb <> Idle /\ s_pc sta = Idle).
  { intros P1 E. rewrite E. exact (IH P1). }
  destruct ev; cbn [step] in S.
  - injection S as <-. apply G; [exact P|reflexivity].
  - injection S as <-. apply G; [exact P|reflexivity].
  - destruct (s_pc st) eqn:E; try discriminate; injection S as <-; apply G; reflexivity || congruence.
  - injection S as <-. apply G; [exact P|reflexivity].
  - injection S as <-. apply G; [exact P|reflexivity].
  - injection S as <-. apply G; [exact P|reflexivity].
  - injection S as <-. apply G; [exact P|reflexivity].
  - destruct (s_pc st) eqn:E; try discriminate. pose proof S as S0. unfold start in S.
    destruct (_ || _); [discriminate|]. destruct (forallb _ _); injection S as <-.
    + eexists st, ord, _. split; [exact S0|]. split; [exact P|exact E].
    + stp. congruence.
  - destruct (s_pc st) eqn:E; try discriminate. injection S as <-. apply G; [congruence|].
    unfold pch_check. destruct (negb (s_ok st)); [reflexivity|]. destruct (pch_pre _ _). destruct (negb b); [reflexivity|].
    destruct (_ || _); reflexivity.
  - destruct (s_pc st) eqn:E; try discriminate. apply G; [congruence|]. unfold pch_exec in S.
    destruct (pch_command _ _); try discriminate. injection S as <-. destruct (run_res _ _); reflexivity.
  - destruct (s_pc st) eqn:E; try discriminate. injection S as <-. apply G; [congruence|].
    unfold obj_check. destruct (negb (s_ok st)); [reflexivity|]. destruct (obj_pre _ _). destruct (negb b); [reflexivity|].
    destruct (if _ : bool then _ else _) as [[x y] z]. reflexivity.
  - destruct (s_pc st) eqn:E; try discriminate. apply G; [congruence|]. unfold compile_one in S.
    destruct (take_pending _ _) as [[i r']|]; [|discriminate]. destruct (compile_command _ _ _); try discriminate.
    injection S as <-. destruct (run_res _ _); reflexivity.
  - destruct (s_pc st) as [| | | |[|? ?]| |] eqn:E; try discriminate. injection S as <-. apply G; [congruence|].
    unfold link_check. destruct (negb (s_ok st)); [reflexivity|]. destruct (link_pre _ _). destruct (negb b); [reflexivity|]. reflexivity.
  - destruct (s_pc st) eqn:E; try discriminate. apply G; [congruence|]. unfold link_exec in S.
    destruct (link_command _ _ _); try discriminate. injection S as <-. destruct (run_res _ _); reflexivity.
  - destruct (s_pc st) eqn:E; try discriminate. exfalso. unfold end_task in S. destruct (s_dirty st).
    + destruct (store_text _).
      * destruct w; [| |destruct (short _ _); [|discriminate]; destruct reported_ok]; injection S as <-; apply P; reflexivity.
      * destruct w; try discriminate; injection S as <-; apply P; reflexivity.
    + destruct w; try discriminate; injection S as <-; apply P; reflexivity.
  - destruct (s_pc st) eqn:E; try discriminate. destruct (s_dirty st); [|discriminate].
    destruct (bind _ _); [|discriminate]. injection S as <-. destruct (P eq_refl).
Qed.

Theorem idle_run_succeeds rg e d0 evs h st ord :
  templates_ok e -> history rg e d0 (evs ++ [EvEnd WOk]) h st -> s_ok st = true -> h_edited h = false ->
  ord_ok ord (sources (s_cfg st)) = true ->
  exists st2, exec e st (idle_run (s_cfg st) ord) = Some st2 /\ s_ok st2 = true /\ s_pc st2 = Idle /\
    s_log st2 = s_log st /\ s_disk st2 = s_disk st.
Proof.
  intros T H O E Oo. destruct (stored_after_end rg e d0 evs h st T H O E) as (s & S1 & S2).
  pose proof (nodup_sources e _ (permitted_of_end rg e d0 evs WOk h st T H)) as ND.
  apply history_snoc_inv in H as (h1 & st1 & H1 & A & S & Eh).
  destruct (step_end _ _ _ _ S) as (P1 & P2 & P3 & P4 & P5 & _ & P6 & P7).
  destruct (started rg e d0 evs h1 st1 H1) as (sta & orda & stb & Q1 & Q2 & Q3); [congruence|].
  rewrite <- P3 in Q1. set (c := s_cfg st) in *.
  pose proof (start_ord e sta st stb c orda ord ND Oo Q1 Q2 Q3) as St. rewrite S1 in St.
  unfold idle_run.
  assert (Tail : forall st3, s_pc st3 = PcObj -> s_cfg st3 = c -> like c (s_user st3) -> s_load st3 = Some s ->
     s_dirty st3 = false -> s_ok st3 = true -> s_disk st3 = s_disk st -> s_log st3 = s_log st ->
     exists st2, exec e st3 [EvObjCheck; EvLinkCheck; EvEnd WOk] = Some st2 /\ s_ok st2 = true /\ s_pc st2 = Idle /\
       s_log st2 = s_log st /\ s_disk st2 = s_disk st).
  { intros st3 R1 R2 R3 R4 R5 R6 R7 R8. cbn [exec step]. rewrite R1.
    destruct (clean_obj_check c s ND st3) as (u & b & Lu & ->); try assumption; [rewrite R7; exact S2|]. stp.
    destruct (clean_link_check c s (with_pc (with_buf (with_dirty (with_user st3 u) false) b) (PcCompile [])))
      as (u2 & Lu2 & ->); stp; try assumption; try reflexivity; [rewrite R7; exact S2|].
    unfold end_task. stp. eexists. split; [reflexivity|]. stp. auto. }
  erewrite exec_cons by (cbn [step]; rewrite P2; exact St).
  destruct (contains_pch c) eqn:Ec; cbn [app].
  - apply contains_pch_iff in Ec.
    erewrite exec_cons by (cbn [step s_pc]; reflexivity).
    match goal with |- context [pch_check ?x] => destruct (clean_pch_check c s x) as (u & Lu & ->) end; stp;
      try assumption; try reflexivity; [apply like_user|].
    apply Tail; stp; try assumption; reflexivity.
  - apply Tail; stp; try reflexivity. apply like_user.
Qed.
