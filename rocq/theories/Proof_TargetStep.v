(** Every step of an admissible history preserves the invariant. *)
From Verif Require Import Prelude Proof_Prelude Model_Path Model_Json Model_Schema Spec_Json Proof_Dec
  Proof_Schema Model_Command Spec_Command Proof_Command Model_ToolchainConfig Model_Target Spec_Target
  Proof_TargetBase Proof_TargetInv Proof_TargetRun.

Section Step.
Context (rg : regime) (e : tenv) (T : templates_ok e).

Local Notation R := (R rg).
Local Notation fresh := (fresh rg).
Local Notation Fresh := (Fresh rg).
Local Notation SafeS := (SafeS rg e).
Local Notation BufInv := (BufInv rg e).
Local Notation Inv := (Inv rg e).
Local Notation RunInv := (RunInv rg e).
Local Notation Stage := (Stage rg e).
Local Notation forcedP := (forcedP rg).
Local Notation mtof st := (d_mt (s_disk st)).

Definition h_with_taint (h : hist) (c : cfg) : hist := HS (h_next h) (Some c) (h_lang h) (h_edited h).

(** ** Small facts *)

Lemma nodup_str_NoDup (l : list string) : nodup_str l = true -> NoDup l.
Proof.
  induction l as [|x l IH]; cbn; intros H; constructor.
  - apply andb_true_iff in H as [H _]. apply negb_true_iff in H. intros K. apply mem_str_In in K. congruence.
  - apply andb_true_iff in H as [_ H]. exact (IH H).
Qed.
Lemma ord_ok_perm (ord srcs : list string) : NoDup srcs -> ord_ok ord srcs = true -> Permutation ord srcs.
Proof.
  intros N H. unfold ord_ok in H. apply andb_true_iff in H as [H H3]. apply andb_true_iff in H as [H1 H2].
  apply NoDup_Permutation; [apply nodup_str_NoDup; exact H1|exact N|].
  rewrite forallb_forall in H2, H3. intros x. split; intros Hx.
  - apply mem_str_In. exact (H2 x Hx).
  - apply mem_str_In. exact (H3 x Hx).
Qed.
Lemma is_nil_false {A} (l : list A) : l <> [] -> is_nil l = false.
Proof. destruct l; [congruence|reflexivity]. Qed.

Lemma take_pending_spec (s : string) (l : infolist) (i : pathinfo) (r : infolist) :
  take_pending s l = Some (i, r) -> pi_path i = s /\ Permutation l (i :: r).
Proof.
  revert i r. induction l as [|x l IH]; intros i r H; cbn in H; [discriminate|].
  destruct (String.eqb (pi_path x) s) eqn:E.
  - injection H as <- <-. apply String.eqb_eq in E. split; [exact E|reflexivity].
  - destruct (take_pending s l) as [[y r']|]; [|discriminate]. injection H as <- <-.
    destruct (IH _ _ eq_refl) as [A B]. split; [exact A|]. rewrite B. apply perm_swap.
Qed.
Lemma run_res_ok {A} (cmd : string) (r : xres A) : run_res cmd r = XOk -> r = XOk.
Proof. unfold run_res. destruct (String.eqb cmd ""); [discriminate|tauto]. Qed.

Lemma short_prefix (n : nat) (t t' : string) : short n t = Some t' -> strict_prefix t' t.
Proof.
  unfold short. destruct (Nat.ltb n (String.length t)) eqn:E; [|discriminate]. intros [= <-].
  apply Nat.ltb_lt in E. unfold strict_prefix. revert n E.
  induction t as [|ch t IH]; intros n E; cbn in E; [lia|]. destruct n as [|n].
  - exists (String ch t). split; [discriminate|reflexivity].
  - destruct (IH n ltac:(lia)) as (q & Hq & K). exists q. split; [exact Hq|]. cbn. f_equal. exact K.
Qed.
Lemma stored_short (d : disk) (n : nat) (s : tschema) (t t' : string) :
  store_text s = Some t -> short n t = Some t' -> stored (set_store d (Some t')) = None.
Proof. intros H K. unfold stored. cbn. apply (target_prefix s t t' H). exact (short_prefix _ _ _ K). Qed.

Lemma pi_eta (i : pathinfo) : PI (pi_path i) (pi_hash i) = i.
Proof. destruct i. reflexivity. Qed.
Lemma add_source_npath (b : tschema) (i : pathinfo) :
  npath (pi_path i) -> add_source b i = with_sources b (ts_sources b ++ [i]).
Proof. intros H. unfold add_source, il_emplace. rewrite H. destruct i. reflexivity. Qed.
Lemma fold_add (dum : infolist) (b : tschema) :
  nlist dum -> fold_left add_source dum b = with_sources b (ts_sources b ++ dum).
Proof.
  revert b. induction dum as [|i dum IH]; intros b H; cbn [fold_left].
  - rewrite app_nil_r. destruct b. reflexivity.
  - apply Forall_cons_iff in H as [H1 H2]. rewrite (add_source_npath b i H1), (IH _ H2). tsp.
    rewrite <- app_assoc. reflexivity.
Qed.

(** ** The three Pre steps *)

Lemma like_of (c : cfg) (u u' : tschema) : like c u -> strip u' = strip u -> like c u'.
Proof. unfold like. congruence. Qed.

Lemma nlist_like (l : list string) (a : infolist) : il_paths a = l -> Forall npath l -> nlist a.
Proof. intros <-. apply nlist_paths. Qed.

Lemma fresh_list (h : hist) (mt : times) (l l' : infolist) (b : bool) :
  nextok h mt -> nlist l -> hash_all mt l = (l', b) ->
  (forall i, In i l -> fresh h mt i) -> (forall i, In i l' -> fresh h mt i).
Proof.
  intros N Hn H F i Hi. destruct (hash_all_spec _ _ _ _ Hn H) as (_ & _ & K).
  destruct (K i Hi) as [D|D]; [exact (F i D)|exact (fresh_hashed rg h mt i N D)].
Qed.
Lemma pch_pre_spec (h : hist) (mt : times) (c : cfg) (u u' : tschema) (b : bool) :
  nextok h mt -> like c u -> Fresh h mt u -> pch_pre mt u = (u', b) ->
  like c u' /\ Fresh h mt u' /\
  (b = true -> Hashed mt (headers c) (ts_headers u') /\ Hashed mt (pchs c) (ts_pchs u')).
Proof.
  intros N L F H. unfold pch_pre in H. pose proof (like_headers c u L) as Lh. pose proof (like_pchs c u L) as Lp.
  pose proof (nlist_like _ _ Lh (headers_npath c)) as Nh. pose proof (nlist_like _ _ Lp (pchs_npath c)) as Np.
  destruct (hash_all mt (ts_headers u)) as [hs b1] eqn:E1. destruct (hash_all_spec _ _ _ _ Nh E1) as (P1 & Q1 & _).
  pose proof (fresh_list h mt _ _ _ N Nh E1) as F1.
  assert (F1' : forall i, In i hs -> fresh h mt i).
  { apply F1. apply (Fresh_sub rg h mt u _ F). unfold all_infos. intros i Hi. rewrite !in_app_iff. tauto. }
  destruct b1.
  - tsp. destruct (hash_all mt (ts_pchs u)) as [ps b2] eqn:E2. injection H as <- <-.
    destruct (hash_all_spec _ _ _ _ Np E2) as (P2 & Q2 & _).
    assert (F2' : forall i, In i ps -> fresh h mt i).
    { apply (fresh_list h mt _ _ _ N Np E2). apply (Fresh_sub rg h mt u _ F). unfold all_infos. intros i Hi. rewrite !in_app_iff. tauto. }
    split; [|split].
    + apply (like_of c u); [exact L|]. unfold strip. tsp. rewrite (strip_paths_eq _ _ P1), (strip_paths_eq _ _ P2). reflexivity.
    + intros i Hi. unfold all_infos in Hi. tsp. rewrite !in_app_iff in Hi.
      assert (K : In i (all_infos u) -> fresh h mt i) by exact (F i). unfold all_infos in K. rewrite !in_app_iff in K.
      destruct Hi as [|[|[|[|[|]]]]]; auto; apply K; tauto.
    + intros ->. tsp. rewrite <- Lh, <- Lp. split; [apply Q1|apply Q2]; reflexivity.
  - injection H as <- <-. split; [|split; [|discriminate]].
    + apply (like_of c u); [exact L|]. unfold strip. tsp. rewrite (strip_paths_eq _ _ P1). reflexivity.
    + intros i Hi. unfold all_infos in Hi. tsp. rewrite !in_app_iff in Hi.
      assert (K : In i (all_infos u) -> fresh h mt i) by exact (F i). unfold all_infos in K. rewrite !in_app_iff in K.
      destruct Hi as [|[|[|[|[|]]]]]; auto; apply K; tauto.
Qed.

Lemma obj_pre_spec (h : hist) (mt : times) (c : cfg) (u u' : tschema) (b : bool) :
  nextok h mt -> like c u -> Fresh h mt u -> obj_pre mt u = (u', b) ->
  like c u' /\ Fresh h mt u' /\
  (Hashed mt (headers c) (ts_headers u) -> ts_headers u' = ts_headers u) /\
  (b = true -> Hashed mt (sources c) (ts_sources u') /\ Hashed mt (headers c) (ts_headers u') /\
               Hashed mt (compile_deps c) (ts_compile_deps u')).
Proof.
  intros N L F H. unfold obj_pre in H. pose proof (like_sources c u L) as Ls.
  pose proof (like_headers c u L) as Lh. pose proof (like_cdeps c u L) as Lc.
  pose proof (nlist_like _ _ Ls (sources_npath c)) as Ns.
  pose proof (nlist_like _ _ Lh (headers_npath c)) as Nh. pose proof (nlist_like _ _ Lc (cdeps_npath c)) as Nc.
  assert (K : forall i, In i (all_infos u) -> fresh h mt i) by exact F. unfold all_infos in K.
  setoid_rewrite in_app_iff in K. setoid_rewrite in_app_iff in K. setoid_rewrite in_app_iff in K.
  setoid_rewrite in_app_iff in K. setoid_rewrite in_app_iff in K.
  destruct (hash_all mt (ts_sources u)) as [ss b1] eqn:E1. destruct (hash_all_spec _ _ _ _ Ns E1) as (P1 & Q1 & _).
  assert (F1 : forall i, In i ss -> fresh h mt i) by (apply (fresh_list h mt _ _ _ N Ns E1); intros; apply K; tauto).
  destruct b1.
  - tsp. destruct (hash_all mt (ts_headers u)) as [hs b2] eqn:E2. destruct (hash_all_spec _ _ _ _ Nh E2) as (P2 & Q2 & _).
    assert (F2 : forall i, In i hs -> fresh h mt i) by (apply (fresh_list h mt _ _ _ N Nh E2); intros; apply K; tauto).
    assert (SameH : Hashed mt (headers c) (ts_headers u) -> hs = ts_headers u).
    { intros HH. rewrite <- Lh in HH. rewrite (hash_all_same mt _ Nh HH) in E2. congruence. }
    destruct b2.
    + destruct (hash_all mt (ts_compile_deps u)) as [cs b3] eqn:E3. injection H as <- <-.
      destruct (hash_all_spec _ _ _ _ Nc E3) as (P3 & Q3 & _).
      assert (F3 : forall i, In i cs -> fresh h mt i) by (apply (fresh_list h mt _ _ _ N Nc E3); intros; apply K; tauto).
      split; [|split; [|split]].
      * apply (like_of c u); [exact L|]. unfold strip. tsp.
        rewrite (strip_paths_eq _ _ P1), (strip_paths_eq _ _ P2), (strip_paths_eq _ _ P3). reflexivity.
      * intros i Hi. unfold all_infos in Hi. tsp. rewrite !in_app_iff in Hi.
        destruct Hi as [|[|[|[|[|]]]]]; auto; apply K; tauto.
      * exact SameH.
      * intros ->. tsp. rewrite <- Ls, <- Lh, <- Lc. split; [apply Q1|split; [apply Q2|apply Q3]]; reflexivity.
    + injection H as <- <-. split; [|split; [|split; [|discriminate]]].
      * apply (like_of c u); [exact L|]. unfold strip. tsp.
        rewrite (strip_paths_eq _ _ P1), (strip_paths_eq _ _ P2). reflexivity.
      * intros i Hi. unfold all_infos in Hi. tsp. rewrite !in_app_iff in Hi.
        destruct Hi as [|[|[|[|[|]]]]]; auto; apply K; tauto.
      * exact SameH.
  - injection H as <- <-. split; [|split; [|split; [|discriminate]]].
    * apply (like_of c u); [exact L|]. unfold strip. tsp.
      rewrite (strip_paths_eq _ _ P1). reflexivity.
    * intros i Hi. unfold all_infos in Hi. tsp. rewrite !in_app_iff in Hi.
      destruct Hi as [|[|[|[|[|]]]]]; auto; apply K; tauto.
    * reflexivity.
Qed.

Lemma link_pre_spec (h : hist) (mt : times) (c : cfg) (u u' : tschema) (b : bool) :
  nextok h mt -> like c u -> Fresh h mt u -> link_pre mt u = (u', b) ->
  like c u' /\ Fresh h mt u' /\
  ts_headers u' = ts_headers u /\ ts_compile_deps u' = ts_compile_deps u /\
  (b = true -> Hashed mt (libs c) (ts_libs u') /\ Hashed mt (link_deps c) (ts_link_deps u')).
Proof.
  intros N L F H. unfold link_pre in H. pose proof (like_libs c u L) as Ll. pose proof (like_ldeps c u L) as Lk.
  pose proof (nlist_like _ _ Ll (libs_npath c)) as Nl. pose proof (nlist_like _ _ Lk (ldeps_npath c)) as Nk.
  assert (K : forall i, In i (all_infos u) -> fresh h mt i) by exact F. unfold all_infos in K.
  setoid_rewrite in_app_iff in K. setoid_rewrite in_app_iff in K. setoid_rewrite in_app_iff in K.
  setoid_rewrite in_app_iff in K. setoid_rewrite in_app_iff in K.
  destruct (hash_all mt (ts_libs u)) as [ss b1] eqn:E1. destruct (hash_all_spec _ _ _ _ Nl E1) as (P1 & Q1 & _).
  assert (F1 : forall i, In i ss -> fresh h mt i) by (apply (fresh_list h mt _ _ _ N Nl E1); intros; apply K; tauto).
  destruct b1.
  - tsp. destruct (hash_all mt (ts_link_deps u)) as [hs b2] eqn:E2. destruct (hash_all_spec _ _ _ _ Nk E2) as (P2 & Q2 & _).
    assert (F2 : forall i, In i hs -> fresh h mt i) by (apply (fresh_list h mt _ _ _ N Nk E2); intros; apply K; tauto).
    injection H as <- <-. split; [|split; [|split; [reflexivity|split; [reflexivity|]]]].
    + apply (like_of c u); [exact L|]. unfold strip. tsp.
      rewrite (strip_paths_eq _ _ P1), (strip_paths_eq _ _ P2). reflexivity.
    + intros i Hi. unfold all_infos in Hi. tsp. rewrite !in_app_iff in Hi.
      destruct Hi as [|[|[|[|[|]]]]]; auto; apply K; tauto.
    + intros ->. tsp. rewrite <- Ll, <- Lk. split; [apply Q1|apply Q2]; reflexivity.
  - injection H as <- <-. split; [|split; [|split; [reflexivity|split; [reflexivity|discriminate]]]].
    * apply (like_of c u); [exact L|]. unfold strip. tsp.
      rewrite (strip_paths_eq _ _ P1). reflexivity.
    * intros i Hi. unfold all_infos in Hi. tsp. rewrite !in_app_iff in Hi.
      destruct Hi as [|[|[|[|[|]]]]]; auto; apply K; tauto.
Qed.

(** ** Control events *)

Lemma fail_stage (h : hist) (st : tstate) : Stage h st -> Stage h (with_ok st false).
Proof.
  unfold Proof_TargetRun.Stage. stp. destruct (s_pc st); intros S; try exact I; destruct S; constructor; stp;
    try assumption; intros; try discriminate; auto.
Qed.
Lemma fail_Inv (h : hist) (st : tstate) : Inv h st -> Inv h (with_ok st false).
Proof.
  intros []. constructor; try assumption. intros Hpc. specialize (i_run Hpc).
  pose proof (fail_stage h st (r_stage _ _ _ _ i_run)). destruct i_run. constructor; assumption.
Qed.
Lemma crash_Inv (h : hist) (st : tstate) : rg = Forward \/ h_taint h = None -> Inv h st -> Inv h (killed st).
Proof.
  intros K []. constructor; stp; try assumption.
  - intros Q H. destruct K as [K|K]; [rewrite Q in K; discriminate|contradiction].
  - congruence.
Qed.
Lemma drop_Inv (h : hist) (st : tstate) : s_pc st = Idle -> Inv h st ->
  Inv (HS (h_next h) None (h_lang h) (h_edited h)) (with_disk st (set_store (s_disk st) None)).
Proof.
  intros Hp []. constructor; stp.
  - exact i_next.
  - intros _ s H. discriminate.
  - intros _ s H. discriminate.
  - intros _ K. cbn in K. congruence.
  - congruence.
Qed.

Lemma start_Inv (h : hist) (st st' : tstate) (c : cfg) (ord : list string) :
  s_pc st = Idle -> permitted e h c -> start e st c ord = Some st' -> Inv h st ->
  Inv (track e h st (EvStart c ord)) st'.
Proof.
  intros Hpc Hp Hs []. unfold start in Hs.
  destruct (negb (ord_ok ord (sources c)) || existsb is_fother (all_commands e c ord)) eqn:E; [discriminate|].
  apply orb_false_iff in E as [E _]. apply negb_false_iff in E.
  set (h' := track e h st (EvStart c ord)).
  assert (HP : forall c', permitted e h' c' -> permitted e h c').
  { intros c' (A & B & C & D). split; [exact A|]. split; [|split; [|exact D]].
    - intros K. apply B. unfold h'. cbn. destruct (contains_pch c); [discriminate|exact K].
    - intros b Hb. unfold h' in *. cbn in *. destruct (contains_pch c); [|exact (C b Hb)].
      rewrite (C _ eq_refl). destruct Hp as (_ & _ & Hc & _). exact (Hc b Hb). }
  assert (HR : Rsub rg h (mtof st) h' (mtof st)) by (apply Rsub_next; reflexivity).
  assert (Q : rg = Quiet -> h_taint h' <> None -> False).
  { intros Q1 Q2. destruct (i_quiet Q1 Q2) as [K _]. congruence. }
  assert (SS : rg = Forward \/ h_taint h' = None -> forall s, stored (s_disk st) = Some s -> SafeS h' (s_disk st) s).
  { intros K s Hst. apply (SafeS_mono rg e h h' (s_disk st)); [exact (i_safe K s Hst)|apply same_art_refl|exact HR|exact HP]. }
  destruct (forallb is_fok (all_commands e c ord)).
  - injection Hs as <-. constructor; stp; try assumption.
    + intros q1 q2. destruct (Q q1 q2).
    + intros _. assert (Hp' : permitted e h' c).
      { destruct Hp as (A & B & C & D). split; [exact A|]. split; [|split; [|exact D]]; unfold h'; cbn.
        - destruct (contains_pch c) eqn:Ec; [intros _; apply contains_pch_iff; exact Ec|exact B].
        - destruct (contains_pch c); [intros b [= <-]; reflexivity|exact C]. }
      constructor; stp.
      * exact Hp'.
      * intros K. apply contains_pch_iff in K. unfold h'. cbn. rewrite K. reflexivity.
      * reflexivity.
      * apply like_user.
      * apply Fresh_user.
      * intros i [].
      * apply BufInv_default.
      * apply ord_ok_perm; [|exact E]. apply (nodup_sources e). exact (proj1 Hp).
      * unfold Proof_TargetRun.Stage. stp. destruct (contains_pch c) eqn:Ec.
        -- constructor; stp; try reflexivity. apply contains_pch_iff. exact Ec.
        -- apply contains_pch_false in Ec. constructor; stp; try reflexivity.
           ++ repeat split.
           ++ congruence.
           ++ discriminate.
           ++ congruence.
  - injection Hs as <-. constructor; stp; try assumption. congruence.
Qed.

(** ** The PCH stage *)

Lemma safe_now (h : hist) (st : tstate) (s : tschema) :
  Inv h st -> s_dirty st = false -> stored (s_disk st) = Some s -> SafeS h (s_disk st) s.
Proof.
  intros I D. apply (i_safe _ _ _ _ I). destruct rg eqn:Erg; [right|left; reflexivity].
  destruct (h_taint h) eqn:Et; [|reflexivity]. exfalso.
  destruct (i_quiet _ _ _ _ I) as [_ K]; congruence.
Qed.

Lemma pch_check_Inv (h : hist) (st : tstate) :
  s_pc st = PcPch -> Inv h st -> Inv h (pch_check st).
Proof.
  intros Hpc I. pose proof I as I0. destruct I0 as [i_next i_bound i_safe i_quiet i_run].
  assert (RI : RunInv h st) by (apply i_run; congruence). destruct RI.
  unfold Proof_TargetRun.Stage in r_stage. rewrite Hpc in r_stage. destruct r_stage.
  assert (Q : rg = Quiet -> h_taint h <> None -> False).
  { intros q1 q2. destruct (i_quiet q1 q2). congruence. }
  unfold pch_check. destruct (s_ok st) eqn:Eok; cbn [negb].
  - destruct (pch_pre (mtof st) (s_user st)) as [u b] eqn:Ep.
    destruct (pch_pre_spec h _ _ _ _ _ i_next r_like r_fresh Ep) as (L' & F' & HH).
    stp. destruct b; cbn [negb].
    + destruct (HH eq_refl) as [H1 H2]. rewrite sp_dirty. cbn [orb].
      destruct (match s_load st with None => true | Some l => negb (pch_same l u) end) eqn:Ed.
      * constructor; stp; try assumption.
        -- intros q1 q2. destruct (Q q1 q2).
        -- intros _. constructor; stp; try assumption.
           ++ rewrite sp_buf. apply BufInv_default.
           ++ unfold Proof_TargetRun.Stage. stp. constructor; stp; try assumption; try reflexivity.
              ** intros _. exact H2.
              ** intros Fw s m Hs Hm HC. stp. apply (pchclean_back rg h (mtof st)) in HC; [|exact (i_bound Fw s Hs)|exact Hm].
                 rewrite r_load, Hs in Ed. apply negb_true_iff in Ed.
                 apply (pch_same_iff _ _ _ _ L' H1 H2) in HC. congruence.
      * constructor; stp; try assumption.
        -- intros q1 q2. destruct (Q q1 q2).
        -- intros _. destruct (s_load st) as [l|] eqn:El; [|discriminate]. apply negb_false_iff in Ed.
           apply (pch_same_iff _ _ _ _ L' H1 H2) in Ed. symmetry in r_load.
           destruct (safe_now h st l I sp_dirty r_load (s_cfg st) r_perm) as (S1 & S2 & S3).
           pose proof (S1 _ (R_refl rg h (mtof st)) sp_pch Ed) as PC.
           constructor; stp; try assumption.
           ++ congruence.
           ++ rewrite sp_buf. tsp. cbn [ts_default ts_sources app]. intros i Hi.
              apply (Fresh_tracked rg h _ _ u); [exact L'|exact F'|]. unfold all_infos. rewrite !in_app_iff. tauto.
           ++ rewrite sp_buf. constructor; tsp.
              ** intros _. split; [exact sp_pch|]. split; [exact (Hashed_paths _ _ _ H2)|].
                 destruct PC as (p & A1 & A2 & A3 & A4 & A5). exists p. repeat split; try assumption.
                 intros i Hi. rewrite (A5 (pi_path i)).
                 --- apply fresh_rec. apply F'. unfold all_infos. rewrite !in_app_iff in *. tauto.
                 --- rewrite in_app_iff in *. destruct Hi as [Hi|Hi]; [left; rewrite <- (Hashed_paths _ _ _ H1)|right; rewrite <- (Hashed_paths _ _ _ H2)]; apply in_map; exact Hi.
              ** intros i [].
              ** discriminate.
           ++ unfold Proof_TargetRun.Stage. stp. constructor; stp; rewrite ?sp_buf; tsp; try reflexivity.
              ** congruence.
              ** intros _ _. split; [reflexivity|]. split; [exact H1|]. intros _. exact H2.
              ** congruence.
              ** intros _ _ _. exists l. split; [exact El|]. split.
                 --- intros m p Hm OC Hp M. apply (S2 (mtof st) m); auto using R_refl.
                 --- intros _. exact Ed.
    + constructor; stp; try assumption.
      * intros q1 q2. destruct (Q q1 q2).
      * intros _. constructor; stp; try assumption.
        -- rewrite sp_buf. apply BufInv_default.
        -- unfold Proof_TargetRun.Stage. stp. constructor; stp; rewrite ?sp_buf; try reflexivity; try congruence.
  - constructor; stp; try assumption.
    + intros q1 q2. destruct (Q q1 q2).
    + intros _. constructor; stp; try assumption.
      unfold Proof_TargetRun.Stage. stp. constructor; stp; rewrite ?sp_buf; try reflexivity; try congruence.
Qed.

Lemma taint_permitted (h : hist) (c : cfg) : permitted e h c -> permitted e (h_with_taint h c) c.
Proof. intros (A & B & C & D). repeat split; try assumption. cbn. congruence. Qed.
Lemma taint_only (h : hist) (c c' : cfg) : permitted e (h_with_taint h c) c' -> c' = c.
Proof. intros (A & B & C & D). exact (D c eq_refl). Qed.

Lemma pch_exec_Inv (h : hist) (st st' : tstate) (r : xres pch_art) :
  s_pc st = PcPchExec -> pch_exec e st r = Some st' -> Inv h st -> Inv (h_with_taint h (s_cfg st)) st'.
Proof.
  intros Hpc Hx []. assert (RI : RunInv h st) by (apply i_run; congruence). destruct RI.
  unfold Proof_TargetRun.Stage in r_stage. rewrite Hpc in r_stage. destruct r_stage.
  set (h' := h_with_taint h (s_cfg st)).
  assert (HR : Rsub rg h (mtof st) h' (mtof st)) by (apply Rsub_next; reflexivity).
  assert (SS : forall d', d_mt d' = mtof st -> rg = Forward \/ h_taint h' = None ->
            forall s, stored (s_disk st) = Some s -> SafeS h' d' s).
  { intros d' Hd [Fw|K]; [|discriminate]. intros s Hs c' Hc'. apply taint_only in Hc'. subst c'.
    assert (No : forall m, R h' (d_mt d') m -> pchclean s (s_cfg st) m -> False).
    { intros m Hm. apply (sx_forced Fw s m Hs). rewrite Hd in Hm. exact (HR m Hm). }
    repeat split; intros; exfalso; eauto. }
  unfold pch_exec in Hx. destruct (pch_command e (s_cfg st)) as [cmd| |] eqn:Ec; try discriminate.
  injection Hx as <-. destruct (run_res cmd r) as [|lo|] eqn:Er.
  - constructor; stp; try assumption.
    + intros K s Hs. apply SS; [reflexivity|exact K|exact Hs].
    + intros _ _. split; [discriminate|exact sx_dirty].
    + intros _. constructor; stp; try assumption.
      * apply taint_permitted. exact r_perm.
      * rewrite sx_buf. tsp. cbn [ts_default ts_sources app]. intros i Hi.
        apply (Fresh_tracked rg h _ _ (s_user st)); [exact r_like|exact r_fresh|]. unfold all_infos. rewrite !in_app_iff. tauto.
      * rewrite sx_buf. constructor; tsp; [|intros i []|discriminate].
        intros _. split; [exact sx_pch|]. split; [exact (like_pchs _ _ r_like)|].
        eexists. stp. split; [reflexivity|]. split; [reflexivity|]. split; [exact Ec|]. split.
        -- cbn [p_text]. rewrite (like_pchs _ _ r_like). reflexivity.
        -- cbn [p_snap]. intros i Hi. apply fresh_rec. apply r_fresh. unfold all_infos. rewrite !in_app_iff in *. tauto.
      * unfold Proof_TargetRun.Stage. stp. constructor; stp; rewrite ?sx_buf; tsp; try reflexivity; try congruence.
        -- intros _ _. split; [reflexivity|]. split; [exact sx_hdr|exact sx_pchs].
        -- intros _. split; [exact sx_pch|exact sx_forced].
  - constructor; stp; try assumption.
    + intros K s Hs. apply SS; [reflexivity|exact K|exact Hs].
    + intros _ _. split; [discriminate|exact sx_dirty].
    + intros _. constructor; stp; try assumption.
      * apply taint_permitted. exact r_perm.
      * rewrite sx_buf. apply BufInv_default.
      * unfold Proof_TargetRun.Stage. stp. constructor; stp; rewrite ?sx_buf; try reflexivity; try congruence.
        intros _. split; [exact sx_pch|exact sx_forced].
  - constructor; stp; try assumption.
    + intros K s Hs. apply SS; [reflexivity|exact K|exact Hs].
    + intros _ _. split; [discriminate|exact sx_dirty].
    + intros _. constructor; stp; try assumption.
      * apply taint_permitted. exact r_perm.
      * rewrite sx_buf. apply BufInv_default.
      * unfold Proof_TargetRun.Stage. stp. constructor; stp; rewrite ?sx_buf; try reflexivity; try congruence.
        intros _. split; [exact sx_pch|exact sx_forced].
Qed.
End Step.
