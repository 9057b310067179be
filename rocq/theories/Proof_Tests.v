From Coq Require Import Permutation Lia.
From Verif Require Import Prelude Model_Command Model_Target Model_Args Model_Reg Model_Tests Spec_Tests Spec_Reg Proof_Prelude Proof_Reg.

(** ** The shape of a run *)

Lemma vexec_app w lv other cb a b : forall s,
  vexec w lv other cb s (a ++ b) = match vexec w lv other cb s a with Some s' => vexec w lv other cb s' b | None => None end.
Proof. induction a as [|ev a IH]; intros s; cbn [vexec app]; [reflexivity|]. destruct (vstep w lv other cb s ev); [apply IH|reflexivity]. Qed.
Lemma qexec_app w lv other a b : forall s,
  qexec w lv other s (a ++ b) = match qexec w lv other s a with Some s' => qexec w lv other s' b | None => None end.
Proof. induction a as [|ev a IH]; intros s; cbn [qexec app]; [reflexivity|]. destruct (qstep w lv other s ev); [apply IH|reflexivity]. Qed.

Definition before (cb : bool) : list vevent := VBuilt true :: (if cb then [VCallback] else []).
Inductive shape w lv other cb tests users : list vevent -> vstate -> Prop :=
| Sh0 : shape w lv other cb tests users [] (V InBuild (q_init tests users))
| Sh1 : shape w lv other cb tests users [VBuilt false] (V Ended (q_init tests users))
| Sh2 : cb = true -> shape w lv other cb tests users [VBuilt true] (V InCallback (q_init tests users))
| Sh3 qs q : qexec w lv other (q_init tests users) qs = Some q ->
    shape w lv other cb tests users (before cb ++ map VTest qs) (V (if q_ended q then Ended else InTests) q)
| Sh4 qs q : qexec w lv other (q_init tests users) qs = Some q -> q_ended q = false -> q_waiting q = [] -> q_running q = [] ->
    shape w lv other cb tests users (before cb ++ map VTest qs ++ [VReturn]) (V Returned q).

Lemma run_shape w lv other cb tests users : forall evs s,
  reg_run_tests w lv other cb tests users evs = Some s -> shape w lv other cb tests users evs s.
Proof.
  unfold reg_run_tests. intros evs. induction evs as [|ev evs IH] using rev_ind; intros s H.
  { cbn [vexec] in H. injection H as <-. constructor. }
  rewrite vexec_app in H. destruct (vexec w lv other cb (V InBuild (q_init tests users)) evs) as [s1|]; [|discriminate].
  specialize (IH s1 eq_refl). cbn [vexec] in H. destruct (vstep w lv other cb s1 ev) as [s2|] eqn:S; [|discriminate]. injection H as <-.
  inversion IH; subst; cbn [app].
  - destruct ev as [[|]| | |]; try discriminate S; cbn in S; injection S as <-; [|constructor].
    destruct cb; [constructor; reflexivity|]. exact (Sh3 w lv other false tests users [] _ eq_refl).
  - destruct ev as [[|]| | |]; discriminate S.
  - destruct ev as [[|]| | |]; try discriminate S. cbn in S. injection S as <-. exact (Sh3 w lv other true tests users [] _ eq_refl).
  - destruct (q_ended q) eqn:E.
    { destruct ev as [[|]| | |]; discriminate S. }
    destruct ev as [[|]| |e|]; try discriminate S.
    + cbn [vstep v_phase v_tests] in S. destruct (qstep w lv other q e) as [q'|] eqn:Q; [|discriminate S]. injection S as <-.
      assert (X : qexec w lv other (q_init tests users) (qs ++ [e]) = Some q') by (rewrite qexec_app, H; cbn [qexec]; rewrite Q; reflexivity).
      pose proof (Sh3 w lv other cb tests users _ _ X) as R. rewrite map_app, app_assoc in R. exact R.
    + cbn [vstep v_phase v_tests] in S. destruct (q_waiting q) eqn:Wt; [|discriminate S]. destruct (q_running q) eqn:Rn; [|discriminate S].
      injection S as <-. pose proof (Sh4 w lv other cb tests users qs q H E Wt Rn) as R. rewrite app_assoc in R. exact R.
  - destruct ev as [[|]| | |]; discriminate S.
Qed.

(** ** Taking a test *)

Lemma take_test_some id l : forall t r, take_test id l = Some (t, r) -> t_id t = id /\ Permutation l (t :: r).
Proof.
  induction l as [|x l IH]; intros t r H; [discriminate|]. cbn [take_test] in H. destruct (String.eqb (t_id x) id) eqn:E.
  - injection H as <- <-. apply String.eqb_eq in E. auto.
  - destruct (take_test id l) as [[y r']|]; [|discriminate]. injection H as <- <-. destruct (IH _ _ eq_refl) as (A & P). split; [exact A|].
    rewrite P. apply perm_swap.
Qed.
Lemma take_test_in id l : In id (map t_id l) -> exists t r, take_test id l = Some (t, r).
Proof.
  induction l as [|x l IH]; intros H; [destruct H|]. cbn [take_test]. destruct (String.eqb (t_id x) id) eqn:E; [eauto|].
  destruct H as [H|H]; [rewrite H, String.eqb_refl in E; discriminate|]. destruct (IH H) as (t & r & ->). eauto.
Qed.
Definition run_id (x : test * (list string * list string)) : string := t_id (fst x).
Lemma take_running_some id l : forall x r, take_running id l = Some (x, r) -> run_id x = id /\ Permutation l (x :: r).
Proof.
  induction l as [|[t k] l IH]; intros x r H; [discriminate|]. cbn [take_running] in H. destruct (String.eqb (t_id t) id) eqn:E.
  - injection H as <- <-. apply String.eqb_eq in E. auto.
  - destruct (take_running id l) as [[y r']|]; [|discriminate]. injection H as <- <-. destruct (IH _ _ eq_refl) as (A & P). split; [exact A|].
    rewrite P. apply perm_swap.
Qed.
Lemma take_running_in id l : In id (map run_id l) -> exists x r, take_running id l = Some (x, r).
Proof.
  induction l as [|[t k] l IH]; intros H; [destruct H|]. cbn [take_running]. destruct (String.eqb (t_id t) id) eqn:E; [eauto|].
  destruct H as [H|H]; [unfold run_id in H; cbn [fst] in H; rewrite H, String.eqb_refl in E; discriminate|].
  destruct (IH H) as (x & r & ->). eauto.
Qed.

(** ** One test *)

Definition ev_id (ev : qevent) : string := match ev with QStart i | QWrite i _ _ | QExit i _ => i end.
Definition mine (id : string) (qs : list qevent) : list qevent := filter (fun ev => String.eqb (ev_id ev) id) qs.
Definition console_of (id : string) (q : qstate) : list shown := map snd (filter (fun x => String.eqb (fst x) id) (q_console q)).
Definition started_of (id : string) (q : qstate) : list (string * option string) := map snd (filter (fun x => String.eqb (fst x) id) (q_started q)).

Definition writes (id : string) (ws : list (bool * string)) : list qevent := map (fun x => QWrite id (fst x) (snd x)) ws.
Definition kept (o : test_output) (err : bool) (ws : list (bool * string)) : list string :=
  flat_map (fun x => if Bool.eqb (fst x) err then match sink_of o err with Kept => [snd x] | _ => [] end else []) ws.
Definition direct (o : test_output) (ws : list (bool * string)) : list shown :=
  flat_map (fun x => match sink_of o (fst x) with Inherited => [Direct (fst x) (snd x)] | _ => [] end) ws.

Definition said lv (t : test) : list shown := log_line lv Info "TestRunner" ("Testing '" +++ t_id t +++ "'").
Definition begin lv t (cmd : string) : list shown := said lv t ++ log_line lv Debug "system" cmd.
Definition failed lv (t : test) : list shown := log_line lv Critical "assert" ("Could not run " +++ t_id t).

Definition cmd_of (other : string -> option string) (t : test) : option string := test_text other (t_id t) (t_exe t) (t_cmd t) (t_args t).

Inductive stage lv other (t : test) (q : qstate) (qs : list qevent) : Prop :=
| AtWaiting : mine (t_id t) qs = [] -> In t (q_waiting q) -> console_of (t_id t) q = [] -> started_of (t_id t) q = [] -> stage lv other t q qs
| AtRunning c ws : mine (t_id t) qs = QStart (t_id t) :: writes (t_id t) ws -> cmd_of other t = Some c -> c <> "" ->
    In (t, (kept (t_out t) false ws, kept (t_out t) true ws)) (q_running q) ->
    console_of (t_id t) q = begin lv t c ++ direct (t_out t) ws -> started_of (t_id t) q = [(c, t_dir t)] -> stage lv other t q qs
| AtDone c ws : mine (t_id t) qs = QStart (t_id t) :: writes (t_id t) ws ++ [QExit (t_id t) true] -> cmd_of other t = Some c -> c <> "" ->
    In (t_id t) (q_done q) ->
    console_of (t_id t) q = begin lv t c ++ direct (t_out t) ws ++ report lv t (kept (t_out t) false ws) (kept (t_out t) true ws) ->
    started_of (t_id t) q = [(c, t_dir t)] -> stage lv other t q qs
| AtFailed c ws : mine (t_id t) qs = QStart (t_id t) :: writes (t_id t) ws ++ [QExit (t_id t) false] -> cmd_of other t = Some c -> c <> "" ->
    q_ended q = true ->
    console_of (t_id t) q = begin lv t c ++ direct (t_out t) ws ++ failed lv t ->
    started_of (t_id t) q = [(c, t_dir t)] -> stage lv other t q qs
| AtNone : mine (t_id t) qs = [QStart (t_id t)] -> cmd_of other t = None \/ cmd_of other t = Some "" -> q_ended q = true ->
    started_of (t_id t) q = [] -> stage lv other t q qs.

Record QInv lv other (tests : list test) (q : qstate) (qs : list qevent) : Prop := {
  qi_ids : NoDup (map t_id (q_waiting q) ++ map run_id (q_running q) ++ q_done q);
  qi_wait : incl (q_waiting q) tests;
  qi_run : incl (map fst (q_running q)) tests;
  qi_stage : forall t, In t tests -> stage lv other t q qs;
  qi_only : forall ev, In ev qs -> In (ev_id ev) (map t_id tests);
  qi_end : q_ended q = true -> exists t, In t tests /\
     ((cmd_of other t = None \/ cmd_of other t = Some "") /\ In (QStart (t_id t)) qs \/ In (QExit (t_id t) false) qs) }.

Lemma same_id (tests : list test) (N : NoDup (map t_id tests)) : forall t u, In t tests -> In u tests -> t_id t = t_id u -> t = u.
Proof.
  induction tests as [|x l IH]; intros t u A B E; [destruct A|]. cbn [map] in N. inversion N as [|? ? Nx N']; subst.
  destruct A as [A|A], B as [B|B]; subst; auto.
  - exfalso. apply Nx. rewrite E. apply in_map. exact B.
  - exfalso. apply Nx. rewrite <- E. apply in_map. exact A.
Qed.

Lemma mine_snoc id qs ev : mine id (qs ++ [ev]) = mine id qs ++ (if String.eqb (ev_id ev) id then [ev] else []).
Proof. unfold mine. rewrite filter_app. cbn [filter]. destruct (String.eqb (ev_id ev) id); reflexivity. Qed.
Lemma filter_about id t l : map snd (filter (fun x => String.eqb (fst x) id) (about t l)) = if String.eqb (t_id t) id then l else [].
Proof.
  unfold about. induction l as [|x l IH]; cbn [map filter fst]; [destruct (String.eqb (t_id t) id); reflexivity|].
  destruct (String.eqb (t_id t) id); cbn [map snd]; [rewrite IH; reflexivity|exact IH].
Qed.
Lemma kept_snoc o err ws e x : kept o err (ws ++ [(e, x)]) = kept o err ws ++ (if Bool.eqb e err then match sink_of o err with Kept => [x] | _ => [] end else []).
Proof. unfold kept. rewrite flat_map_app. cbn [flat_map fst snd]. rewrite app_nil_r. reflexivity. Qed.
Lemma direct_snoc o ws e x : direct o (ws ++ [(e, x)]) = direct o ws ++ (match sink_of o e with Inherited => [Direct e x] | _ => [] end).
Proof. unfold direct. rewrite flat_map_app. cbn [flat_map fst snd]. rewrite app_nil_r. reflexivity. Qed.
Lemma writes_snoc id ws e x : writes id (ws ++ [(e, x)]) = writes id ws ++ [QWrite id e x].
Proof. unfold writes. rewrite map_app. reflexivity. Qed.

Lemma QInv_init lv other tests users : NoDup (map t_id tests) -> QInv lv other tests (q_init tests users) [].
Proof.
  intros N. constructor; cbn.
  - rewrite app_nil_r. exact N.
  - apply incl_refl.
  - intros x [].
  - intros t T. apply AtWaiting; auto.
  - intros ev [].
  - discriminate.
Qed.

Lemma stage_other lv other t q q' qs ev : stage lv other t q qs -> ev_id ev <> t_id t ->
  (In t (q_waiting q) -> In t (q_waiting q')) -> (forall k, In (t, k) (q_running q) -> In (t, k) (q_running q')) ->
  (In (t_id t) (q_done q) -> In (t_id t) (q_done q')) -> (q_ended q = true -> q_ended q' = true) ->
  console_of (t_id t) q' = console_of (t_id t) q -> started_of (t_id t) q' = started_of (t_id t) q -> stage lv other t q' (qs ++ [ev]).
Proof.
  intros S D W R Dn E C T.
  assert (M : mine (t_id t) (qs ++ [ev]) = mine (t_id t) qs).
  { rewrite mine_snoc. destruct (String.eqb (ev_id ev) (t_id t)) eqn:X; [apply String.eqb_eq in X; contradiction|apply app_nil_r]. }
  destruct S as [H1 H2 H3 H4|c ws H1 H2 H3 H4 H5 H6|c ws H1 H2 H3 H4 H5 H6|c ws H1 H2 H3 H4 H5 H6|H1 H2 H3 H4].
  - apply AtWaiting; [rewrite M|..|rewrite C|rewrite T]; auto.
  - apply (AtRunning _ _ _ _ _ c ws); [rewrite M|..|rewrite C|rewrite T]; auto.
  - apply (AtDone _ _ _ _ _ c ws); [rewrite M|..|rewrite C|rewrite T]; auto.
  - apply (AtFailed _ _ _ _ _ c ws); [rewrite M|..|rewrite C|rewrite T]; auto.
  - apply AtNone; [rewrite M|..|rewrite T]; auto.
Qed.

Lemma console_app id a b us l l' st d e : console_of id (Q a b us (l ++ l') st d e) =
  map snd (filter (fun x => String.eqb (fst x) id) l) ++ map snd (filter (fun x => String.eqb (fst x) id) l').
Proof. unfold console_of. cbn [q_console]. rewrite filter_app, map_app. reflexivity. Qed.
Lemma console_about id a b us l t l' st d e : console_of id (Q a b us (l ++ about t l') st d e) =
  map snd (filter (fun x => String.eqb (fst x) id) l) ++ (if String.eqb (t_id t) id then l' else []).
Proof. rewrite console_app, filter_about. reflexivity. Qed.
Lemma started_app id a b us l st x d e : started_of id (Q a b us l (st ++ [x]) d e) =
  map snd (filter (fun x => String.eqb (fst x) id) st) ++ (if String.eqb (fst x) id then [snd x] else []).
Proof. unfold started_of. cbn [q_started]. rewrite filter_app, map_app. cbn [filter]. destruct (String.eqb (fst x) id); reflexivity. Qed.

(** In a state that has not ended, a waiting (running) test is at that stage. *)
Lemma stage_waiting lv other t q qs : stage lv other t q qs -> q_ended q = false -> In t (q_waiting q) ->
  ~ In (t_id t) (map run_id (q_running q)) -> ~ In (t_id t) (q_done q) -> mine (t_id t) qs = [] /\ console_of (t_id t) q = [] /\ started_of (t_id t) q = [].
Proof.
  intros S E W R D. destruct S as [H1 H2 H3 H4|c ws H1 H2 H3 H4 H5 H6|c ws H1 H2 H3 H4 H5 H6|c ws H1 H2 H3 H4 H5 H6|H1 H2 H3 H4].
  - auto.
  - exfalso. apply R. apply (in_map run_id) in H4. exact H4.
  - contradiction.
  - congruence.
  - congruence.
Qed.
Lemma NoDup_app_not {A} (a b : list A) x : NoDup (a ++ b) -> In x a -> ~ In x b.
Proof.
  induction a as [|y a IH]; intros N H; [destruct H|]. cbn [app] in N. inversion N as [|? ? Ny N']; subst. destruct H as [->|H].
  - intros B. apply Ny. apply in_or_app. right. exact B.
  - exact (IH N' H).
Qed.
Lemma NoDup_app_r {A} (a b : list A) : NoDup (a ++ b) -> NoDup b.
Proof. induction a as [|y a IH]; intros N; [exact N|]. inversion N; auto. Qed.
Lemma NoDup_app_l {A} (a b : list A) : NoDup (a ++ b) -> NoDup a.
Proof. induction a as [|y a IH]; intros N; [constructor|]. inversion N as [|? ? Ny N']; subst. constructor; [intros K; apply Ny, in_or_app; auto|auto]. Qed.
Lemma run_unique (l : list (test * (list string * list string))) x y : NoDup (map run_id l) -> In x l -> In y l -> run_id x = run_id y -> x = y.
Proof.
  induction l as [|z l IH]; intros N A B E; [destruct A|]. cbn [map] in N. inversion N as [|? ? Nz N']; subst.
  destruct A as [A|A], B as [B|B]; subst; auto.
  - exfalso. apply Nz. rewrite E. apply in_map. exact B.
  - exfalso. apply Nz. rewrite <- E. apply in_map. exact A.
Qed.
Lemma stage_running lv other tests t q qs k : QInv lv other tests q qs -> q_ended q = false -> In (t, k) (q_running q) ->
  exists c ws, mine (t_id t) qs = QStart (t_id t) :: writes (t_id t) ws /\ cmd_of other t = Some c /\ c <> "" /\
    k = (kept (t_out t) false ws, kept (t_out t) true ws) /\
    console_of (t_id t) q = begin lv t c ++ direct (t_out t) ws /\ started_of (t_id t) q = [(c, t_dir t)].
Proof.
  intros I E R. assert (T : In t tests) by (apply (qi_run _ _ _ _ _ I); apply (in_map fst) in R; exact R).
  pose proof (qi_ids _ _ _ _ _ I) as N. assert (R' : In (t_id t) (map run_id (q_running q))) by (apply (in_map run_id) in R; exact R).
  destruct (qi_stage _ _ _ _ _ I t T) as [H1 H2 H3 H4|c ws H1 H2 H3 H4 H5 H6|c ws H1 H2 H3 H4 H5 H6|c ws H1 H2 H3 H4 H5 H6|H1 H2 H3 H4]; try congruence.
  - exfalso. apply (NoDup_app_not _ _ (t_id t) N); [apply in_map; exact H2|apply in_or_app; left; exact R'].
  - exists c, ws. repeat split; auto. apply NoDup_app_r, NoDup_app_l in N.
    pose proof (run_unique _ _ _ N R H4 eq_refl) as U. injection U as U. exact U.
  - exfalso. apply (NoDup_app_not _ _ (t_id t) (NoDup_app_r _ _ N)); assumption.
Qed.
Lemma running_other t k x r l : Permutation l (x :: r) -> In (t, k) l -> t_id t <> run_id x -> In (t, k) r.
Proof. intros P R D. apply (Permutation_in _ P) in R. destruct R as [->|R]; [destruct D; reflexivity|exact R]. Qed.

Ltac frame I ev t' D := apply (stage_other _ _ _ _ _ _ ev (qi_stage _ _ _ _ _ I t' D)).

Lemma QInv_step w lv other tests q qs ev q' : NoDup (map t_id tests) -> QInv lv other tests q qs -> qstep w lv other q ev = Some q' ->
  QInv lv other tests q' (qs ++ [ev]).
Proof.
  intros NT I S. unfold qstep in S. destruct (q_ended q) eqn:E; [discriminate|]. destruct ev as [id|id err x|id ok].
  - destruct (Nat.ltb (length (q_running q)) w); [|discriminate]. destruct (take_test id (q_waiting q)) as [[t r]|] eqn:Tk; [|discriminate].
    apply take_test_some in Tk as (Tid & P). subst id.
    assert (W : In t (q_waiting q)) by (apply (Permutation_in _ (Permutation_sym P)); left; reflexivity).
    assert (T : In t tests) by (apply (qi_wait _ _ _ _ _ I); exact W).
    pose proof (qi_ids _ _ _ _ _ I) as N.
    assert (NR : ~ In (t_id t) (map run_id (q_running q) ++ q_done q)) by (apply (NoDup_app_not _ _ _ N), in_map, W).
    destruct (stage_waiting lv other t q qs (qi_stage _ _ _ _ _ I t T) E W) as (M & C & St);
      [intros K; apply NR, in_or_app; auto|intros K; apply NR, in_or_app; auto|].
    assert (P' : Permutation (map t_id (q_waiting q) ++ map run_id (q_running q) ++ q_done q) (t_id t :: map t_id r ++ map run_id (q_running q) ++ q_done q)).
    { rewrite P. reflexivity. }
    assert (N' : NoDup (t_id t :: map t_id r ++ map run_id (q_running q) ++ q_done q)) by (apply (Permutation_NoDup P'), N).
    assert (Wr : incl r tests).
    { intros y Y. apply (qi_wait _ _ _ _ _ I). apply (Permutation_in _ (Permutation_sym P)). right. exact Y. }
    assert (Wo : forall t', t_id t' <> t_id t -> In t' (q_waiting q) -> In t' r).
    { intros t' D Y. apply (Permutation_in _ P) in Y. destruct Y as [->|Y]; [contradiction|exact Y]. }
    assert (On : forall ev', In ev' (qs ++ [QStart (t_id t)]) -> In (ev_id ev') (map t_id tests)).
    { intros ev' Y. apply in_app_or in Y as [Y|[<-|[]]]; [apply (qi_only _ _ _ _ _ I), Y|cbn; apply in_map, T]. }
    assert (Mn : mine (t_id t) (qs ++ [QStart (t_id t)]) = [QStart (t_id t)]).
    { rewrite mine_snoc, M. cbn [ev_id]. rewrite String.eqb_refl. reflexivity. }
    assert (Last : In (QStart (t_id t)) (qs ++ [QStart (t_id t)])) by (apply in_or_app; right; left; reflexivity).
    assert (Neq : forall t', In t' tests -> t' <> t -> t_id t' <> t_id t) by (intros t' T' D X; apply D, (same_id tests NT); assumption).
    assert (Neqb : forall t', t_id t' <> t_id t -> String.eqb (t_id t) (t_id t') = false) by (intros t' D; apply String.eqb_neq; congruence).
    fold (cmd_of other t) in S. destruct (cmd_of other t) as [cmd|] eqn:Cm; [destruct (String.eqb cmd "") eqn:Ce|].
    + injection S as <-. apply String.eqb_eq in Ce. subst cmd. constructor; cbn [q_waiting q_running q_done q_ended]; try assumption.
      * inversion N'; assumption.
      * apply (qi_run _ _ _ _ _ I).
      * intros t' T'. destruct (String.eqb (t_id t') (t_id t)) eqn:X.
        -- apply String.eqb_eq in X. rewrite (same_id tests NT t' t T' T X). apply AtNone; auto.
        -- apply String.eqb_neq in X. frame I (QStart (t_id t)) t' T'; cbn [q_waiting q_running q_done q_ended ev_id]; auto; try congruence.
           rewrite console_about, (Neqb _ X), app_nil_r. reflexivity.
      * intros _. exists t. auto.
    + injection S as <-. apply String.eqb_neq in Ce. constructor; cbn [q_waiting q_running q_done q_ended]; try assumption.
      * apply (Permutation_NoDup (l := t_id t :: map t_id r ++ map run_id (q_running q) ++ q_done q)); [|exact N']. cbn [map app].
        change (run_id (t, ([], []))) with (t_id t). apply Permutation_middle.
      * cbn [map fst]. intros y [<-|Y]; [exact T|apply (qi_run _ _ _ _ _ I), Y].
      * intros t' T'. destruct (String.eqb (t_id t') (t_id t)) eqn:X.
        -- apply String.eqb_eq in X. rewrite (same_id tests NT t' t T' T X). apply (AtRunning _ _ _ _ _ cmd []); auto.
           ++ left. reflexivity.
           ++ rewrite console_about, String.eqb_refl. unfold console_of in C. rewrite C. cbn [app direct flat_map]. rewrite app_nil_r. reflexivity.
           ++ rewrite started_app. cbn [fst snd]. rewrite String.eqb_refl. unfold started_of in St. rewrite St. reflexivity.
        -- apply String.eqb_neq in X. frame I (QStart (t_id t)) t' T'; cbn [q_waiting q_running q_done q_ended ev_id]; auto; try congruence.
           ++ intros k K. right. exact K.
           ++ rewrite console_about, (Neqb _ X), app_nil_r. reflexivity.
           ++ rewrite started_app. cbn [fst snd]. rewrite (Neqb _ X), app_nil_r. reflexivity.
      * discriminate.
    + injection S as <-. constructor; cbn [q_waiting q_running q_done q_ended]; try assumption.
      * inversion N'; assumption.
      * apply (qi_run _ _ _ _ _ I).
      * intros t' T'. destruct (String.eqb (t_id t') (t_id t)) eqn:X.
        -- apply String.eqb_eq in X. rewrite (same_id tests NT t' t T' T X). apply AtNone; auto.
        -- apply String.eqb_neq in X. frame I (QStart (t_id t)) t' T'; cbn [q_waiting q_running q_done q_ended ev_id]; auto; try congruence.
           rewrite console_about, (Neqb _ X), app_nil_r. reflexivity.
      * intros _. exists t. auto.
  - destruct (String.eqb x "") eqn:Ex; [discriminate|]. destruct (take_running id (q_running q)) as [[[t [o e]] r]|] eqn:Tk; [|discriminate].
    apply take_running_some in Tk as (Tid & P). unfold run_id in Tid. cbn [fst] in Tid. subst id.
    assert (R : In (t, (o, e)) (q_running q)) by (apply (Permutation_in _ (Permutation_sym P)); left; reflexivity).
    assert (T : In t tests) by (apply (qi_run _ _ _ _ _ I); apply (in_map fst) in R; exact R).
    destruct (stage_running _ _ _ _ _ _ _ I E R) as (c & ws & M & Cm & Cn & K & C & St). injection K as -> ->.
    assert (On : forall ev', In ev' (qs ++ [QWrite (t_id t) err x]) -> In (ev_id ev') (map t_id tests)).
    { intros ev' Y. apply in_app_or in Y as [Y|[<-|[]]]; [apply (qi_only _ _ _ _ _ I), Y|cbn; apply in_map, T]. }
    assert (Mn : mine (t_id t) (qs ++ [QWrite (t_id t) err x]) = QStart (t_id t) :: writes (t_id t) (ws ++ [(err, x)])).
    { rewrite mine_snoc, M, writes_snoc. cbn [ev_id]. rewrite String.eqb_refl. reflexivity. }
    assert (Neqb : forall t', t_id t' <> t_id t -> String.eqb (t_id t) (t_id t') = false) by (intros t' D; apply String.eqb_neq; congruence).
    destruct (sink_of (t_out t) err) as [| |v] eqn:Sk; injection S as <-.
    + change [(t_id t, Direct err x)] with (about t [Direct err x]). constructor; cbn [q_waiting q_running q_done q_ended]; try apply I; try assumption; [|discriminate].
      intros t' T'. destruct (String.eqb (t_id t') (t_id t)) eqn:X.
      * apply String.eqb_eq in X. rewrite (same_id tests NT t' t T' T X). apply (AtRunning _ _ _ _ _ c (ws ++ [(err, x)])); auto.
        -- cbn [q_running]. rewrite !kept_snoc. destruct err; cbn [Bool.eqb]; rewrite Sk, !app_nil_r; exact R.
        -- rewrite console_about, String.eqb_refl. unfold console_of in C. rewrite C, direct_snoc, Sk, app_assoc. reflexivity.
      * apply String.eqb_neq in X. frame I (QWrite (t_id t) err x) t' T'; cbn [q_waiting q_running q_done q_ended ev_id]; auto; try congruence.
        rewrite console_about, (Neqb _ X), app_nil_r. reflexivity.
    + constructor; cbn [q_waiting q_running q_done q_ended]; try apply I; try assumption.
      * pose proof (qi_ids _ _ _ _ _ I) as N. eapply Permutation_NoDup; [|exact N]. apply Permutation_app_head, Permutation_app_tail.
        rewrite P. cbn [map]. reflexivity.
      * intros y Y. apply (qi_run _ _ _ _ _ I). rewrite P. cbn [map fst] in *. exact Y.
      * intros t' T'. destruct (String.eqb (t_id t') (t_id t)) eqn:X.
        -- apply String.eqb_eq in X. rewrite (same_id tests NT t' t T' T X). apply (AtRunning _ _ _ _ _ c (ws ++ [(err, x)])); auto.
           ++ cbn [q_running]. left. rewrite !kept_snoc. destruct err; cbn [Bool.eqb]; rewrite Sk, !app_nil_r; reflexivity.
           ++ unfold console_of in *. cbn [q_console]. rewrite C, direct_snoc, Sk, app_nil_r. reflexivity.
        -- apply String.eqb_neq in X. frame I (QWrite (t_id t) err x) t' T'; cbn [q_waiting q_running q_done q_ended ev_id]; auto; try congruence.
           intros k K. right. exact (running_other _ _ _ _ _ P K X).
      * discriminate.
    + constructor; cbn [q_waiting q_running q_done q_ended]; try apply I; try assumption; [|discriminate].
      intros t' T'. destruct (String.eqb (t_id t') (t_id t)) eqn:X.
      * apply String.eqb_eq in X. rewrite (same_id tests NT t' t T' T X). apply (AtRunning _ _ _ _ _ c (ws ++ [(err, x)])); auto.
        -- cbn [q_running]. rewrite !kept_snoc. destruct err; cbn [Bool.eqb]; rewrite Sk, !app_nil_r; exact R.
        -- unfold console_of in *. cbn [q_console]. rewrite C, direct_snoc, Sk, app_nil_r. reflexivity.
      * apply String.eqb_neq in X. frame I (QWrite (t_id t) err x) t' T'; cbn [q_waiting q_running q_done q_ended ev_id]; auto; try congruence.
  - destruct (take_running id (q_running q)) as [[[t [o e]] r]|] eqn:Tk; [|discriminate].
    apply take_running_some in Tk as (Tid & P). unfold run_id in Tid. cbn [fst] in Tid. subst id.
    assert (R : In (t, (o, e)) (q_running q)) by (apply (Permutation_in _ (Permutation_sym P)); left; reflexivity).
    assert (T : In t tests) by (apply (qi_run _ _ _ _ _ I); apply (in_map fst) in R; exact R).
    destruct (stage_running _ _ _ _ _ _ _ I E R) as (c & ws & M & Cm & Cn & K & C & St). injection K as -> ->.
    assert (On : forall ev', In ev' (qs ++ [QExit (t_id t) ok]) -> In (ev_id ev') (map t_id tests)).
    { intros ev' Y. apply in_app_or in Y as [Y|[<-|[]]]; [apply (qi_only _ _ _ _ _ I), Y|cbn; apply in_map, T]. }
    assert (Mn : mine (t_id t) (qs ++ [QExit (t_id t) ok]) = QStart (t_id t) :: writes (t_id t) ws ++ [QExit (t_id t) ok]).
    { rewrite mine_snoc, M. cbn [ev_id]. rewrite String.eqb_refl. reflexivity. }
    assert (Neqb : forall t', t_id t' <> t_id t -> String.eqb (t_id t) (t_id t') = false) by (intros t' D; apply String.eqb_neq; congruence).
    assert (Rr : incl (map fst r) tests).
    { intros y Y. apply (qi_run _ _ _ _ _ I). rewrite P. right. exact Y. }
    pose proof (qi_ids _ _ _ _ _ I) as N.
    assert (P' : Permutation (map t_id (q_waiting q) ++ map run_id (q_running q) ++ q_done q) (t_id t :: map t_id (q_waiting q) ++ map run_id r ++ q_done q)).
    { rewrite P. cbn [map app]. change (run_id (t, _)) with (t_id t). symmetry. apply Permutation_middle. }
    pose proof (Permutation_NoDup P' N) as N'.
    destruct ok; injection S as <-.
    + constructor; cbn [q_waiting q_running q_done q_ended]; try assumption.
      * eapply Permutation_NoDup; [|exact N']. rewrite !app_assoc. apply Permutation_cons_append.
      * apply (qi_wait _ _ _ _ _ I).
      * intros t' T'. destruct (String.eqb (t_id t') (t_id t)) eqn:X.
        -- apply String.eqb_eq in X. rewrite (same_id tests NT t' t T' T X). apply (AtDone _ _ _ _ _ c ws); auto.
           ++ cbn [q_done]. apply in_or_app. right. left. reflexivity.
           ++ rewrite console_about, String.eqb_refl. unfold console_of in C. rewrite C, app_assoc. reflexivity.
        -- apply String.eqb_neq in X. frame I (QExit (t_id t) true) t' T'; cbn [q_waiting q_running q_done q_ended ev_id]; auto; try congruence.
           ++ intros k K. exact (running_other _ _ _ _ _ P K X).
           ++ intros K. apply in_or_app. left. exact K.
           ++ rewrite console_about, (Neqb _ X), app_nil_r. reflexivity.
      * discriminate.
    + constructor; cbn [q_waiting q_running q_done q_ended]; try assumption.
      * inversion N'; assumption.
      * apply (qi_wait _ _ _ _ _ I).
      * intros t' T'. destruct (String.eqb (t_id t') (t_id t)) eqn:X.
        -- apply String.eqb_eq in X. rewrite (same_id tests NT t' t T' T X). apply (AtFailed _ _ _ _ _ c ws); auto.
           rewrite console_about, String.eqb_refl. unfold console_of in C. rewrite C, app_assoc. reflexivity.
        -- apply String.eqb_neq in X. frame I (QExit (t_id t) false) t' T'; cbn [q_waiting q_running q_done q_ended ev_id]; auto; try congruence.
           ++ intros k K. exact (running_other _ _ _ _ _ P K X).
           ++ rewrite console_about, (Neqb _ X), app_nil_r. reflexivity.
      * intros _. exists t. split; [exact T|]. right. apply in_or_app. right. left. reflexivity.
Qed.
Lemma QInv_exec w lv other tests users qs : NoDup (map t_id tests) -> forall q, qexec w lv other (q_init tests users) qs = Some q ->
  QInv lv other tests q qs.
Proof.
  intros NT. induction qs as [|ev qs IH] using rev_ind; intros q H.
  - cbn in H. injection H as <-. apply QInv_init. exact NT.
  - rewrite qexec_app in H. destruct (qexec w lv other (q_init tests users) qs) as [q1|]; [|discriminate]. cbn [qexec] in H.
    destruct (qstep w lv other q1 ev) as [q2|] eqn:S; [|discriminate]. injection H as <-. exact (QInv_step _ _ _ _ _ _ _ _ NT (IH q1 eq_refl) S).
Qed.
