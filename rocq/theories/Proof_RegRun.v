(** What gets registered; the execution of the graph. *)
From Verif Require Import Prelude Proof_Prelude Model_Command Model_Reg Spec_Reg Proof_Reg.

(** ** Conditions *)

Definition extends (s s' : rstate) (b : list string) (d : edges) (t : list (string * (string * list (string * string)))) (c : list string) : Prop :=
  forall r, rs_inst s = Some r ->
    s' = RS (Some (REG (rg_built r ++ b) (rg_edges r ++ d) (rg_tests r ++ t))) (rs_calls s ++ c).

Lemma extends_trans s1 s2 s3 b d t c b' d' t' c' :
  extends s1 s2 b d t c -> extends s2 s3 b' d' t' c' -> extends s1 s3 (b ++ b') (d ++ d') (t ++ t') (c ++ c').
Proof. intros A B r E. specialize (A r E). subst s2. specialize (B _ eq_refl). subst s3. cbn. rewrite <- !app_assoc. reflexivity. Qed.
Lemma extends_refl s : extends s s [] [] [] [].
Proof. intros r E. destruct s as [i c]. cbn in *. subst i. destruct r; cbn. rewrite !app_nil_r. reflexivity. Qed.
Lemma extends_log s n : extends s (log_call s n) [] [] [] [n].
Proof. intros r E. unfold log_call. rewrite E. destruct r; cbn. rewrite !app_nil_r. reflexivity. Qed.
Lemma extends_some s s' b d t c r : extends s s' b d t c -> rs_inst s = Some r -> exists r', rs_inst s' = Some r'.
Proof. intros A E. rewrite (A r E). cbn. eauto. Qed.

Lemma run_list_asked n l :
  Forall (fun a => forall s s' r, stays_up a = true -> rs_inst s = Some r -> run_api n a s = RDone s' ->
     extends s s' (asked_builds a) (asked_deps a) (asked_tests a) (asked_calls a)) l ->
  forall s s' r, forallb stays_up l = true -> rs_inst s = Some r -> run_apis n l s = RDone s' ->
     extends s s' (flat_map asked_builds l) (flat_map asked_deps l) (flat_map asked_tests l) (flat_map asked_calls l).
Proof.
  induction 1 as [|a l Ha _ IH]; intros s s' r U E X; cbn [run_apis flat_map forallb] in *.
  - injection X as <-. apply extends_refl.
  - apply andb_true_iff in U as [U1 U2]. destruct (run_api n a s) as [s1| |] eqn:X1; cbn [rbind] in X; try discriminate.
    specialize (Ha s s1 r U1 E X1). destruct (extends_some _ _ _ _ _ _ _ Ha E) as (r1 & E1).
    exact (extends_trans _ _ _ _ _ _ _ _ _ _ _ Ha (IH s1 s' r1 U2 E1 X)).
Qed.

Lemma run_api_asked n a : forall s s' r, stays_up a = true -> rs_inst s = Some r -> run_api n a s = RDone s' ->
  extends s s' (asked_builds a) (asked_deps a) (asked_tests a) (asked_calls a).
Proof.
  induction a using api_rect'; intros s s' r U E X; rewrite run_api_eq in X; unfold with_inst in X; rewrite ?E in X;
    cbn [asked_builds asked_deps asked_tests asked_calls stays_up] in *.
  - injection X as <-. apply extends_refl.
  - discriminate.
  - destruct (enabled h); [|injection X as <-; apply extends_refl].
    pose proof (run_list_asked n body H (log_call s n0) s' r U E X) as K.
    exact (extends_trans _ _ _ _ _ _ _ _ _ _ _ (extends_log s n0) K).
  - destruct (enabled h); [|injection X as <-; apply extends_refl].
    destruct (run_apis n body (log_call s n0)) as [s1| |] eqn:X1; cbn [rbind] in X; try discriminate.
    pose proof (run_list_asked n body H (log_call s n0) s1 r U E X1) as K.
    pose proof (extends_trans _ _ _ _ _ _ _ _ _ _ _ (extends_log s n0) K) as K'. cbn [app] in K'.
    destruct (extends_some _ _ _ _ _ _ _ K' E) as (r1 & E1).
    unfold build_store, with_inst in X. rewrite E1 in X. destruct (mem_str i (rg_built r1)); [discriminate|]. injection X as <-.
    intros r2 E2. specialize (K' r2 E2). subst s1. cbn in E1. injection E1 as <-. cbn. rewrite app_assoc. reflexivity.
  - destruct b; [|injection X as <-; apply extends_refl]. unfold instance_dep, with_inst in X. rewrite E in X.
    destruct (negb _); [discriminate|]. destruct (dep_duplicate _ _ _); [discriminate|].
    destruct (dep_search _ _ _ _) as [[|]|]; try discriminate. injection X as <-.
    intros r2 E2. rewrite E in E2. injection E2 as <-. rewrite !app_nil_r. reflexivity.
  - destruct b; [|injection X as <-; apply extends_refl]. destruct t; [|injection X as <-; apply extends_refl].
    cbn [andb] in X. unfold instance_test, with_inst in X. rewrite E in X.
    destruct (negb _); [discriminate|]. destruct (mem_str _ _); [discriminate|]. injection X as <-.
    intros r2 E2. rewrite E in E2. injection E2 as <-. rewrite !app_nil_r. reflexivity.
Qed.

Theorem registered_exactly n prog s :
  forallb stays_up prog = true -> run_apis n (AInit true :: prog) rs_init = RDone s ->
  s = RS (Some (REG (flat_map asked_builds prog) (flat_map asked_deps prog) (flat_map asked_tests prog)))
         (flat_map asked_calls prog).
Proof.
  intros U X. cbn [run_apis] in X. rewrite run_api_eq in X. cbn [rs_inst rs_init rbind] in X.
  assert (F : Forall (fun a => forall s s' r, stays_up a = true -> rs_inst s = Some r -> run_api n a s = RDone s' ->
     extends s s' (asked_builds a) (asked_deps a) (asked_tests a) (asked_calls a)) prog).
  { apply Forall_forall. intros a _. apply run_api_asked. }
  exact (run_list_asked n prog F (RS (Some reg_empty) (rs_calls rs_init)) s reg_empty U eq_refl X reg_empty eq_refl).
Qed.

(** Single calls. *)
Theorem toolchain_off n t s r : rs_inst s = Some r ->
  (forall name body, run_api n (AFunc (ViaToolchain false t) name body) s = RDone s) /\
  (forall id name body, run_api n (ABuild (ViaToolchain false t) id name body) s = RDone s) /\
  (forall x y, run_api n (ADep false t x y) s = RDone s) /\
  (forall x c a, run_api n (ATest false t x c a) s = RDone s) /\
  (forall x c a, run_api n (ATest t false x c a) s = RDone s).
Proof.
  intros E. repeat split; intros; rewrite run_api_eq; unfold with_inst; rewrite E; try reflexivity.
  rewrite andb_false_r. reflexivity.
Qed.

Theorem test_decides n s r x c a : rs_inst s = Some r ->
  (In x (rg_built r) /\ ~ In x (map fst (rg_tests r)) ->
     run_api n (ATest true true x c a) s = RDone (RS (Some (REG (rg_built r) (rg_edges r) (rg_tests r ++ [(x, (c, a))]))) (rs_calls s))) /\
  (~ In x (rg_built r) \/ In x (map fst (rg_tests r)) -> run_api n (ATest true true x c a) s = RFatal s).
Proof.
  intros E. rewrite run_api_eq. unfold with_inst at 1 2. rewrite E. cbn [andb]. unfold instance_test, with_inst. rewrite E.
  split.
  - intros [A B]. rewrite (proj2 (mem_str_In _ _) A), (proj2 (mem_str_false _ _) B). reflexivity.
  - intros [A|A].
    + rewrite (proj2 (mem_str_false _ _) A). reflexivity.
    + destruct (negb _); [reflexivity|]. rewrite (proj2 (mem_str_In _ _) A). reflexivity.
Qed.

Theorem unregistered_fatal n s r x y : rs_inst s = Some r -> ~ (In x (rg_built r) /\ In y (rg_built r)) ->
  forall t, run_api n (ADep true t x y) s = RFatal s.
Proof.
  intros E A t. rewrite run_api_eq. unfold with_inst. rewrite E. unfold instance_dep, with_inst. rewrite E.
  destruct (mem_str x (rg_built r)) eqn:X; [|reflexivity]. destruct (mem_str y (rg_built r)) eqn:Y; [|reflexivity].
  apply mem_str_In in X. apply mem_str_In in Y. tauto.
Qed.

Theorem duplicate_build_fatal n s r h id name : rs_inst s = Some r -> enabled h = true -> In id (rg_built r) ->
  run_api n (ABuild h id name []) s = RFatal (log_call s name).
Proof.
  intros E H A. rewrite run_api_eq. unfold with_inst. rewrite E, H. cbn [run_apis rbind].
  unfold build_store, with_inst. cbn [rs_inst log_call]. rewrite E, (proj2 (mem_str_In _ _) A). reflexivity.
Qed.

Theorem uninitialised_fatal n s a : rs_inst s = None ->
  (match a with AInit _ | ADeinit => False | _ => True end) -> run_api n a s = RFatal s.
Proof. intros E A. rewrite run_api_eq. unfold with_inst. rewrite E. destruct a; try destruct A; reflexivity. Qed.

(** ** Self-dependencies *)

Theorem self_dep_accepted n prog r calls t : registers n prog r -> In t (rg_built r) ->
  ~ before (rg_edges r) t t -> no_loop (rg_edges r) ->
  exists N, forall k, N <= k -> instance_dep k (RS (Some r) calls) t t =
    RDone (RS (Some (REG (rg_built r) (rg_edges r ++ [(t, t)]) (rg_tests r))) calls).
Proof.
  intros H It B L. destruct (dep_decides n prog r calls t t H L It It) as (N & K). exists N. intros k Hk.
  apply (K k Hk); [|exact B]. intros E. exact (L t E).
Qed.

Theorem self_dep_hangs r calls t d : In (t, t) (rg_edges r) -> In t (rg_built r) -> In d (rg_built r) ->
  ~ In (d, t) (rg_edges r) -> ~ before (rg_edges r) t d ->
  forall k, instance_dep k (RS (Some r) calls) t d = RFuel.
Proof.
  intros L It Id D B k. unfold instance_dep, with_inst. cbn [rs_inst rs_calls].
  rewrite (proj2 (mem_str_In _ _) It), (proj2 (mem_str_In _ _) Id). cbn [andb negb].
  unfold dep_duplicate. rewrite (proj2 (mem_str_false _ _)) by (rewrite in_preds; exact D).
  rewrite (search_hangs (rg_edges r) d t L); [reflexivity| |left; reflexivity|].
  - intros x Bx ->. exact (B Bx).
  - intros x [<-|[]]. left. reflexivity.
Qed.

(** ** Execution *)

Lemma starts_app a b : starts (a ++ b) = starts a ++ starts b.
Proof. apply flat_map_app. Qed.
Lemma finishes_app a b : finishes (a ++ b) = finishes a ++ finishes b.
Proof. apply flat_map_app. Qed.
Lemma started_iff l id : started l id = true <-> In id (starts l).
Proof.
  unfold started, starts. rewrite existsb_exists, in_flat_map. split; intros (ev & A & B); exists ev; (split; [exact A|]); destruct ev; try discriminate.
  - apply String.eqb_eq in B. left. exact B.
  - destruct B as [->|[]]. apply String.eqb_refl.
  - destruct B.
Qed.

(** Edges into [x] from builders that have not finished. *)
Definition waiting (g : edges) (fin : list string) (x : string) : nat :=
  length (filter (fun e => String.eqb (snd e) x && negb (mem_str (fst e) fin)) g).

Lemma waiting_init g x : waiting g [] x = length (preds g x).
Proof.
  unfold waiting, preds. rewrite map_length. f_equal. apply filter_ext. intros e. rewrite andb_true_r. reflexivity.
Qed.

Lemma count_succs g id x : count_str x (succs g id) = length (filter (fun e => String.eqb (snd e) x && String.eqb (fst e) id) g).
Proof.
  unfold count_str, succs. induction g as [|[a b] g IH]; [reflexivity|]. cbn [filter fst snd map].
  destruct (String.eqb_spec a id) as [->|Na]; cbn [map filter fst snd].
  - rewrite (String.eqb_sym b x), andb_true_r. destruct (String.eqb x b); cbn [length]; congruence.
  - rewrite andb_false_r. exact IH.
Qed.

Lemma waiting_step g fin id x : ~ In id fin -> waiting g (fin ++ [id]) x = waiting g fin x - count_str x (succs g id).
Proof.
  intros N. rewrite count_succs. unfold waiting.
  assert (K : length (filter (fun e => String.eqb (snd e) x && negb (mem_str (fst e) fin)) g) =
    length (filter (fun e => String.eqb (snd e) x && String.eqb (fst e) id) g) +
    length (filter (fun e => String.eqb (snd e) x && negb (mem_str (fst e) (fin ++ [id]))) g)).
  { induction g as [|[a b] g IH]; [reflexivity|]. cbn [filter fst snd].
    assert (M : mem_str a (fin ++ [id]) = mem_str a fin || String.eqb a id).
    { unfold mem_str. rewrite existsb_app. cbn. rewrite orb_false_r. reflexivity. }
    rewrite M. destruct (String.eqb b x); cbn [andb]; [|exact IH].
    destruct (String.eqb_spec a id) as [->|Na].
    - rewrite (proj2 (mem_str_false _ _) N). cbn [negb orb length]. lia.
    - rewrite orb_false_r. destruct (negb (mem_str a fin)); cbn [length]; lia. }
  lia.
Qed.

Lemma waiting_zero g fin x : waiting g fin x = 0 <-> forall d, In (d, x) g -> In d fin.
Proof.
  unfold waiting. split.
  - intros H d Hd. destruct (mem_str d fin) eqn:M; [apply mem_str_In; exact M|].
    assert (K : In (d, x) (filter (fun e => String.eqb (snd e) x && negb (mem_str (fst e) fin)) g)).
    { apply filter_In. split; [exact Hd|]. cbn. rewrite String.eqb_refl, M. reflexivity. }
    destruct (filter _ g); [destruct K|discriminate].
  - intros H. destruct (filter _ g) as [|[a b] l] eqn:E; [reflexivity|].
    assert (K : In (a, b) (filter (fun e => String.eqb (snd e) x && negb (mem_str (fst e) fin)) g)) by (rewrite E; left; reflexivity).
    apply filter_In in K as [K1 K2]. cbn in K2. apply andb_true_iff in K2 as [K2 K3]. apply String.eqb_eq in K2. subst b.
    apply H in K1. apply (proj2 (mem_str_In _ _)) in K1. rewrite K1 in K3. discriminate.
Qed.

Lemma remove_one_perm x l : In x l -> Permutation l (x :: remove_one x l).
Proof.
  induction l as [|y l IH]; [intros []|]. intros H. cbn [remove_one]. destruct (String.eqb_spec x y) as [->|N]; [reflexivity|].
  destruct H as [->|H]; [congruence|]. rewrite (IH H) at 1. apply perm_swap.
Qed.

Record XInv (w : nat) (built : list string) (g : edges) (s : xstate) : Prop := {
  xi_count : forall x, x_count s x = waiting g (finishes (x_log s)) x;
  xi_running : Permutation (starts (x_log s)) (x_running s ++ finishes (x_log s));
  xi_nodup : NoDup (starts (x_log s));
  xi_built : incl (starts (x_log s)) built;
  xi_order : forall l1 t l2, x_log s = l1 ++ XStart t :: l2 -> forall d, In (d, t) g -> In d (finishes l1) }.

Lemma XInv_init w built g : XInv w built g (x_init g).
Proof.
  constructor; cbn [x_init x_count x_running x_log starts finishes flat_map app].
  - intros x. symmetry. apply waiting_init.
  - constructor.
  - constructor.
  - intros x [].
  - intros l1 t l2 K. destruct l1; discriminate.
Qed.

Lemma snoc_split {A} (l : list A) x l1 y l2 : l ++ [x] = l1 ++ y :: l2 ->
  (l2 = [] /\ l1 = l /\ x = y) \/ (exists l2', l2 = l2' ++ [x] /\ l = l1 ++ y :: l2').
Proof.
  intros H. destruct l2 as [|z l2] using rev_ind.
  - left. apply app_inj_tail in H as [-> ->]. auto.
  - right. clear IHl2. rewrite app_comm_cons, app_assoc in H. apply app_inj_tail in H as [-> ->]. eauto.
Qed.

Lemma XInv_step w built g s ev s' : XInv w built g s -> xstep w built g s ev = Some s' -> XInv w built g s'.
Proof.
  intros [C R N B O] S. destruct ev as [id|id ok]; cbn [xstep] in S.
  - destruct (_ && _) eqn:E in S; [|discriminate]. injection S as <-. rewrite !andb_true_iff in E. destruct E as [[[E1 E2] E3] E4].
    apply mem_str_In in E1. apply Nat.eqb_eq in E2. apply negb_true_iff in E3.
    assert (E3' : ~ In id (starts (x_log s))) by (rewrite <- started_iff; congruence).
    constructor; cbn [x_count x_running x_log]; rewrite ?starts_app, ?finishes_app; cbn [starts finishes flat_map app]; rewrite ?app_nil_r.
    + exact C.
    + rewrite <- Permutation_cons_append. constructor. exact R.
    + apply NoDup_snoc; assumption.
    + intros x Hx. apply in_app_or in Hx as [Hx|[<-|[]]]; [exact (B x Hx)|exact E1].
    + intros l1 t l2 K d Hd. apply snoc_split in K as [(-> & -> & K)|(l2' & -> & K)].
      * injection K as <-. rewrite C in E2. exact (proj1 (waiting_zero _ _ _) E2 d Hd).
      * exact (O l1 t l2' K d Hd).
  - destruct (mem_str id (x_running s)) eqn:E; [|discriminate]. injection S as <-. apply mem_str_In in E.
    pose proof (remove_one_perm id _ E) as P.
    assert (Nf : ~ In id (finishes (x_log s))).
    { intros K. apply (Permutation_NoDup R) in N. apply (Permutation_NoDup (Permutation_app_tail _ P)) in N. cbn in N. inversion N as [|? ? N1 _]; subst.
      apply N1. apply in_or_app. right. exact K. }
    constructor; cbn [x_count x_running x_log]; rewrite ?starts_app, ?finishes_app; cbn [starts finishes flat_map app]; rewrite ?app_nil_r.
    + intros x. rewrite C. symmetry. apply waiting_step. exact Nf.
    + rewrite app_assoc. apply (Permutation_trans R).
      apply (Permutation_trans (l' := (id :: remove_one id (x_running s)) ++ finishes (x_log s))).
      * apply Permutation_app_tail. exact P.
      * cbn [app]. apply Permutation_cons_append.
    + exact N.
    + exact B.
    + intros l1 t l2 K d Hd. apply snoc_split in K as [(-> & -> & K)|(l2' & -> & K)]; [discriminate|]. exact (O l1 t l2' K d Hd).
Qed.

Lemma XInv_exec w built g evs : forall s s', XInv w built g s -> xexec w built g s evs = Some s' -> XInv w built g s' /\ x_log s' = x_log s ++ evs.
Proof.
  induction evs as [|ev evs IH]; intros s s' I X; cbn [xexec] in X.
  - injection X as <-. rewrite app_nil_r. auto.
  - destruct (xstep w built g s ev) as [s1|] eqn:S; [|discriminate].
    destruct (IH s1 s' (XInv_step _ _ _ _ _ _ I S) X) as [A B]. split; [exact A|]. rewrite B.
    assert (K : x_log s1 = x_log s ++ [ev]).
    { destruct ev; cbn [xstep] in S; destruct (_ : bool) in S; try discriminate; injection S as <-; reflexivity. }
    rewrite K, <- app_assoc. reflexivity.
Qed.

(** Dependencies first. *)
Theorem dependencies_first w built g log s :
  xexec w built g (x_init g) log = Some s ->
  forall l1 t l2, log = l1 ++ XStart t :: l2 -> forall d, before g d t -> In d (finishes l1).
Proof.
  intros X. destruct (XInv_exec _ _ _ _ _ _ (XInv_init w built g) X) as [I L]. cbn in L. destruct I as [C R N B O]. rewrite L in *.
  intros l1 t l2 K d D. revert l1 l2 K. induction D as [d t D|d m t D _ IH]; intros l1 l2 K; [exact (O l1 t l2 K d D)|].
  (* m finished in l1, hence started in l1 *)
  pose proof (IH l1 l2 K) as F.
  assert (P1 : exists s1, xexec w built g (x_init g) l1 = Some s1).
  { rewrite K in X. clear - X. revert X. generalize (x_init g). induction l1 as [|ev l1 IH]; intros s0 X; cbn [xexec app] in *; [eauto|].
    destruct (xstep w built g s0 ev); [|discriminate]. exact (IH _ X). }
  destruct P1 as (s1 & X1). destruct (XInv_exec _ _ _ _ _ _ (XInv_init w built g) X1) as [[C1 R1 N1 B1 O1] L1]. cbn in L1.
  rewrite L1 in *.
  assert (S1 : In m (starts l1)) by (rewrite R1; apply in_or_app; right; exact F).
  unfold starts in S1. apply in_flat_map in S1 as (ev & E1 & E2). destruct ev as [i|]; [|destruct E2]. destruct E2 as [->|[]].
  apply in_split in E1 as (la & lb & ->). specialize (O1 la m lb eq_refl d D). rewrite finishes_app. apply in_or_app. left. exact O1.
Qed.

Theorem executed_once w built g log s :
  xexec w built g (x_init g) log = Some s ->
  NoDup (starts log) /\ NoDup (finishes log) /\ incl (starts log) built.
Proof.
  intros X. destruct (XInv_exec _ _ _ _ _ _ (XInv_init w built g) X) as [[C R N B O] L]. cbn in L. rewrite L in *.
  split; [exact N|]. split; [|exact B]. apply (Permutation_NoDup R) in N.
  rewrite Permutation_app_comm in N. revert N. generalize (finishes log), (x_running s). intros a b. clear.
  induction a as [|x a IH]; cbn; intros N; [constructor|]. inversion N as [|? ? A B]; subst. constructor; [|exact (IH B)].
  intros K. apply A. apply in_or_app. left. exact K.
Qed.

(** A finite nonempty set of an acyclic graph has an element without
    predecessor in the set. *)
Lemma source_exists g : (forall x, ~ before g x x) -> forall l, l <> [] ->
  exists x, In x l /\ forall d, In (d, x) g -> ~ In d l.
Proof.
  intros A l Ne. destruct l as [|x0 l0]; [congruence|]. set (l := x0 :: l0).
  assert (K : forall n x p, In x l -> walk g x p -> length g - length p <= n -> exists y, In y l /\ forall d, In (d, y) g -> ~ In d l).
  { induction n as [|n IH]; intros x p Hx W Hn.
    - destruct (existsb (fun d => mem_str d l) (preds g x)) eqn:E.
      + apply existsb_exists in E as (d & E1 & E2). apply in_preds in E1. apply mem_str_In in E2.
        pose proof (walk_bound g A (x :: p) d (walk_cons _ _ _ _ E1 W)) as Bd. cbn in Bd. lia.
      + exists x. split; [exact Hx|]. intros d Hd Hl.
        assert (T : existsb (fun d => mem_str d l) (preds g x) = true).
        { apply existsb_exists. exists d. split; [apply in_preds; exact Hd|apply mem_str_In; exact Hl]. }
        congruence.
    - destruct (existsb (fun d => mem_str d l) (preds g x)) eqn:E.
      + apply existsb_exists in E as (d & E1 & E2). apply in_preds in E1. apply mem_str_In in E2.
        apply (IH d (x :: p) E2); [constructor; assumption|]. cbn. lia.
      + exists x. split; [exact Hx|]. intros d Hd Hl.
        assert (T : existsb (fun d => mem_str d l) (preds g x) = true).
        { apply existsb_exists. exists d. split; [apply in_preds; exact Hd|apply mem_str_In; exact Hl]. }
        congruence. }
  apply (K (length g) x0 []); [left; reflexivity|constructor|lia].
Qed.

Theorem everything_executed n prog r w log : registers n prog r -> no_loop (rg_edges r) -> 0 < w ->
  executes w r log -> Permutation (finishes log) (rg_built r) /\ Permutation (starts log) (rg_built r).
Proof.
  intros H L W (s & X & Ov). pose proof (registers_ok _ _ _ H) as RO.
  destruct (executed_once _ _ _ _ _ X) as (N1 & N2 & N3).
  destruct (XInv_exec _ _ _ _ _ _ (XInv_init _ _ _) X) as [[C R N B O] Lg]. cbn in Lg. rewrite Lg in *.
  assert (Rn : x_running s = []).
  { destruct (x_running s) as [|x l] eqn:E; [reflexivity|]. specialize (Ov (XFinish x true)). cbn [xstep] in Ov.
    rewrite E in Ov. cbn [mem_str existsb] in Ov. rewrite String.eqb_refl in Ov. discriminate. }
  rewrite Rn in R. cbn [app] in R.
  assert (All : incl (rg_built r) (finishes log)).
  { set (rest := filter (fun x => negb (mem_str x (finishes log))) (rg_built r)).
    destruct rest as [|y l] eqn:Er.
    - intros x Hx. destruct (mem_str x (finishes log)) eqn:M; [apply mem_str_In; exact M|].
      assert (K : In x rest) by (apply filter_In; split; [exact Hx|rewrite M; reflexivity]). rewrite Er in K. destruct K.
    - exfalso. destruct (source_exists (rg_edges r) (fun x => acyclic_self _ x (ro_cycle _ RO) L) rest) as (x & Hx & Sx); [rewrite Er; discriminate|].
      apply filter_In in Hx as [Hb Hf]. apply negb_true_iff in Hf. apply mem_str_false in Hf.
      specialize (Ov (XStart x)). cbn [xstep] in Ov. rewrite (proj2 (mem_str_In _ _) Hb) in Ov.
      assert (Z : x_count s x = 0).
      { rewrite C. apply waiting_zero. intros d Hd. destruct (mem_str d (finishes log)) eqn:M; [apply mem_str_In; exact M|].
        exfalso. apply (Sx d Hd). apply filter_In. split; [exact (proj1 (ro_ends _ RO d x Hd))|rewrite M; reflexivity]. }
      rewrite Z in Ov. cbn [andb Nat.eqb] in Ov.
      assert (Ns : started (x_log s) x = false).
      { destruct (started (x_log s) x) eqn:St; [|reflexivity]. apply started_iff in St. rewrite Lg in St. rewrite R in St. contradiction. }
      rewrite Ns, Rn in Ov. cbn [negb length andb] in Ov. destruct (Nat.ltb_spec 0 w); [discriminate|lia]. }
  assert (P : Permutation (finishes log) (rg_built r)).
  { apply NoDup_Permutation; [exact N2|exact (ro_nodup _ RO)|]. intros x. split; intros K; [|exact (All x K)].
    apply N3. rewrite R. exact K. }
  split; [exact P|]. rewrite R. exact P.
Qed.

(** A builder that depends on itself, and everything that depends on it, is never executed. *)
Theorem self_dep_not_executed w r log s t : In (t, t) (rg_edges r) ->
  xexec w (rg_built r) (rg_edges r) (x_init (rg_edges r)) log = Some s -> ~ In t (starts log).
Proof.
  intros L X K. unfold starts in K. apply in_flat_map in K as (ev & E1 & E2). destruct ev as [i|]; [|destruct E2]. destruct E2 as [->|[]].
  apply in_split in E1 as (l1 & l2 & ->).
  pose proof (dependencies_first _ _ _ _ _ X l1 t l2 eq_refl t (before_edge _ _ _ L)) as F.
  destruct (executed_once _ _ _ _ _ X) as (N1 & _). rewrite starts_app in N1. cbn [starts flat_map app] in N1.
  apply NoDup_remove_2 in N1. apply N1. apply in_or_app. left.
  assert (P1 : exists s1, xexec w (rg_built r) (rg_edges r) (x_init (rg_edges r)) l1 = Some s1).
  { clear - X. revert X. generalize (x_init (rg_edges r)). induction l1 as [|ev l1 IH]; intros s0 X; cbn [xexec app] in *; [eauto|].
    destruct (xstep _ _ _ s0 ev); [|discriminate]. exact (IH _ X). }
  destruct P1 as (s1 & X1). destruct (XInv_exec _ _ _ _ _ _ (XInv_init _ _ _) X1) as [[C1 R1 _ _ _] L1]. cbn in L1. rewrite L1 in R1.
  apply (Permutation_in t (Permutation_sym R1)). apply in_or_app. right. exact F.
Qed.

(** ** Every execution can be completed, in a bounded number of steps *)

Lemma over_dec w built g s : x_over w built g s \/ exists ev s', xstep w built g s ev = Some s'.
Proof.
  pose (f := fun ev => match xstep w built g s ev with Some _ => true | None => false end).
  destruct (existsb f (map XStart built ++ map (fun x => XFinish x true) (x_running s))) eqn:E.
  - right. apply existsb_exists in E as (ev & _ & E). unfold f in E. destruct (xstep w built g s ev) as [s'|] eqn:S; [eauto|discriminate].
  - left. assert (G : forall ev, In ev (map XStart built ++ map (fun x => XFinish x true) (x_running s)) -> xstep w built g s ev = None).
    { intros ev H. destruct (xstep w built g s ev) eqn:S; [|reflexivity].
      assert (K : existsb f (map XStart built ++ map (fun x => XFinish x true) (x_running s)) = true).
      { apply existsb_exists. exists ev. split; [exact H|]. unfold f. rewrite S. reflexivity. }
      congruence. }
    intros [id|id ok].
    + destruct (mem_str id built) eqn:M.
      * apply G. apply in_or_app. left. apply in_map. apply mem_str_In. exact M.
      * cbn [xstep]. rewrite M. reflexivity.
    + cbn [xstep]. destruct (mem_str id (x_running s)) eqn:M; [|reflexivity].
      assert (K : xstep w built g s (XFinish id true) = None).
      { apply G. apply in_or_app. right. apply mem_str_In in M. apply (in_map (fun x => XFinish x true)) in M. exact M. }
      cbn [xstep] in K. rewrite M in K. discriminate.
Qed.

Lemma log_length l : length l = length (starts l) + length (finishes l).
Proof. induction l as [|[i|i b] l IH]; cbn; [reflexivity| |]; unfold starts, finishes in *; lia. Qed.

Theorem execution_bounded w built g log s :
  xexec w built g (x_init g) log = Some s -> length log <= 2 * length built.
Proof.
  intros X. destruct (executed_once _ _ _ _ _ X) as (N1 & N2 & N3).
  destruct (XInv_exec _ _ _ _ _ _ (XInv_init w built g) X) as [[C R N B O] L]. cbn in L. rewrite L in *.
  rewrite log_length. pose proof (NoDup_incl_length N1 N3). pose proof (Permutation_length R) as P. rewrite app_length in P. lia.
Qed.

Lemma xexec_app w built g a b : forall s, xexec w built g s (a ++ b) = match xexec w built g s a with Some s' => xexec w built g s' b | None => None end.
Proof. induction a as [|ev a IH]; intros s; cbn [xexec app]; [reflexivity|]. destruct (xstep w built g s ev); [apply IH|reflexivity]. Qed.

Theorem execution_completes w r log s :
  xexec w (rg_built r) (rg_edges r) (x_init (rg_edges r)) log = Some s ->
  exists more, executes w r (log ++ more).
Proof.
  intros X. remember (2 * length (rg_built r) - length log) as k eqn:Ek. revert log s X Ek.
  induction k as [k IH] using lt_wf_ind. intros log s X Ek.
  destruct (over_dec w (rg_built r) (rg_edges r) s) as [Ov|(ev & s' & S)].
  - exists []. rewrite app_nil_r. exists s. auto.
  - assert (X' : xexec w (rg_built r) (rg_edges r) (x_init (rg_edges r)) (log ++ [ev]) = Some s').
    { rewrite xexec_app, X. cbn [xexec]. rewrite S. reflexivity. }
    pose proof (execution_bounded _ _ _ _ _ X') as B. rewrite app_length in B. cbn [length] in B.
    destruct (IH (2 * length (rg_built r) - length (log ++ [ev]))) with (log := log ++ [ev]) (s := s') as (more & M).
    + rewrite app_length. cbn [length]. lia.
    + exact X'.
    + reflexivity.
    + exists (ev :: more). rewrite <- app_assoc in M. exact M.
Qed.

(** ** Reg::Run *)

Lemma run_tests_done other exe res l : forall done x, run_tests other exe res l done = RunDone x -> x = done ++ map fst l.
Proof.
  induction l as [|[id [c a]] l IH]; intros done x H; cbn [run_tests map fst] in *.
  - injection H as <-. rewrite app_nil_r. reflexivity.
  - destruct (test_text _ _ _ _ _); try discriminate. destruct (_ && _); [|discriminate]. apply IH in H. rewrite <- app_assoc in H. exact H.
Qed.
Lemma run_tests_cases other exe res l : forall done, run_tests other exe res l done <> RunFatalBuild.
Proof.
  induction l as [|[id [c a]] l IH]; intros done; cbn [run_tests]; [discriminate|].
  destruct (test_text _ _ _ _ _); try discriminate. destruct (_ && _); [apply IH|discriminate].
Qed.

Lemma run_tests_all other exe res l : forall done tests, run_tests other exe res l done = RunDone tests ->
  forall id cmd args, In (id, (cmd, args)) l -> exists c, test_text other id (exe id) cmd args = Some c /\ c <> "" /\ res c = true.
Proof.
  induction l as [|[i [c0 a0]] l IH]; intros done tests E id cmd args K; [destruct K|]. cbn [run_tests] in E. destruct K as [K|K].
  - injection K as -> -> ->. destruct (test_text other id (exe id) cmd args) as [c|]; try discriminate.
    destruct (negb (String.eqb c "") && res c) eqn:B; [|discriminate]. apply andb_true_iff in B as [B1 B2].
    exists c. repeat split; [|exact B2]. intros ->. discriminate.
  - destruct (test_text other i (exe i) c0 a0) as [c|]; try discriminate. destruct (_ && _); [|discriminate].
    exact (IH _ _ E _ _ _ K).
Qed.

Theorem run_reports n prog r w other log exe res ord : registers n prog r -> no_loop (rg_edges r) -> 0 < w ->
  executes w r log -> Permutation ord (rg_tests r) ->
  (forall tests, reg_run other log exe res ord = RunDone tests ->
     Permutation tests (map fst (rg_tests r)) /\ (forall id, In id (rg_built r) -> In (XFinish id true) log) /\
     (forall id cmd args, In (id, (cmd, args)) (rg_tests r) ->
        exists c, test_text other id (exe id) cmd args = Some c /\ c <> "" /\ res c = true)) /\
  (reg_run other log exe res ord = RunFatalBuild <-> exists id, In (XFinish id false) log).
Proof.
  intros H L W X P. destruct (everything_executed _ _ _ _ _ H L W X) as [F _]. split.
  - intros tests E. unfold reg_run in E. destruct (build_succeeded log) eqn:Bs; [|discriminate].
    pose proof (run_tests_all _ _ _ _ _ _ E) as A. apply run_tests_done in E. cbn [app] in E. subst tests.
    split; [apply Permutation_map; exact P|]. split; [|intros id cmd args Hi; apply A; exact (Permutation_in _ (Permutation_sym P) Hi)].
    intros id Hi. apply (Permutation_in id (Permutation_sym F)) in Hi. unfold finishes in Hi. apply in_flat_map in Hi as (ev & E1 & E2).
    destruct ev as [|i ok]; [destruct E2|]. destruct E2 as [->|[]].
    unfold build_succeeded in Bs. rewrite forallb_forall in Bs. specialize (Bs _ E1). cbn in Bs. subst ok. exact E1.
  - unfold reg_run. destruct (build_succeeded log) eqn:Bs; unfold build_succeeded in Bs.
    + split; [intros K; destruct (run_tests_cases _ _ _ _ _ K)|]. intros (id & K). rewrite forallb_forall in Bs. specialize (Bs _ K). discriminate.
    + split; [intros _|reflexivity]. clear - Bs. induction log as [|ev log IH]; [discriminate|]. cbn [forallb] in Bs.
      apply andb_false_iff in Bs as [Bs|Bs].
      * destruct ev as [|i ok]; [discriminate|]. subst ok. exists i. left. reflexivity.
      * destruct (IH Bs) as (i & K). exists i. right. exact K.
Qed.
