(** Proofs about registration and execution of the dependency graph. *)
From Verif Require Import Prelude Proof_Prelude Model_Command Model_Reg Spec_Reg.

(** ** Graph *)

Lemma in_succs g x y : In y (succs g x) <-> In (x, y) g.
Proof.
  unfold succs. rewrite in_map_iff. split.
  - intros ([a b] & <- & H). apply filter_In in H as [H E]. cbn in E. apply String.eqb_eq in E. subst a. exact H.
  - intros H. exists (x, y). split; [reflexivity|]. apply filter_In. split; [exact H|]. cbn. apply String.eqb_refl.
Qed.
Lemma in_preds g x y : In y (preds g x) <-> In (y, x) g.
Proof.
  unfold preds. rewrite in_map_iff. split.
  - intros ([a b] & <- & H). apply filter_In in H as [H E]. cbn in E. apply String.eqb_eq in E. subst b. exact H.
  - intros H. exists (y, x). split; [reflexivity|]. apply filter_In. split; [exact H|]. cbn. apply String.eqb_refl.
Qed.

Lemma before_trans g x y z : before g x y -> before g y z -> before g x z.
Proof. induction 1; intros; [eapply before_step; eassumption|eapply before_step; eauto]. Qed.
Lemma before_mono g g' x y : incl g g' -> before g x y -> before g' x y.
Proof. intros I. induction 1; [apply before_edge; auto|eapply before_step; eauto]. Qed.

Lemma before_snoc g d t x y :
  before (g ++ [(d, t)]) x y -> before g x y \/ ((x = d \/ before g x d) /\ (t = y \/ before g t y)).
Proof.
  induction 1 as [x y H|x m y H _ IH].
  - apply in_app_or in H as [H|[H|[]]]; [left; apply before_edge; exact H|]. injection H as <- <-. right. auto.
  - apply in_app_or in H as [H|[H|[]]].
    + destruct IH as [IH|[IH1 IH2]]; [left; eapply before_step; eassumption|]. right. split; [|exact IH2]. right.
      destruct IH1 as [<-|IH1]; [apply before_edge; exact H|eapply before_step; eassumption].
    + injection H as <- <-. right. split; [left; reflexivity|]. destruct IH as [IH|[_ IH]]; auto.
Qed.

Definition no_cycle (g : edges) : Prop := forall x y, x <> y -> before g x y -> before g y x -> False.
Definition no_loop (g : edges) : Prop := forall x, ~ In (x, x) g.

Lemma no_cycle_nil : no_cycle [].
Proof. intros x y _ H _. destruct H; contradiction. Qed.

Lemma no_cycle_snoc g d t : no_cycle g -> ~ before g t d -> no_cycle (g ++ [(d, t)]).
Proof.
  intros N R x y Ne A B. apply before_snoc in A. apply before_snoc in B.
  destruct (string_dec t d) as [->|Td].
  - assert (K : forall u v, u <> v -> before g u v \/ ((u = d \/ before g u d) /\ (d = v \/ before g d v)) -> before g u v).
    { intros u v Nuv [K|[[->|K1] [<-|K2]]]; auto; [congruence|]. exact (before_trans _ _ _ _ K1 K2). }
    apply (N x y Ne); apply K; auto.
  - assert (T : forall a, (t = a \/ before g t a) -> (a = d \/ before g a d) -> False).
    { intros a [<-|K1] [<-|K2]; auto. apply R. exact (before_trans _ _ _ _ K1 K2). }
    destruct A as [A|[A1 A2]], B as [B|[B1 B2]].
    + exact (N x y Ne A B).
    + apply (T y); auto. destruct B2 as [<-|B2]; right; [exact A|exact (before_trans _ _ _ _ B2 A)].
    + apply (T x); auto. destruct A2 as [<-|A2]; right; [exact B|exact (before_trans _ _ _ _ A2 B)].
    + exact (T y A2 B1).
Qed.

(** A loop-free graph without cycles is acyclic. *)
Lemma acyclic_self g x : no_cycle g -> no_loop g -> ~ before g x x.
Proof.
  intros N L H. inversion H as [? ? E|? m ? E K]; subst; [exact (L _ E)|].
  destruct (string_dec x m) as [->|Ne]; [exact (L _ E)|]. apply (N x m Ne); [apply before_edge; exact E|exact K].
Qed.

(** ** The search *)

Lemma search_found n g m : forall q, dep_search n g q m = Some true -> exists x, In x q /\ before g x m.
Proof.
  induction n as [|n IH]; intros q H; cbn [dep_search] in H; [discriminate|]. destruct q as [|c q]; [discriminate|].
  destruct (mem_str m (succs g c)) eqn:E.
  - exists c. split; [left; reflexivity|]. apply before_edge. apply in_succs. apply mem_str_In. exact E.
  - destruct (IH _ H) as (x & Hx & B). apply in_app_or in Hx as [Hx|Hx]; [exists x; split; [right|]; assumption|].
    exists c. split; [left; reflexivity|]. eapply before_step; [apply in_succs; exact Hx|exact B].
Qed.

Lemma search_not_found n g m : forall q, dep_search n g q m = Some false -> forall x, In x q -> ~ before g x m.
Proof.
  induction n as [|n IH]; intros q H x Hx B; cbn [dep_search] in H; [discriminate|]. destruct q as [|c q]; [destruct Hx|].
  destruct (mem_str m (succs g c)) eqn:E; [discriminate|]. specialize (IH _ H). destruct Hx as [->|Hx].
  - inversion B as [? ? K|? y ? K B']; subst.
    + apply in_succs in K. apply (proj2 (mem_str_In _ _)) in K. congruence.
    + apply (IH y); [|exact B']. apply in_or_app. right. apply in_succs. exact K.
  - apply (IH x); [apply in_or_app; left; exact Hx|exact B].
Qed.

Lemma search_mono n g m : forall q b k, dep_search n g q m = Some b -> dep_search (n + k) g q m = Some b.
Proof.
  induction n as [|n IH]; intros q b k H; cbn [dep_search Nat.add] in *; [discriminate|]. destruct q as [|c q]; [exact H|].
  destruct (mem_str m (succs g c)); [exact H|]. apply IH. exact H.
Qed.

(** Termination: walks of a graph without repetitions are bounded. *)
Fixpoint weight (k : nat) (g : edges) (x : string) : nat :=
  match k with
  | 0 => 0
  | S k' => S (list_sum (map (weight k' g) (succs g x)))
  end.
Inductive walk (g : edges) : string -> list string -> Prop :=
| walk_nil x : walk g x []
| walk_cons x y l : In (x, y) g -> walk g y l -> walk g x (y :: l).

Lemma walk_before g : forall l x y, walk g x l -> In y l -> before g x y.
Proof.
  intros l. induction l as [|z l IH]; intros x y W H; [destruct H|]. inversion W; subst. destruct H as [->|H].
  - apply before_edge. assumption.
  - eapply before_step; [eassumption|]. apply IH; assumption.
Qed.
Lemma walk_nodup g : (forall x, ~ before g x x) -> forall l x, walk g x l -> NoDup (x :: l).
Proof.
  intros A l. induction l as [|z l IH]; intros x W; [repeat constructor; intros []|].
  constructor; [|inversion W; subst; apply IH; assumption]. intros H. exact (A x (walk_before g _ _ _ W H)).
Qed.
Lemma walk_bound g : (forall x, ~ before g x x) -> forall l x, walk g x l -> length l <= length g.
Proof.
  intros A l x W. pose proof (walk_nodup g A l x W) as ND. inversion ND as [|? ? _ ND']; subst.
  rewrite <- (map_length snd g). apply NoDup_incl_length; [exact ND'|]. clear ND ND'.
  revert x W. induction l as [|z l IH]; intros x W y Hy; [destruct Hy|]. inversion W; subst. destruct Hy as [->|Hy].
  - apply in_map_iff. exists (x, y). auto.
  - exact (IH _ H3 y Hy).
Qed.

Lemma weight_stable g k : forall x, (forall l, walk g x l -> length l < k) -> weight (S k) g x = weight k g x.
Proof.
  induction k as [|k IH]; intros x B.
  - specialize (B [] (walk_nil _ _)). cbn in B. lia.
  - cbn [weight]. do 2 f_equal. apply map_ext_in. intros y Hy. apply IH. intros l W.
    assert (K : length (y :: l) < S k) by (apply B; constructor; [apply in_succs; exact Hy|exact W]). cbn in K. lia.
Qed.

Lemma search_terminates g m : (forall x, ~ before g x x) ->
  forall q, exists n b, dep_search n g q m = Some b.
Proof.
  intros A q. pose (W := weight (S (length g)) g).
  assert (E : forall x, W x = S (list_sum (map W (succs g x)))).
  { intros x. unfold W at 1. cbn [weight]. do 2 f_equal. apply map_ext_in. intros y Hy. symmetry. apply weight_stable.
    intros l Wl. assert (K : length (y :: l) <= length g).
    { apply (walk_bound g A _ x). constructor; [apply in_succs; exact Hy|exact Wl]. }
    cbn in K. lia. }
  assert (G : forall k q, list_sum (map W q) < k -> exists b, dep_search k g q m = Some b).
  { induction k as [|k IH]; intros q' H; [lia|]. cbn [dep_search]. destruct q' as [|c q']; [eauto|].
    destruct (mem_str m (succs g c)); [eauto|]. apply IH. cbn [map list_sum fold_right] in H.
    rewrite map_app, list_sum_app. pose proof (E c) as Ec. unfold list_sum in *. cbn [fold_right] in H. lia. }
  destruct (G (S (list_sum (map W q))) q) as (b & Hb); [lia|]. eauto.
Qed.

(** With a self-dependency in the queue the search never ends. *)
Lemma search_hangs g m t : In (t, t) g -> (forall x, before g t x -> x <> m) ->
  forall n q, In t q -> (forall x, In x q -> x = t \/ before g t x) -> dep_search n g q m = None.
Proof.
  intros L A. induction n as [|n IH]; intros q Hq B; cbn [dep_search]; [reflexivity|]. destruct q as [|c q]; [destruct Hq|].
  assert (S : forall y, In y (succs g c) -> before g t y).
  { intros y Hy. apply in_succs in Hy. destruct (B c (or_introl eq_refl)) as [->|K]; [apply before_edge; exact Hy|].
    apply (before_trans _ _ _ _ K). apply before_edge. exact Hy. }
  destruct (mem_str m (succs g c)) eqn:E.
  - apply mem_str_In in E. destruct (A m (S m E) eq_refl).
  - apply IH.
    + apply in_or_app. destruct Hq as [->|Hq]; [right; apply in_succs; exact L|left; exact Hq].
    + intros x Hx. apply in_app_or in Hx as [Hx|Hx]; [apply B; right; exact Hx|right; exact (S x Hx)].
Qed.

(** ** Registration *)

Record RegOk (r : reg) : Prop := {
  ro_nodup : NoDup (rg_built r);
  ro_ends : forall d t, In (d, t) (rg_edges r) -> In d (rg_built r) /\ In t (rg_built r);
  ro_edges : NoDup (rg_edges r);
  ro_cycle : no_cycle (rg_edges r);
  ro_tests : NoDup (map fst (rg_tests r)) /\ incl (map fst (rg_tests r)) (rg_built r) }.
Definition StOk (s : rstate) : Prop := forall r, rs_inst s = Some r -> RegOk r.
Definition ResOk (x : rres) : Prop := match x with RDone s => StOk s | _ => True end.

Lemma RegOk_empty : RegOk reg_empty.
Proof.
  split; cbn.
  - constructor.
  - intros d t [].
  - constructor.
  - exact no_cycle_nil.
  - split; [constructor|intros x []].
Qed.

Lemma NoDup_snoc {A} (l : list A) x : NoDup l -> ~ In x l -> NoDup (l ++ [x]).
Proof.
  intros N H. apply (Permutation_NoDup (l := x :: l)); [|constructor; assumption].
  apply Permutation_cons_append.
Qed.

Lemma mem_str_false x l : mem_str x l = false <-> ~ In x l.
Proof. rewrite <- mem_str_In. destruct (mem_str x l); split; congruence. Qed.

Lemma build_store_ok s id : StOk s -> ResOk (build_store s id).
Proof.
  intros H. unfold build_store, with_inst. destruct (rs_inst s) as [r|] eqn:E; [|exact Logic.I].
  destruct (mem_str id (rg_built r)) eqn:M; [exact Logic.I|]. destruct (H r E) as [A B C D [T1 T2]].
  intros r' K. injection K as <-. split; cbn; auto.
  - apply NoDup_snoc; [exact A|apply mem_str_false; exact M].
  - intros d t K. destruct (B d t K). split; apply in_or_app; left; assumption.
  - split; [exact T1|]. intros x Hx. apply in_or_app. left. exact (T2 x Hx).
Qed.

Lemma dep_ok n s t d : StOk s -> ResOk (instance_dep n s t d).
Proof.
  intros H. unfold instance_dep, with_inst. destruct (rs_inst s) as [r|] eqn:E; [|exact Logic.I].
  destruct (negb _) eqn:M; [exact Logic.I|]. apply negb_false_iff, andb_true_iff in M as [M1 M2].
  destruct (dep_duplicate _ _ _) eqn:Du; [exact Logic.I|].
  destruct (dep_search _ _ _ _) as [[|]|] eqn:Se; [exact Logic.I| |exact Logic.I].
  destruct (H r E) as [A B C D T]. intros r' K. injection K as <-. split; cbn; auto.
  - intros x y K. apply in_app_or in K as [K|[K|[]]]; [exact (B x y K)|]. injection K as <- <-.
    split; apply mem_str_In; assumption.
  - apply NoDup_snoc; [exact C|]. unfold dep_duplicate in Du. apply mem_str_false in Du. rewrite in_preds in Du. exact Du.
  - apply no_cycle_snoc; [exact D|]. apply (search_not_found _ _ _ _ Se). left. reflexivity.
Qed.

Lemma test_ok s t c a : StOk s -> ResOk (instance_test s t c a).
Proof.
  intros H. unfold instance_test, with_inst. destruct (rs_inst s) as [r|] eqn:E; [|exact Logic.I].
  destruct (negb _) eqn:M; [exact Logic.I|]. apply negb_false_iff in M.
  destruct (mem_str t (map fst _)) eqn:Du; [exact Logic.I|].
  destruct (H r E) as [A B C D [T1 T2]]. intros r' K. injection K as <-. split; cbn; auto.
  rewrite map_app. cbn. split.
  - apply NoDup_snoc; [exact T1|apply mem_str_false; exact Du].
  - intros x Hx. apply in_app_or in Hx as [Hx|[<-|[]]]; [exact (T2 x Hx)|apply mem_str_In; exact M].
Qed.

(** Induction over nested programs. *)
Section ApiInd.
  Variable P : api -> Prop.
  Hypothesis H1 : forall p, P (AInit p).
  Hypothesis H2 : P ADeinit.
  Hypothesis H3 : forall h n body, Forall P body -> P (AFunc h n body).
  Hypothesis H4 : forall h i n body, Forall P body -> P (ABuild h i n body).
  Hypothesis H5 : forall b t x y, P (ADep b t x y).
  Hypothesis H6 : forall b t x c a, P (ATest b t x c a).
  Fixpoint api_rect' (a : api) : P a :=
    let fix all (l : list api) : Forall P l :=
      match l with [] => Forall_nil P | a :: r => Forall_cons a (api_rect' a) (all r) end in
    match a with
    | AInit p => H1 p
    | ADeinit => H2
    | AFunc h n body => H3 h n body (all body)
    | ABuild h i n body => H4 h i n body (all body)
    | ADep b t x y => H5 b t x y
    | ATest b t x c a => H6 b t x c a
    end.
End ApiInd.

Lemma run_body_eq n : forall l s,
  (fix run_body (l : list api) (s : rstate) {struct l} : rres :=
    match l with [] => RDone s | a :: r => rbind (run_api n a s) (run_body r) end) l s = run_apis n l s.
Proof. induction l as [|a l IH]; intros s; cbn; [reflexivity|]. destruct (run_api n a s); cbn; auto. Qed.

Lemma run_api_eq n a s : run_api n a s =
  match a with
  | AInit parsed =>
      match rs_inst s with
      | Some _ => RDone s
      | None => if parsed then RDone (RS (Some reg_empty) (rs_calls s)) else RFatal s
      end
  | ADeinit => RDone (RS None (rs_calls s))
  | AFunc h name body => with_inst s (fun _ => if enabled h then run_apis n body (log_call s name) else RDone s)
  | ABuild h id name body => with_inst s (fun _ =>
        if enabled h then rbind (run_apis n body (log_call s name)) (fun s' => build_store s' id) else RDone s)
  | ADep build _ target dep => with_inst s (fun _ => if build then instance_dep n s target dep else RDone s)
  | ATest build test target cmd args =>
      with_inst s (fun _ => if build && test then instance_test s target cmd args else RDone s)
  end.
Proof.
  destruct a; cbn [run_api]; try reflexivity; unfold with_inst; destruct (rs_inst s); try reflexivity;
    destruct (enabled h); try reflexivity; rewrite run_body_eq; reflexivity.
Qed.

Lemma run_list_ok n l : Forall (fun a => forall s, StOk s -> ResOk (run_api n a s)) l ->
  forall s, StOk s -> ResOk (run_apis n l s).
Proof.
  induction 1 as [|a l Ha _ IH]; intros s Hs; cbn [run_apis]; [exact Hs|].
  specialize (Ha s Hs). destruct (run_api n a s); cbn [rbind]; [|exact Logic.I|exact Logic.I]. apply IH. exact Ha.
Qed.

Lemma log_call_ok s x : StOk s -> StOk (log_call s x).
Proof. intros H r E. exact (H r E). Qed.

Lemma run_api_ok n a : forall s, StOk s -> ResOk (run_api n a s).
Proof.
  induction a using api_rect'; intros s Hs; rewrite run_api_eq.
  - destruct (rs_inst s) eqn:E; [exact Hs|]. destruct p; [|exact Logic.I]. intros r K. injection K as <-. exact RegOk_empty.
  - intros r K. discriminate.
  - unfold with_inst. destruct (rs_inst s) eqn:E; [|exact Logic.I]. destruct (enabled h); [|exact Hs].
    apply run_list_ok; [assumption|]. apply log_call_ok. exact Hs.
  - unfold with_inst. destruct (rs_inst s) eqn:E; [|exact Logic.I]. destruct (enabled h); [|exact Hs].
    assert (K : ResOk (run_apis n body (log_call s n0))) by (apply run_list_ok; [assumption|apply log_call_ok; exact Hs]).
    destruct (run_apis n body (log_call s n0)); cbn [rbind]; [|exact Logic.I|exact Logic.I]. apply build_store_ok. exact K.
  - unfold with_inst. destruct (rs_inst s) eqn:E; [|exact Logic.I]. destruct b; [|exact Hs]. apply dep_ok. exact Hs.
  - unfold with_inst. destruct (rs_inst s) eqn:E; [|exact Logic.I]. destruct (b && t); [|exact Hs]. apply test_ok. exact Hs.
Qed.

Lemma registers_ok n prog r : registers n prog r -> RegOk r.
Proof.
  intros (calls & H). assert (K : ResOk (run_apis n prog rs_init)).
  { apply run_list_ok; [|intros r' K; discriminate]. apply Forall_forall. intros a _. apply run_api_ok. }
  rewrite H in K. apply K. reflexivity.
Qed.

Theorem reg_acyclic n prog r : registers n prog r ->
  forall x y, x <> y -> before (rg_edges r) x y -> before (rg_edges r) y x -> False.
Proof. intros H. exact (ro_cycle _ (registers_ok _ _ _ H)). Qed.

Theorem reg_ends n prog r : registers n prog r ->
  NoDup (rg_built r) /\ NoDup (rg_edges r) /\ (forall d t, In (d, t) (rg_edges r) -> In d (rg_built r) /\ In t (rg_built r)) /\
  NoDup (map fst (rg_tests r)) /\ incl (map fst (rg_tests r)) (rg_built r).
Proof. intros H. destruct (registers_ok _ _ _ H) as [A B C D [E F]]. auto. Qed.

Theorem dep_decides n prog r calls t d : registers n prog r -> no_loop (rg_edges r) ->
  In t (rg_built r) -> In d (rg_built r) ->
  let s := RS (Some r) calls in
  exists N, forall k, N <= k ->
   (In (d, t) (rg_edges r) \/ before (rg_edges r) t d -> instance_dep k s t d = RFatal s) /\
   (~ In (d, t) (rg_edges r) -> ~ before (rg_edges r) t d ->
      instance_dep k s t d = RDone (RS (Some (REG (rg_built r) (rg_edges r ++ [(d, t)]) (rg_tests r))) calls)).
Proof.
  intros H L It Id s. pose proof (registers_ok _ _ _ H) as O.
  destruct (search_terminates (rg_edges r) d (fun x => acyclic_self _ x (ro_cycle _ O) L) [t]) as (N & b & Hb).
  exists N. intros k Hk. pose proof (search_mono N (rg_edges r) d [t] b (k - N) Hb) as Hk'.
  replace (N + (k - N)) with k in Hk' by lia.
  unfold instance_dep, with_inst, s. cbn [rs_inst rs_calls].
  rewrite (proj2 (mem_str_In _ _) It), (proj2 (mem_str_In _ _) Id). cbn [andb negb].
  unfold dep_duplicate. destruct (mem_str d (preds (rg_edges r) t)) eqn:Du.
  - apply mem_str_In, in_preds in Du. split; [reflexivity|tauto].
  - apply mem_str_false in Du. rewrite in_preds in Du. rewrite Hk'. destruct b.
    + apply search_found in Hk' as (x & [<-|[]] & B). split; [reflexivity|tauto].
    + pose proof (search_not_found _ _ _ _ Hk' t (or_introl eq_refl)) as B. split; [tauto|reflexivity].
Qed.
