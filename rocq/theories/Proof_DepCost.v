(** How long the check of a dependency takes. *)
From Verif Require Import Prelude Proof_Prelude Model_Command Model_Reg Spec_Reg Spec_DepCost Proof_Reg.

(** ** From below *)
Lemma search_lower g m (w : string -> nat) : (forall x, w x <= S (list_sum (map w (succs g x)))) ->
  (forall x, ~ In m (succs g x)) ->
  forall k q, k <= list_sum (map w q) -> dep_search k g q m = None.
Proof.
  intros W M. induction k as [|k IH]; intros q H; [reflexivity|]. cbn [dep_search]. destruct q as [|c q]; [cbn in H; lia|].
  replace (mem_str m (succs g c)) with false by (symmetry; apply mem_str_false, M).
  apply IH. rewrite map_app, list_sum_app. pose proof (W c). unfold list_sum in *. cbn [map fold_right] in H. lia.
Qed.

(** A ladder: every a-node has two dependents, which have the next a-node as theirs. *)
Fixpoint xs (n : nat) : string := match n with 0 => "" | S m => String "x" (xs m) end.
Definition an (i : nat) : string := String "a" (xs i).
Definition bn (i : nat) : string := String "b" (xs i).
Definition cn (i : nat) : string := String "c" (xs i).
Fixpoint ladder (i k : nat) : edges :=
  match k with
  | 0 => []
  | S k' => (an i, bn i) :: (an i, cn i) :: (bn i, an (S i)) :: (cn i, an (S i)) :: ladder (S i) k'
  end.
Fixpoint rungs (i k : nat) : list string :=
  match k with 0 => [] | S k' => bn i :: cn i :: an (S i) :: rungs (S i) k' end.

Lemma xs_inj i j : xs i = xs j -> i = j.
Proof. revert j. induction i as [|i IH]; intros [|j] H; try discriminate; [reflexivity|]. injection H as H. f_equal. exact (IH _ H). Qed.
Lemma xs_len i : String.length (xs i) = i.
Proof. induction i as [|i IH]; [reflexivity|]. cbn [xs String.length]. f_equal. exact IH. Qed.
Lemma an_inj i j : an i = an j -> i = j. Proof. intros H. injection H as H. exact (xs_inj _ _ H). Qed.
Lemma bn_inj i j : bn i = bn j -> i = j. Proof. intros H. injection H as H. exact (xs_inj _ _ H). Qed.
Lemma cn_inj i j : cn i = cn j -> i = j. Proof. intros H. injection H as H. exact (xs_inj _ _ H). Qed.

Lemma ladder_In k : forall i d t, In (d, t) (ladder i k) <->
  exists j, i <= j < i + k /\ ((d = an j /\ (t = bn j \/ t = cn j)) \/ ((d = bn j \/ d = cn j) /\ t = an (S j))).
Proof.
  induction k as [|k IH]; intros i d t; cbn [ladder In].
  - split; [intros []|intros (j & L & _); lia].
  - rewrite IH. split.
    + intros [[= <- <-]|[[= <- <-]|[[= <- <-]|[[= <- <-]|(j & L & H)]]]].
      * exists i. split; [lia|]. left. auto.
      * exists i. split; [lia|]. left. auto.
      * exists i. split; [lia|]. right. auto.
      * exists i. split; [lia|]. right. auto.
      * exists j. split; [lia|exact H].
    + intros (j & L & H). destruct (Nat.eq_dec j i) as [->|N].
      * destruct H as [[-> [->| ->]]|[[->| ->] ->]]; tauto.
      * right; right; right; right. exists j. split; [lia|exact H].
Qed.

(** ** Registering it *)
Lemma run_apis_app n a b s : run_apis n (a ++ b) s = rbind (run_apis n a s) (run_apis n b).
Proof. revert s. induction a as [|x a IH]; intros s; [reflexivity|]. cbn [app run_apis]. destruct (run_api n x s); cbn [rbind]; [apply IH|reflexivity|reflexivity]. Qed.

Lemma run_builds n ids : forall b g t calls, NoDup (b ++ ids) ->
  exists calls', run_apis n (map (fun id => ABuild (ViaCall true) id "cb" []) ids) (RS (Some (REG b g t)) calls) = RDone (RS (Some (REG (b ++ ids) g t)) calls').
Proof.
  induction ids as [|x ids IH]; intros b g t calls N.
  - exists calls. rewrite app_nil_r. reflexivity.
  - cbn [map run_apis].
    assert (X : mem_str x b = false).
    { apply mem_str_false. intros I. apply NoDup_remove_2 in N. apply N, in_or_app. left. exact I. }
    cbn [run_api with_inst rs_inst enabled log_call rs_calls rbind build_store rg_built rg_edges rg_tests]. unfold build_store, with_inst.
    cbn [rs_inst rg_built]. rewrite X. cbn [rbind rg_edges rg_tests rs_calls].
    destruct (IH (b ++ [x]) g t (calls ++ ["cb"])) as (calls' & E); [rewrite <- app_assoc; exact N|].
    exists calls'. rewrite E, <- app_assoc. reflexivity.
Qed.

(** Every edge is added while its target has no dependents yet. *)
Lemma run_deps n b t calls : 2 <= n -> forall es g,
  (forall d x, In (d, x) es -> In d b /\ In x b) ->
  (forall pre d x post, es = pre ++ (d, x) :: post -> ~ In (d, x) (g ++ pre) /\ forall y, ~ In (x, y) (g ++ pre)) ->
  run_apis n (map (fun e => ADep true true (snd e) (fst e)) es) (RS (Some (REG b g t)) calls) = RDone (RS (Some (REG b (g ++ es) t)) calls).
Proof.
  intros L. induction es as [|[d x] es IH]; intros g B O.
  - rewrite app_nil_r. reflexivity.
  - cbn [map run_apis run_api with_inst rs_inst fst snd]. unfold with_inst. cbn [rs_inst]. unfold instance_dep, with_inst. cbn [rs_inst rg_built rg_edges rg_tests rs_calls].
    destruct (B d x (or_introl eq_refl)) as [Bd Bx]. apply mem_str_In in Bd, Bx. rewrite Bd, Bx. cbn [andb negb].
    destruct (O [] d x es eq_refl) as [N1 N2]. rewrite app_nil_r in N1, N2.
    assert (D : dep_duplicate g x d = false).
    { apply mem_str_false. unfold preds. intros I. apply in_map_iff in I as ([a c] & E & I). apply filter_In in I as [I Q].
      cbn [fst snd] in *. apply String.eqb_eq in Q. subst. exact (N1 I). }
    rewrite D. destruct n as [|[|n]]; [lia|lia|].
    assert (S0 : succs g x = []).
    { unfold succs. destruct (filter _ g) as [|[a c] r] eqn:F; [reflexivity|]. exfalso.
      assert (I : In (a, c) (filter (fun e => String.eqb (fst e) x) g)) by (rewrite F; left; reflexivity).
      apply filter_In in I as [I Q]. cbn [fst] in Q. apply String.eqb_eq in Q. subst a. exact (N2 c I). }
    cbn [dep_search]. rewrite S0. cbn [mem_str existsb app]. cbn [rbind].
    rewrite IH.
    + rewrite <- app_assoc. reflexivity.
    + intros d' x' I. exact (B d' x' (or_intror I)).
    + intros pre d' x' post E. rewrite <- app_assoc. cbn [app]. apply (O ((d, x) :: pre) d' x' post). rewrite E. reflexivity.
Qed.

Lemma ladder_split k : forall i pre d x post, ladder i k = pre ++ (d, x) :: post ->
  ~ In (d, x) pre /\ forall y, ~ In (x, y) pre.
Proof.
  induction k as [|k IH]; intros i pre d x post E; cbn [ladder] in E; [destruct pre; discriminate|].
  assert (G : forall pre', ladder (S i) k = pre' ++ (d, x) :: post -> In (d, x) (ladder (S i) k)).
  { intros pre' ->. apply in_or_app. right. left. reflexivity. }
  destruct pre as [|e1 pre]; [split; [intros []|intros y []]|].
  destruct pre as [|e2 pre]; [injection E as <- <- <- _; split; [|intros y]; intros [H|[]]; discriminate H|].
  destruct pre as [|e3 pre]; [injection E as <- <- <- <- _; split; [|intros y]; intros [H|[H|[]]]; try discriminate H; injection H as H; apply (f_equal String.length) in H; rewrite ?xs_len in H; cbn [xs String.length] in H; rewrite ?xs_len in H; lia|].
  destruct pre as [|e4 pre]; [injection E as <- <- <- <- <- _; split; [|intros y]; intros [H|[H|[H|[]]]]; try discriminate H; injection H as H; try discriminate H; apply (f_equal String.length) in H; cbn [xs String.length] in H; rewrite ?xs_len in H; lia|].
  injection E as <- <- <- <- E. specialize (G _ E). destruct (IH _ _ _ _ _ E) as [I1 I2].
  apply ladder_In in G as (j & L & G).
  assert (Ij : i < j) by lia.
  split.
  - intros [H|[H|[H|[H|H]]]]; [| | | |exact (I1 H)]; destruct G as [[-> [->| ->]]|[[->| ->] ->]]; try discriminate H;
      apply (f_equal (fun e => String.length (fst e))) in H; cbn [fst String.length an bn cn] in H; rewrite !xs_len in H; lia.
  - intros y [H|[H|[H|[H|H]]]]; [| | | |exact (I2 y H)]; destruct G as [[-> [->| ->]]|[[->| ->] ->]]; try discriminate H;
      apply (f_equal (fun e => String.length (fst e))) in H; cbn [fst String.length an bn cn] in H; rewrite !xs_len in H; cbn [xs String.length] in H; rewrite ?xs_len in H; lia.
Qed.

Definition ladder_ids (n : nat) : list string := "z" :: an 0 :: rungs 0 n.
Definition ladder_prog (n : nat) : list api :=
  AInit true :: map (fun id => ABuild (ViaCall true) id "cb" []) (ladder_ids n) ++ map (fun e => ADep true true (snd e) (fst e)) (ladder 0 n).

Lemma rungs_In k : forall i x, In x (rungs i k) <-> exists j, i <= j < i + k /\ (x = bn j \/ x = cn j \/ x = an (S j)).
Proof.
  induction k as [|k IH]; intros i x; cbn [rungs In].
  - split; [intros []|intros (j & L & _); lia].
  - rewrite IH. split.
    + intros [<-|[<-|[<-|(j & L & H)]]]; [exists i|exists i|exists i|exists j]; (split; [lia|tauto]).
    + intros (j & L & H). destruct (Nat.eq_dec j i) as [->|N]; [intuition congruence|]. right; right; right. exists j. split; [lia|exact H].
Qed.
Lemma rungs_NoDup k : forall i, NoDup (rungs i k) /\ (forall j, j <= i -> ~ In (an j) (rungs i k)).
Proof.
  induction k as [|k IH]; intros i; cbn [rungs]; [split; [constructor|intros j _ []]|]. destruct (IH (S i)) as [N A]. split.
  - constructor; [|constructor; [|constructor; [|exact N]]].
    + intros [H|[H|H]]; [discriminate H|discriminate H|]. apply rungs_In in H as (j & L & [H|[H|H]]); try discriminate H. apply bn_inj in H. lia.
    + intros [H|H]; [discriminate H|]. apply rungs_In in H as (j & L & [H|[H|H]]); try discriminate H. apply cn_inj in H. lia.
    + apply A. lia.
  - intros j L [H|[H|[H|H]]]; [discriminate H|discriminate H|apply an_inj in H; lia|exact (A j ltac:(lia) H)].
Qed.
Lemma rungs_length k : forall i, length (rungs i k) = 3 * k.
Proof. induction k as [|k IH]; intros i; cbn [rungs length]; [reflexivity|]. rewrite IH. lia. Qed.
Lemma ladder_length k : forall i, length (ladder i k) = 4 * k.
Proof. induction k as [|k IH]; intros i; cbn [ladder length]; [reflexivity|]. rewrite IH. lia. Qed.

Lemma ladder_registers n : registers 2 (ladder_prog n) (REG (ladder_ids n) (ladder 0 n) []).
Proof.
  unfold registers, ladder_prog.
  assert (Z : forall p, run_apis 2 (AInit true :: p) rs_init = run_apis 2 p (RS (Some (REG [] [] [])) [])) by reflexivity.
  rewrite Z, run_apis_app.
  destruct (run_builds 2 (ladder_ids n) [] [] [] []) as (calls & E).
  { destruct (rungs_NoDup n 0) as [N A]. unfold ladder_ids. cbn [app]. constructor; [|constructor; [exact (A 0 (le_n 0))|exact N]].
    intros [H|H]; [discriminate H|]. apply rungs_In in H as (j & _ & [H|[H|H]]); discriminate H. }
  rewrite E. cbn [rbind app]. exists calls. refine (run_deps 2 (ladder_ids n) [] calls (le_n 2) (ladder 0 n) [] _ _).
  - intros d x I. apply ladder_In in I as (j & L & I). unfold ladder_ids. cbn [In]. rewrite !rungs_In.
    assert (AJ : forall y, y = an j -> y = an 0 \/ exists j0, 0 <= j0 < 0 + n /\ (y = bn j0 \/ y = cn j0 \/ y = an (S j0))).
    { intros y ->. destruct j as [|j]; [left; reflexivity|]. right. exists j. split; [lia|tauto]. }
    destruct I as [[-> [->| ->]]|[[->| ->] ->]]; split; right.
    + destruct (AJ _ eq_refl) as [H|H]; [left; congruence|right; exact H].
    + right. exists j. split; [lia|tauto].
    + destruct (AJ _ eq_refl) as [H|H]; [left; congruence|right; exact H].
    + right. exists j. split; [lia|tauto].
    + right. exists j. split; [lia|tauto].
    + right. exists j. split; [lia|tauto].
    + right. exists j. split; [lia|tauto].
    + right. exists j. split; [lia|tauto].
  - intros pre d x post E'. cbn [app]. exact (ladder_split n 0 pre d x post E').
Qed.

(** ** The weights *)
Definition wt (n : nat) (x : string) : nat :=
  match x with
  | String "a" r => if String.eqb r (xs (String.length r)) && (String.length r <=? n) then 2 ^ (n - String.length r) else 0
  | String "b" r | String "c" r => if String.eqb r (xs (String.length r)) && (String.length r <? n) then 2 ^ (n - S (String.length r)) else 0
  | _ => 0
  end.
Lemma wt_an n i : i <= n -> wt n (an i) = 2 ^ (n - i).
Proof. intros L. cbn [wt an]. rewrite xs_len, String.eqb_refl. apply Nat.leb_le in L. rewrite L. reflexivity. Qed.
Lemma wt_bn n i : i < n -> wt n (bn i) = 2 ^ (n - S i).
Proof. intros L. cbn [wt bn]. rewrite xs_len, String.eqb_refl. apply Nat.ltb_lt in L. rewrite L. reflexivity. Qed.
Lemma wt_cn n i : i < n -> wt n (cn i) = 2 ^ (n - S i).
Proof. intros L. cbn [wt cn]. rewrite xs_len, String.eqb_refl. apply Nat.ltb_lt in L. rewrite L. reflexivity. Qed.
Lemma wt_cases n x : wt n x = 0 \/ (exists i, i <= n /\ x = an i) \/ (exists i, i < n /\ (x = bn i \/ x = cn i)).
Proof.
  destruct x as [|c r]; [left; reflexivity|].
  destruct (ascii_dec c "a") as [->|Na].
  { cbn [wt]. destruct (String.eqb r (xs (String.length r)) && (String.length r <=? n)) eqn:E; [|left; reflexivity].
    apply andb_true_iff in E as [E L]. apply String.eqb_eq in E. apply Nat.leb_le in L. right; left. exists (String.length r). split; [exact L|]. unfold an. rewrite <- E. reflexivity. }
  destruct (ascii_dec c "b") as [->|Nb].
  { cbn [wt]. destruct (String.eqb r (xs (String.length r)) && (String.length r <? n)) eqn:E; [|left; reflexivity].
    apply andb_true_iff in E as [E L]. apply String.eqb_eq in E. apply Nat.ltb_lt in L. right; right. exists (String.length r). split; [exact L|]. left. unfold bn. rewrite <- E. reflexivity. }
  destruct (ascii_dec c "c") as [->|Nc].
  { cbn [wt]. destruct (String.eqb r (xs (String.length r)) && (String.length r <? n)) eqn:E; [|left; reflexivity].
    apply andb_true_iff in E as [E L]. apply String.eqb_eq in E. apply Nat.ltb_lt in L. right; right. exists (String.length r). split; [exact L|]. right. unfold cn. rewrite <- E. reflexivity. }
  left. destruct c as [[] [] [] [] [] [] [] []]; try reflexivity; congruence.
Qed.

Lemma succs_app g h x : succs (g ++ h) x = succs g x ++ succs h x.
Proof. unfold succs. rewrite filter_app, map_app. reflexivity. Qed.
Lemma list_sum_incl (w : string -> nat) l l' : NoDup l -> incl l l' -> list_sum (map w l) <= list_sum (map w l').
Proof.
  revert l'. induction l as [|x l IH]; intros l' N I; [unfold list_sum; cbn; lia|]. inversion N as [|? ? N1 N2]; subst.
  destruct (in_split x l' (I x (or_introl eq_refl))) as (a & b & ->).
  rewrite map_app, list_sum_app. unfold list_sum in *. cbn [map fold_right].
  assert (H : fold_right Nat.add 0 (map w l) <= fold_right Nat.add 0 (map w (a ++ b))).
  { apply IH; [exact N2|]. intros y Iy. assert (K : In y (a ++ x :: b)) by (apply I; right; exact Iy).
    apply in_app_or in K as [K|[K|K]]; [apply in_or_app; left; exact K|subst; contradiction|apply in_or_app; right; exact K]. }
  rewrite map_app in H. pose proof (list_sum_app (map w a) (map w b)) as Q. unfold list_sum in Q. rewrite Q in H. lia.
Qed.

Lemma pow_split n i : i < n -> 2 ^ (n - i) = 2 ^ (n - S i) + 2 ^ (n - S i).
Proof. intros L. replace (n - i) with (S (n - S i)) by lia. cbn [Nat.pow]. lia. Qed.
Lemma pow_pos n : 1 <= 2 ^ n.
Proof. pose proof (Nat.pow_nonzero 2 n). lia. Qed.

Lemma ladder_weight n x : wt n x <= S (list_sum (map (wt n) (succs (ladder 0 n) x))).
Proof.
  destruct (wt_cases n x) as [H|[(i & L & ->)|(i & L & H)]]; [lia| |].
  - rewrite (wt_an n i L). destruct (Nat.eq_dec i n) as [->|N]; [rewrite Nat.sub_diag; cbn; lia|].
    assert (K : list_sum (map (wt n) [bn i; cn i]) <= list_sum (map (wt n) (succs (ladder 0 n) (an i)))).
    { apply list_sum_incl; [repeat constructor; cbn; intuition discriminate|]. intros y Iy. apply in_succs. apply ladder_In. exists i. split; [lia|].
      left. split; [reflexivity|]. cbn [In] in Iy. intuition congruence. }
    unfold list_sum in K at 1. cbn [map fold_right] in K. rewrite (wt_bn n i), (wt_cn n i) in K by lia. rewrite (pow_split n i) by lia. lia.
  - assert (K : list_sum (map (wt n) [an (S i)]) <= list_sum (map (wt n) (succs (ladder 0 n) x))).
    { apply list_sum_incl; [repeat constructor; intros []|]. intros y [<-|[]]. apply in_succs. apply ladder_In. exists i. split; [lia|].
      right. split; [exact H|reflexivity]. }
    unfold list_sum in K at 1. cbn [map fold_right] in K. rewrite (wt_an n (S i)) in K by lia.
    destruct H as [->| ->]; rewrite ?wt_bn, ?wt_cn by lia; lia.
Qed.

Lemma ladder_slow n calls k : k <= 2 ^ n -> instance_dep k (RS (Some (REG (ladder_ids n) (ladder 0 n) [])) calls) (an 0) "z" = RFuel.
Proof.
  intros L. unfold instance_dep, with_inst. cbn [rs_inst rg_built rg_edges].
  assert (E : mem_str (an 0) (ladder_ids n) && mem_str "z" (ladder_ids n) = true).
  { apply andb_true_iff. split; apply mem_str_In; unfold ladder_ids; cbn [In]; tauto. }
  rewrite E. cbn [negb].
  assert (D : dep_duplicate (ladder 0 n) (an 0) "z" = false).
  { apply mem_str_false. unfold preds. intros I. apply in_map_iff in I as ([a c] & X & I). apply filter_In in I as [I _]. cbn [fst] in X. subst a.
    apply ladder_In in I as (j & _ & [[H _]|[[H|H] _]]); discriminate H. }
  rewrite D, (search_lower (ladder 0 n) "z" (wt n) (ladder_weight n)); [reflexivity| |].
  - intros x I. apply in_succs, ladder_In in I as (j & _ & [[_ [H|H]]|[_ H]]); discriminate H.
  - unfold list_sum. cbn [map fold_right]. rewrite (wt_an n 0) by lia. rewrite Nat.sub_0_r. lia.
Qed.

(** ** From above: at most one dependent each *)
Lemma weight_single g : (forall x, length (succs g x) <= 1) -> forall k x, weight k g x <= k.
Proof.
  intros S. induction k as [|k IH]; intros x; cbn [weight]; [lia|]. pose proof (S x) as L. destruct (succs g x) as [|y [|z l]]; cbn [length] in L; [cbn; lia| |lia].
  unfold list_sum. cbn [map fold_right]. pose proof (IH y). lia.
Qed.
Lemma search_within g m : (forall x, ~ before g x x) ->
  forall k q, list_sum (map (weight (S (length g)) g) q) < k -> exists b, dep_search k g q m = Some b.
Proof.
  intros A. pose (W := weight (S (length g)) g).
  assert (E : forall x, W x = S (list_sum (map W (succs g x)))).
  { intros x. unfold W at 1. cbn [weight]. do 2 f_equal. apply map_ext_in. intros y Hy. symmetry. apply weight_stable.
    intros l Wl. assert (K : length (y :: l) <= length g).
    { apply (walk_bound g A _ x). constructor; [apply in_succs; exact Hy|exact Wl]. }
    cbn in K. lia. }
  change (weight (S (length g)) g) with W.
  induction k as [|k IH]; intros q' H; [lia|]. cbn [dep_search]. destruct q' as [|c q']; [eauto|].
  destruct (mem_str m (succs g c)); [eauto|]. apply IH. cbn [map list_sum fold_right] in H.
  rewrite map_app, list_sum_app. pose proof (E c) as Ec. unfold list_sum in *. cbn [fold_right] in H. lia.
Qed.

(** ** Exactly *)
Fixpoint walks (k : nat) (g : edges) (x : string) : list (list string) :=
  match k with
  | 0 => []
  | S k' => [] :: flat_map (fun y => map (cons y) (walks k' g y)) (succs g x)
  end.
Lemma walks_weight g k : forall x, length (walks k g x) = weight k g x.
Proof.
  induction k as [|k IH]; intros x; [reflexivity|]. cbn [walks weight length]. f_equal. induction (succs g x) as [|y l IHl]; [reflexivity|].
  cbn [flat_map map]. rewrite app_length, map_length, IH, IHl. reflexivity.
Qed.
Lemma walks_In g k : forall x l, In l (walks k g x) <-> chain g x l /\ length l < k.
Proof.
  induction k as [|k IH]; intros x l; [split; [intros []|intros [_ H]; lia]|]. cbn [walks In]. rewrite in_flat_map. split.
  - intros [<-|(y & Iy & H)]; [split; [constructor|cbn; lia]|]. apply in_map_iff in H as (l' & <- & H). apply IH in H as [H L].
    split; [constructor; [apply in_succs; exact Iy|exact H]|cbn; lia].
  - intros [H L]. inversion H as [|? y l' E H']; subst; [left; reflexivity|]. right. exists y. split; [apply in_succs; exact E|].
    apply in_map_iff. exists l'. split; [reflexivity|]. apply IH. cbn in L. split; [exact H'|lia].
Qed.
Lemma flat_NoDup (f : string -> list (list string)) l : NoDup l -> (forall y, NoDup (f y)) -> NoDup (flat_map (fun y => map (cons y) (f y)) l).
Proof.
  intros N F. induction N as [|y l H N IH]; [constructor|]. cbn [flat_map].
  assert (G : NoDup (map (cons y) (f y))) by (apply FinFun.Injective_map_NoDup; [intros a b E; injection E as E; exact E|exact (F y)]).
  induction (map (cons y) (f y)) as [|a m IHm] eqn:E in G, H |- *; [exact IH|].
  assert (D : forall a, In a (map (cons y) (f y)) -> ~ In a (flat_map (fun y0 => map (cons y0) (f y0)) l)).
  { intros b I J. apply in_map_iff in I as (b' & <- & _). apply in_flat_map in J as (z & Iz & J). apply in_map_iff in J as (c & J & _). injection J as -> _. exact (H Iz). }
  rewrite E in D. clear E IHm. revert G D. generalize (a :: m). intros q. induction q as [|b q IHq]; intros G D; [exact IH|].
  inversion G; subst. cbn [app]. constructor; [|apply IHq; [assumption|intros c I; apply D; right; exact I]].
  intros I. apply in_app_or in I as [I|I]; [contradiction|]. exact (D b (or_introl eq_refl) I).
Qed.
Lemma succs_NoDup g x : NoDup g -> NoDup (succs g x).
Proof.
  intros N. unfold succs. induction N as [|[a b] g H N IH]; [constructor|]. cbn [filter fst]. destruct (String.eqb_spec a x) as [->|Ne]; [|exact IH].
  cbn [map snd]. constructor; [|exact IH]. intros I. apply in_map_iff in I as ([c d] & E & I). apply filter_In in I as [I Q]. cbn [fst snd] in *.
  apply String.eqb_eq in Q. subst. exact (H I).
Qed.
Lemma walks_NoDup g : NoDup g -> forall k x, NoDup (walks k g x).
Proof.
  intros N. induction k as [|k IH]; intros x; cbn [walks]; [constructor|]. constructor.
  - intros I. apply in_flat_map in I as (y & _ & I). apply in_map_iff in I as (l & E & _). discriminate E.
  - apply flat_NoDup; [apply succs_NoDup; exact N|exact IH].
Qed.
Lemma chain_walk g x l : chain g x l -> walk g x l.
Proof. induction 1; constructor; assumption. Qed.

Lemma chains_counted g x ws : NoDup g -> (forall y, ~ before g y y) -> NoDup ws -> (forall l, In l ws <-> chain g x l) ->
  length ws = weight (S (length g)) g x.
Proof.
  intros N A Nw W. rewrite <- walks_weight. apply Permutation_length, NoDup_Permutation; [exact Nw|apply walks_NoDup; exact N|].
  intros l. rewrite W, walks_In. split; [|tauto]. intros H. split; [exact H|]. pose proof (walk_bound g A l x (chain_walk _ _ _ H)). lia.
Qed.

Lemma weight_unfold g : (forall x, ~ before g x x) -> forall x, weight (S (length g)) g x = S (list_sum (map (weight (S (length g)) g) (succs g x))).
Proof.
  intros A x. change (S (list_sum (map (weight (length g) g) (succs g x))) = S (list_sum (map (weight (S (length g)) g) (succs g x)))).
  do 2 f_equal. apply map_ext_in. intros y Hy. symmetry. apply weight_stable.
  intros l Wl. assert (K : length (y :: l) <= length g).
  { apply (walk_bound g A _ x). constructor; [apply in_succs; exact Hy|exact Wl]. }
  cbn in K. lia.
Qed.
Lemma search_exact g m (W : string -> nat) : (forall x, W x = S (list_sum (map W (succs g x)))) ->
  forall k q, (forall x, In x q -> ~ before g x m) -> (dep_search k g q m = None <-> k <= list_sum (map W q)).
Proof.
  intros E. induction k as [|k IH]; intros q H; [split; [lia|reflexivity]|]. cbn [dep_search].
  destruct q as [|c q]; [split; [discriminate|unfold list_sum; cbn; lia]|].
  assert (M : mem_str m (succs g c) = false).
  { apply mem_str_false. intros I. apply (H c (or_introl eq_refl)), before_edge, in_succs. exact I. }
  rewrite M, IH.
  - rewrite map_app, list_sum_app. pose proof (E c). unfold list_sum in *. cbn [map fold_right]. lia.
  - intros x I. apply in_app_or in I as [I|I]; [exact (H x (or_intror I))|]. intros B.
    apply (H c (or_introl eq_refl)). eapply before_step; [apply in_succs; exact I|exact B].
Qed.

Lemma dep_cost n prog r calls t d ws k : registers n prog r -> (forall x, ~ In (x, x) (rg_edges r)) ->
  In t (rg_built r) -> In d (rg_built r) -> ~ In (d, t) (rg_edges r) -> ~ before (rg_edges r) t d ->
  NoDup ws -> (forall l, In l ws <-> chain (rg_edges r) t l) ->
  (instance_dep k (RS (Some r) calls) t d = RFuel <-> k <= length ws).
Proof.
  intros R S Bt Bd N B Nw W. pose proof (reg_ends _ _ _ R) as (_ & Ne & _).
  assert (A : forall x, ~ before (rg_edges r) x x) by (intros x; apply acyclic_self; [exact (reg_acyclic _ _ _ R)|exact S]).
  rewrite (chains_counted _ _ _ Ne A Nw W).
  unfold instance_dep, with_inst. cbn [rs_inst]. apply mem_str_In in Bt, Bd. rewrite Bt, Bd. cbn [andb negb].
  assert (D : dep_duplicate (rg_edges r) t d = false).
  { apply mem_str_false. unfold preds. intros I. apply in_map_iff in I as ([a c] & E & I). apply filter_In in I as [I Q].
    cbn [fst snd] in *. apply String.eqb_eq in Q. subst. exact (N I). }
  rewrite D. assert (Hq : forall x, In x [t] -> ~ before (rg_edges r) x d) by (intros x [<-|[]]; exact B).
  pose proof (search_exact _ d _ (weight_unfold _ A) k [t] Hq) as X.
  replace (list_sum (map (weight (Datatypes.S (length (rg_edges r))) (rg_edges r)) [t])) with (weight (Datatypes.S (length (rg_edges r))) (rg_edges r) t) in X
    by (unfold list_sum; cbn [map fold_right]; lia).
  rewrite <- X. destruct (dep_search k (rg_edges r) [t] d) as [[]|]; split; congruence.
Qed.

Lemma dep_linear n prog r calls t d : registers n prog r -> (forall x, ~ In (x, x) (rg_edges r)) ->
  (forall x y z, In (x, y) (rg_edges r) -> In (x, z) (rg_edges r) -> y = z) ->
  instance_dep (length (rg_edges r) + 2) (RS (Some r) calls) t d <> RFuel.
Proof.
  intros R S U. pose proof (reg_ends _ _ _ R) as (_ & Ne & _).
  assert (A : forall x, ~ before (rg_edges r) x x) by (intros x; apply acyclic_self; [exact (reg_acyclic _ _ _ R)|exact S]).
  unfold instance_dep, with_inst. cbn [rs_inst]. destruct (negb _); [discriminate|]. destruct (dep_duplicate _ _ _); [discriminate|].
  assert (L : forall x, length (succs (rg_edges r) x) <= 1).
  { intros x. pose proof (succs_NoDup (rg_edges r) x Ne) as Ns. destruct (succs (rg_edges r) x) as [|y [|z l]] eqn:E; [cbn; lia|cbn; lia|]. exfalso.
    assert (Y : In y (succs (rg_edges r) x)) by (rewrite E; left; reflexivity). assert (Z : In z (succs (rg_edges r) x)) by (rewrite E; right; left; reflexivity).
    apply in_succs in Y, Z. inversion Ns as [|? ? H _]; subst. apply H. left. symmetry. exact (U _ _ _ Y Z). }
  destruct (search_within (rg_edges r) d A (length (rg_edges r) + 2) [t]) as ([] & ->); [|discriminate|discriminate].
  unfold list_sum. cbn [map fold_right]. pose proof (weight_single (rg_edges r) L (Datatypes.S (length (rg_edges r))) t). lia.
Qed.

Lemma ladder_no_loop n : forall x, ~ In (x, x) (ladder 0 n).
Proof.
  intros x I. apply ladder_In in I as (j & _ & [[-> [H|H]]|[[->| ->] H]]); discriminate H.
Qed.

Lemma slow n : exists prog r t d, registers 2 prog r /\ length (rg_built r) = 3 * n + 2 /\ length (rg_edges r) = 4 * n /\
  (forall x, ~ In (x, x) (rg_edges r)) /\ In t (rg_built r) /\ In d (rg_built r) /\
  forall calls k, k <= 2 ^ n -> instance_dep k (RS (Some r) calls) t d = RFuel.
Proof.
  exists (ladder_prog n), (REG (ladder_ids n) (ladder 0 n) []), (an 0), "z". split; [apply ladder_registers|]. cbn [rg_built rg_edges].
  split; [unfold ladder_ids; cbn [length]; rewrite rungs_length; lia|]. split; [apply ladder_length|]. split; [apply ladder_no_loop|].
  split; [right; left; reflexivity|]. split; [left; reflexivity|]. intros calls k. apply ladder_slow.
Qed.
