(** Generators with Build() called several times: the run comes to its end. *)
From Coq Require Import Lia.
From Verif Require Import Prelude Proof_Prelude Model_Path Model_Json Model_Schema Spec_Json Proof_Dec
  Proof_Schema Model_Command Model_Target Spec_Target Proof_TargetBase Model_Gen Spec_Gen Proof_Gen Proof_GenInv
  Proof_GenMain Proof_GenRuns Model_GenDup Spec_GenDup Proof_GenDup.

Definition tw (t : gtask) : nat := match t with TWait => 2 | TCall _ => 1 | TEnd _ _ => 0 end.
Fixpoint tsum (l : list (string * gtask)) : nat := match l with [] => 0 | x :: r => tw (snd x) + tsum r end.
Definition cw (o : gobj) (p : gpc) (ts : list (string * gtask)) : nat :=
  match p with GIdle => 0 | GBuilt => 2 + 2 * length (go_ids o) | GTasks => 1 + tsum ts end.

Lemma tsum_keep id t l : ~ In id (map fst l) -> tsum (map (fun x => if String.eqb (fst x) id then (id, t) else x) l) = tsum l.
Proof.
  induction l as [|[k v] l IH]; cbn [map tsum fst]; intros N; [reflexivity|]. destruct (String.eqb k id) eqn:E.
  - apply String.eqb_eq in E as ->. destruct N. left. reflexivity.
  - cbn [snd]. rewrite IH; [reflexivity|]. intros K. apply N. right. exact K.
Qed.
Lemma tsum_set id t t' l : NoDup (map fst l) -> assoc id l = Some t ->
  tsum (map (fun x => if String.eqb (fst x) id then (id, t') else x) l) + tw t = tsum l + tw t'.
Proof.
  induction l as [|[k v] l IH]; cbn [map tsum fst assoc]; intros N A; [discriminate|]. apply NoDup_cons_iff in N as [N1 N2].
  destruct (String.eqb_spec id k) as [->|Ne].
  - injection A as <-. rewrite String.eqb_refl. cbn [snd]. rewrite (tsum_keep k t' l N1). lia.
  - destruct (String.eqb_spec k id) as [->|_]; [congruence|]. cbn [snd]. specialize (IH N2 A). lia.
Qed.
Lemma tsum_wait (l : list (string * gid)) : tsum (map (fun x => (fst x, TWait)) l) = 2 * length l.
Proof. induction l as [|x l IH]; cbn [map tsum length snd tw]; [reflexivity|]. rewrite IH. lia. Qed.

Fixpoint total (n : nat) (w : nat -> nat) : nat := match n with 0 => 0 | S k => total k w + w k end.
Lemma total_le n : forall v w, (forall j, v j <= w j) -> total n v <= total n w.
Proof. induction n as [|n IH]; intros v w H; cbn [total]; [lia|]. specialize (IH v w H). specialize (H n). lia. Qed.
Lemma total_lt n : forall v w i, (forall j, v j <= w j) -> i < n -> v i < w i -> total n v < total n w.
Proof.
  induction n as [|n IH]; intros v w i H Hi Hl; cbn [total]; [lia|]. destruct (Nat.eq_dec i n) as [->|].
  - pose proof (total_le n v w H). lia.
  - assert (i < n) by lia. pose proof (IH v w i H H0 Hl). specialize (H n). lia.
Qed.
Lemma total_const n k : total n (fun _ => k) = n * k.
Proof. induction n as [|n IH]; cbn [total]; [reflexivity|]. rewrite IH. lia. Qed.

Section Live.
Context (u8 : string -> N) (o : gobj).
Hypothesis Go : gobj_ok o = true.

Definition keyed (p : gpc) (ts : list (string * gtask)) : Prop := map fst ts = match p with GTasks => map fst (go_ids o) | _ => [] end.
Lemma keyed_nodup p ts : keyed p ts -> NoDup (map fst ts).
Proof using Go. unfold keyed. intros ->. destruct p; try constructor. exact (gobj_ok_NoDup _ Go). Qed.

Lemma move_step st ev st' i : gen_move (GuTask i ev) -> gstep u8 st ev = Some st' -> g_cfg st = o -> keyed (g_pc st) (g_tasks st) ->
  g_cfg st' = o /\ keyed (g_pc st') (g_tasks st') /\ cw o (g_pc st') (g_tasks st') < cw o (g_pc st) (g_tasks st).
Proof using Go.
  intros M H Ec K. pose proof (keyed_nodup _ _ K) as ND.
  destruct ev as [f t| | | |o'| |id|id ok w|w|n]; try destruct M; cbn [gstep] in H.
  - destruct (g_pc st) eqn:P; try discriminate. injection H as <-. unfold gsetup. destruct (negb (g_ok st)); gup.
    + split; [exact Ec|]. split; [reflexivity|]. cbn [cw]. lia.
    + split; [exact Ec|]. split; [unfold keyed; rewrite map_map, Ec; reflexivity|]. cbn [cw]. rewrite tsum_wait, Ec. lia.
  - destruct (g_pc st) eqn:P; try discriminate. destruct (assoc id (g_tasks st)) as [[]|] eqn:T; try discriminate.
    destruct (assoc id (go_ids (g_cfg st))) as [g|]; [|discriminate]. injection H as <-.
    assert (R : forall t, tw t < 2 -> keyed GTasks (map (fun x => if String.eqb (fst x) id then (id, t) else x) (g_tasks st)) /\
      cw o GTasks (map (fun x => if String.eqb (fst x) id then (id, t) else x) (g_tasks st)) < cw o GTasks (g_tasks st)).
    { intros t Ht. split; [unfold keyed; rewrite keys_set_task; exact K|]. pose proof (tsum_set id TWait t _ ND T) as X. cbn [cw tw] in *. lia. }
    unfold genter. destruct (negb (g_ok st)); [gup; rewrite P; split; [exact Ec|]; apply R; cbn; lia|].
    destruct (convert _ _); [|gup; rewrite P; split; [exact Ec|]; apply R; cbn; lia].
    destruct (assoc id (loaded_ids _)); [destruct (is_changed _ _ _) as [[]|]|]; gup; rewrite P; (split; [exact Ec|]); apply R; cbn; lia.
  - destruct (g_pc st) eqn:P; try discriminate. destruct (assoc id (g_tasks st)) as [[|j|]|] eqn:T; try discriminate. injection H as <-.
    assert (R : forall t, tw t < 1 -> keyed GTasks (map (fun x => if String.eqb (fst x) id then (id, t) else x) (g_tasks st)) /\
      cw o GTasks (map (fun x => if String.eqb (fst x) id then (id, t) else x) (g_tasks st)) < cw o GTasks (g_tasks st)).
    { intros t Ht. split; [unfold keyed; rewrite keys_set_task; exact K|]. pose proof (tsum_set id (TCall j) t _ ND T) as X. cbn [cw tw] in *. lia. }
    unfold gcallback. destruct ok; gup; rewrite P; (split; [exact Ec|]); apply R; cbn; lia.
  - destruct (g_pc st) eqn:P; try discriminate. destruct (forallb _ _) eqn:F; [|discriminate].
    destruct (finish_idle u8 st w st') as (A & _ & B); [cbn [gstep]; rewrite P, F; exact H|]. rewrite A, B.
    destruct (finish_keeps u8 st w st') as (_ & _ & _ & _ & _ & E3 & _); [cbn [gstep]; rewrite P, F; exact H|].
    split; [congruence|]. split; [reflexivity|]. cbn [cw]. lia.
Qed.

Lemma can_move st : g_cfg st = o -> keyed (g_pc st) (g_tasks st) -> g_pc st <> GIdle -> exists ev st', gen_good ev /\ gstep u8 st ev = Some st'.
Proof using Go.
  intros Ec K P. destruct (g_pc st) eqn:E; [congruence| |].
  - exists GSetup. eexists. cbn [gstep]. rewrite E. split; [exact Logic.I|reflexivity].
  - destruct (forallb (fun x => ended (snd x)) (g_tasks st)) eqn:F.
    + exists (GFinish WOk). cbn [gstep]. rewrite E, F. unfold gfinish.
      destruct (gdirty st); [destruct (final_text st)|]; eexists; (split; [exact Logic.I|reflexivity]).
    + assert (X : exists id t, In (id, t) (g_tasks st) /\ ended t = false).
      { clear - F. induction (g_tasks st) as [|[k t] l IH]; cbn [forallb snd] in F; [discriminate|].
        apply andb_false_iff in F as [F|F]; [exists k, t; split; [left; reflexivity|exact F]|].
        destruct (IH F) as (id & t' & A & B). exists id, t'. split; [right; exact A|exact B]. }
      destruct X as (id & t & I & Et). pose proof (assoc_NoDup_In _ _ _ (keyed_nodup _ _ K) I) as A.
      assert (Hk : In id (map fst (go_ids o))) by (unfold keyed in K; rewrite <- K; apply in_map_iff; exists (id, t); auto).
      apply assoc_key in Hk as (g & G). destruct t as [|j|]; [| |discriminate].
      * exists (GEnter id). eexists. cbn [gstep]. rewrite E, A, Ec, G. split; [exact Logic.I|reflexivity].
      * exists (GCall id true []). eexists. cbn [gstep]. rewrite E, A. split; [exact Logic.I|reflexivity].
Qed.

Definition LInv (s : gdup) : Prop :=
  g_cfg (gu_st s) = o /\ (forall i, keyed (gu_pc s i) (gu_tasks s i)) /\ forall i, gu_n s <= i -> gu_pc s i = GIdle.
Definition todo_of (s : gdup) : nat := total (gu_n s) (fun i => cw o (gu_pc s i) (gu_tasks s i)).

Lemma LInv_step s x s' : gen_move x -> LInv s -> gu_step u8 s x = Some s' -> LInv s' /\ gu_n s' = gu_n s /\ todo_of s' < todo_of s.
Proof using Go.
  intros M (A & B & C) H. destruct x as [n o'|i ev]; [destruct M|]. cbn [gu_step] in H.
  destruct (gstep u8 (gview s i) ev) as [st|] eqn:E; [|discriminate].
  destruct (move_step _ _ _ i M E A (B i)) as (A' & B' & D). gup.
  assert (Hi : i < gu_n s).
  { destruct (Nat.lt_ge_cases i (gu_n s)) as [|Hi]; [assumption|]. rewrite (C i Hi) in D. cbn [cw] in D. lia. }
  assert (K2 : Some (GDU (gwith_dirty st (gdirty_after (gview s i) st ev)) (gu_n s) (fun j => if Nat.eqb j i then g_pc st else gu_pc s j)
                           (fun j => if Nat.eqb j i then g_tasks st else gu_tasks s j)) = Some s').
  { destruct ev; try exact H; destruct M. }
  injection K2 as <-. split; [|split; [reflexivity|]].
  - split; [exact A'|]. gup. split; intros j; destruct (Nat.eqb_spec j i) as [->|]; auto. lia.
  - unfold todo_of. gup. apply (total_lt _ _ _ i); [|exact Hi|rewrite Nat.eqb_refl; exact D].
    intros j. destruct (Nat.eqb_spec j i) as [->|]; lia.
Qed.
Lemma LInv_exec l : forall s s', Forall gen_move l -> LInv s -> gu_exec u8 s l = Some s' -> LInv s' /\ gu_n s' = gu_n s /\ length l + todo_of s' <= todo_of s.
Proof using Go.
  induction l as [|x l IH]; intros s s' F I X; cbn [gu_exec] in X.
  - injection X as <-. split; [exact I|]. split; [reflexivity|]. cbn [length]. lia.
  - apply Forall_cons_iff in F as [F1 F2]. destruct (gu_step u8 s x) as [s1|] eqn:E; [|discriminate].
    destruct (LInv_step s x s1 F1 I E) as (I1 & N1 & T1). destruct (IH s1 s' F2 I1 X) as (I2 & N2 & T2).
    split; [exact I2|]. split; [congruence|]. cbn [length]. lia.
Qed.
Lemma LInv_on s : LInv s -> gall_ended s \/ exists i ev s', gen_good ev /\ gu_step u8 s (GuTask i ev) = Some s'.
Proof using Go.
  intros (A & B & C). destruct (gall_idle s) eqn:I.
  - left. intros i. destruct (Nat.lt_ge_cases i (gu_n s)) as [H|H]; [|exact (C i H)]. unfold gall_idle in I. rewrite forallb_forall in I.
    specialize (I i). rewrite in_seq in I. specialize (I (conj (Nat.le_0_l i) H)). destruct (gu_pc s i); [reflexivity|discriminate I..].
  - right. assert (exists i, gu_pc s i <> GIdle) as (i & Hi).
    { unfold gall_idle in I. induction (seq 0 (gu_n s)) as [|j k IH]; cbn [forallb] in I; [discriminate I|].
      apply andb_false_iff in I as [I|I]; [exists j; intros K; rewrite K in I; discriminate I|exact (IH I)]. }
    destruct (can_move (gview s i) A (B i) Hi) as (ev & st' & G & S).
    exists i, ev. cbn [gu_step]. rewrite S. assert (G' := G). destruct ev; try destruct G; eexists; (split; [exact G'|reflexivity]).
Qed.
End Live.

Theorem several_generates_end u8 st n o l s :
  gu_exec u8 (gu_begin st) (GuStart n o :: l) = Some s -> Forall gen_move l ->
  length l <= n * (2 * length (go_ids o) + 2) /\ (gall_ended s \/ exists i ev s', gen_good ev /\ gu_step u8 s (GuTask i ev) = Some s').
Proof.
  intros X F. cbn [gu_exec] in X. destruct (gu_step u8 (gu_begin st) (GuStart n o)) as [s0|] eqn:S0; [|discriminate].
  cbn [gu_step] in S0. change (gall_idle (gu_begin st)) with true in S0. cbv iota in S0.
  unfold gstart in S0. destruct (gobj_ok o) eqn:Go; [|discriminate]. injection S0 as <-.
  match type of X with gu_exec _ ?s0 _ = _ => assert (I : LInv o s0) end.
  { split; [reflexivity|]. gup. split; intros i; [destruct (Nat.ltb i n); reflexivity|]. intros H. apply Nat.ltb_ge in H. rewrite H. reflexivity. }
  destruct (LInv_exec u8 o Go l _ _ F I X) as (I' & _ & T). split; [|exact (LInv_on u8 o Go s I')].
  pose proof (total_le n (fun i => cw o (if Nat.ltb i n then GBuilt else GIdle) []) (fun _ => 2 + 2 * length (go_ids o))) as Q.
  rewrite total_const in Q. unfold todo_of in T. gup.
  assert (Q' : forall j, cw o (if Nat.ltb j n then GBuilt else GIdle) [] <= 2 + 2 * length (go_ids o)) by (intros j; destruct (Nat.ltb j n); cbn [cw]; lia).
  specialize (Q Q'). lia.
Qed.
(** ** How often a callback is invoked *)
Definition cap (id : string) (p : gpc) (ts : list (string * gtask)) : nat :=
  match p with
  | GIdle => 0
  | GBuilt => 1
  | GTasks => match assoc id ts with Some TWait | Some (TCall _) => 1 | _ => 0 end
  end.
Lemma invoked_app id a b : invoked id (a ++ b) = invoked id a + invoked id b.
Proof. unfold invoked. rewrite filter_app, app_length. reflexivity. Qed.

Lemma cap_set id id' t ts : (tw t = 2 -> False) -> (exists t0, assoc id' ts = Some t0 /\ tw t <= tw t0 /\ tw t0 <> 0) ->
  cap id GTasks (map (fun x => if String.eqb (fst x) id' then (id', t) else x) ts) <= cap id GTasks ts.
Proof.
  intros _ (t0 & A & B & C). cbn [cap]. rewrite assoc_set_task. destruct (String.eqb_spec id id') as [->|]; [|lia].
  rewrite A. destruct t0; cbn [tw] in *; try lia; destruct t; lia.
Qed.
Lemma cap_le id p ts : cap id p ts <= 1.
Proof. destruct p; cbn [cap]; try lia. destruct (assoc id ts) as [[]|]; lia. Qed.

Lemma count_step u8 id st ev st' : gstep u8 st ev = Some st' -> (forall o, ev <> GStart o) ->
  invoked id (g_log st') + cap id (g_pc st') (g_tasks st') <= invoked id (g_log st) + cap id (g_pc st) (g_tasks st).
Proof.
  intros H NS. destruct ev as [f t| | | |o'| |k|k ok w|w|n]; cbn [gstep] in H.
  - injection H as <-. gup. lia.
  - injection H as <-. gup. lia.
  - destruct (g_pc st); try discriminate; injection H as <-; gup; cbn [cap]; lia.
  - injection H as <-. gup. lia.
  - destruct (NS o' eq_refl).
  - destruct (g_pc st) eqn:P; try discriminate. injection H as <-. unfold gsetup. destruct (negb (g_ok st)); gup; [cbn [cap]; lia|].
    match goal with |- _ + cap _ GTasks ?ts <= _ => pose proof (cap_le id GTasks ts) end. cbn [cap] in *. lia.
  - destruct (g_pc st) eqn:P; try discriminate. destruct (assoc k (g_tasks st)) as [[]|] eqn:T; try discriminate.
    destruct (assoc k (go_ids (g_cfg st))) as [g|]; [|discriminate]. injection H as <-.
    assert (R : forall t, tw t < 2 -> cap id GTasks (map (fun x => if String.eqb (fst x) k then (k, t) else x) (g_tasks st)) <= cap id GTasks (g_tasks st)).
    { intros t Ht. apply cap_set; [lia|]. exists TWait. cbn [tw]. split; [exact T|lia]. }
    unfold genter. destruct (negb (g_ok st)); [gup; rewrite P; apply Nat.add_le_mono_l, R; cbn; lia|].
    destruct (convert _ _); [|gup; rewrite P; apply Nat.add_le_mono_l, R; cbn; lia].
    destruct (assoc k (loaded_ids _)); [destruct (is_changed _ _ _) as [[]|]|]; gup; rewrite P; apply Nat.add_le_mono_l, R; cbn; lia.
  - destruct (g_pc st) eqn:P; try discriminate. destruct (assoc k (g_tasks st)) as [[|j|]|] eqn:T; try discriminate. injection H as <-.
    assert (R : forall a, invoked id (g_log st ++ [GC k a ok]) + cap id GTasks (map (fun x => if String.eqb (fst x) k then (k, TEnd true ok) else x) (g_tasks st)) <=
      invoked id (g_log st) + cap id GTasks (g_tasks st)).
    { intros a. rewrite invoked_app. cbn [cap]. rewrite assoc_set_task. unfold invoked at 2. cbn [filter gc_id].
      rewrite (String.eqb_sym k id). destruct (String.eqb_spec id k) as [->|]; [rewrite T|]; cbn [length]; lia. }
    unfold gcallback. destruct ok; gup; rewrite P; apply R.
  - destruct (g_pc st) eqn:P; try discriminate. destruct (forallb _ _) eqn:F; [|discriminate].
    assert (E : g_log st' = g_log st /\ g_pc st' = GIdle).
    { clear - H. unfold gfinish in H. destruct (gdirty st); [destruct (final_text st) as [t|]|]; destruct w as [| |n rep]; try discriminate;
        try (injection H as <-; auto; fail). destruct (short n t); [|discriminate]. injection H as <-. destruct rep; auto. }
    destruct E as (-> & ->). cbn [cap]. lia.
  - destruct (g_pc st) eqn:P; try discriminate. destruct (_ && _); [|discriminate].
    destruct (bind _ _); [|discriminate]. injection H as <-. gup. cbn [cap]. lia.
Qed.

Definition pot (id : string) (s : gdup) : nat := invoked id (g_log (gu_st s)) + total (gu_n s) (fun i => cap id (gu_pc s i) (gu_tasks s i)).
Lemma total_put n : forall v w i, (forall j, j <> i -> v j = w j) -> total n v + (if Nat.ltb i n then w i else 0) = total n w + (if Nat.ltb i n then v i else 0).
Proof.
  induction n as [|n IH]; intros v w i H; [reflexivity|]. cbn [total]. specialize (IH v w i H).
  destruct (Nat.eq_dec i n) as [->|Ne].
  - rewrite Nat.ltb_irrefl in IH. assert (K : Nat.ltb n (S n) = true) by (apply Nat.ltb_lt; lia). rewrite K. lia.
  - rewrite (H n) by lia. destruct (Nat.ltb_spec i n); destruct (Nat.ltb_spec i (S n)); lia.
Qed.

Lemma pot_step u8 id s x s' : within x -> (forall i, gu_n s <= i -> gu_pc s i = GIdle) -> gu_step u8 s x = Some s' ->
  pot id s' <= pot id s /\ (forall i, gu_n s' <= i -> gu_pc s' i = GIdle).
Proof.
  intros W Out H. destruct x as [n o'|i ev]; [destruct W|]. cbn [gu_step] in H.
  destruct (gstep u8 (gview s i) ev) as [st|] eqn:E; [|discriminate].
  assert (NS : forall o, ev <> GStart o) by (intros o ->; discriminate).
  pose proof (count_step u8 id _ _ _ E NS) as C. gup.
  assert (Big : gu_n s <= i -> g_pc st = GIdle).
  { intros Hi. unfold gview in E. rewrite (Out i Hi) in E. clear - E NS. destruct ev as [f t| | | |o'| |k|k ok w|w|m]; cbn [gstep gwith_chain g_pc] in E; try discriminate E; try (injection E as <-; reflexivity).
    destruct (NS o' eq_refl). }
  assert (Tot : forall f, (forall j, j <> i -> f j = cap id (gu_pc s j) (gu_tasks s j)) -> f i = cap id (g_pc st) (g_tasks st) ->
     invoked id (g_log st) + total (gu_n s) f <= pot id s).
  { intros f F1 F2. pose proof (total_put (gu_n s) f (fun j => cap id (gu_pc s j) (gu_tasks s j)) i F1) as T. cbn beta in T. unfold pot.
    destruct (Nat.ltb_spec i (gu_n s)) as [Hi|Hi]; [lia|]. rewrite (Out i Hi), (Big Hi) in C. cbn [cap] in C. lia. }
  assert (K : Some (GDU (gwith_dirty st (gdirty_after (gview s i) st ev)) (gu_n s) (fun j => if Nat.eqb j i then g_pc st else gu_pc s j)
                           (fun j => if Nat.eqb j i then g_tasks st else gu_tasks s j)) = Some s' \/ s' = GDU st 0 (fun _ => GIdle) (fun _ => [])).
  { destruct ev; try (left; exact H); try discriminate; right; injection H as <-; reflexivity. }
  destruct K as [K| ->].
  - injection K as <-. split.
    + unfold pot. gup. apply Tot; [|rewrite Nat.eqb_refl; reflexivity]. intros j Hj. apply Nat.eqb_neq in Hj. rewrite Hj. reflexivity.
    + intros j Hj. gup. destruct (Nat.eqb_spec j i) as [->|]; auto.
  - split; [|reflexivity]. unfold pot at 1. gup. cbn [total].
    pose proof (Tot (fun j => if Nat.eqb j i then cap id (g_pc st) (g_tasks st) else cap id (gu_pc s j) (gu_tasks s j))) as T.
    cbn beta in T. rewrite Nat.eqb_refl in T. specialize (T ltac:(intros j Hj; apply Nat.eqb_neq in Hj; rewrite Hj; reflexivity) eq_refl). lia.
Qed.

Theorem several_generates_count u8 st n o l s id :
  gu_exec u8 (gu_begin st) (GuStart n o :: l) = Some s -> Forall within l -> invoked id (g_log (gu_st s)) <= invoked id (g_log st) + n.
Proof.
  intros X F. cbn [gu_exec] in X. destruct (gu_step u8 (gu_begin st) (GuStart n o)) as [s0|] eqn:S0; [|discriminate].
  cbn [gu_step] in S0. change (gall_idle (gu_begin st)) with true in S0. cbv iota in S0.
  unfold gstart in S0. destruct (gobj_ok o) eqn:Go; [|discriminate]. injection S0 as <-.
  assert (K : forall l s1 s2, Forall within l -> (forall i, gu_n s1 <= i -> gu_pc s1 i = GIdle) -> gu_exec u8 s1 l = Some s2 -> pot id s2 <= pot id s1).
  { clear. induction l as [|x l IH]; intros s1 s2 F O Y; cbn [gu_exec] in Y; [injection Y as <-; lia|].
    apply Forall_cons_iff in F as [F1 F2]. destruct (gu_step u8 s1 x) as [s3|] eqn:E; [|discriminate].
    destruct (pot_step u8 id _ _ _ F1 O E) as (A & B). specialize (IH _ _ F2 B Y). lia. }
  match type of X with gu_exec _ ?s0 _ = _ => pose proof (K l s0 s F) as Q end. gup.
  specialize (Q ltac:(intros i Hi; apply Nat.ltb_ge in Hi; rewrite Hi; reflexivity) X). unfold pot in Q. gup.
  pose proof (total_le n (fun i => cap id (if Nat.ltb i n then GBuilt else GIdle) []) (fun _ => 1) ltac:(intros j; apply cap_le)) as Y.
  rewrite total_const in Y. lia.
Qed.
