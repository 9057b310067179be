(** Generator: invariants. *)
From Verif Require Import Prelude Proof_Prelude Model_Path Model_Json Model_Schema Spec_Json Proof_Dec
  Proof_Schema Model_Command Model_Target Spec_Target Proof_TargetBase Model_Gen Spec_Gen.

Ltac gsp := cbn [g_disk g_pc g_cfg g_load g_dirty g_tasks g_ok g_log gd_mt gd_store gd_made gwith_disk gwith_ok
  gidle set_task glogged set_gmt set_gstore set_made gkilled] in *.

(** ** Association lists *)

Lemma assoc_set_task (id id' : string) (t : gtask) (l : list (string * gtask)) :
  assoc id' (map (fun x => if String.eqb (fst x) id then (id, t) else x) l) =
  if String.eqb id' id then match assoc id l with Some _ => Some t | None => None end else assoc id' l.
Proof.
  induction l as [|[k v] l IH]; cbn [map assoc fst].
  - destruct (String.eqb id' id); reflexivity.
  - destruct (String.eqb k id) eqn:E.
    + apply String.eqb_eq in E as ->. cbn [assoc fst]. rewrite IH.
      destruct (String.eqb id' id) eqn:E'.
      * apply String.eqb_eq in E' as ->. rewrite String.eqb_refl. reflexivity.
      * destruct (String.eqb id' id) eqn:E2; [congruence|reflexivity].
    + cbn [assoc fst]. rewrite IH. destruct (String.eqb id' id) eqn:E'; [|reflexivity].
      apply String.eqb_eq in E' as ->. rewrite String.eqb_sym in E.
      destruct (String.eqb id k) eqn:E2; [congruence|reflexivity].
Qed.
Lemma keys_set_task (id : string) (t : gtask) (l : list (string * gtask)) :
  map fst (map (fun x => if String.eqb (fst x) id then (id, t) else x) l) = map fst l.
Proof.
  induction l as [|[k v] l IH]; cbn [map fst]; [reflexivity|]. rewrite IH. f_equal.
  destruct (String.eqb k id) eqn:E; [apply String.eqb_eq in E as ->|]; reflexivity.
Qed.
Lemma assoc_key {A} (id : string) (l : list (string * A)) :
  In id (map fst l) <-> exists x, assoc id l = Some x.
Proof.
  split.
  - intros H. destruct (assoc id l) as [x|] eqn:E; [eauto|]. exfalso. apply assoc_None in E. auto.
  - intros (x & H). apply assoc_In in H. apply in_map_iff. exists (id, x). auto.
Qed.

(** ** Converting and comparing one id *)


Lemma inputs_nlist (g : gid) : nlist (infos (gi_in g)).
Proof. apply infos_nlist. Qed.
Lemma inputs_npath (g : gid) : Forall npath (inputs_of g).
Proof. apply nlist_paths, infos_nlist. Qed.

Lemma convert_spec (mt : times) (g : gid) (i : idinfo) :
  convert mt g = Some i ->
  Hashed mt (inputs_of g) (ii_inputs i) /\ ii_outputs i = outputs_of g /\ ii_blob i = blob_of g /\
  (forall h, gi_handler g = Some h -> bh_verify h (bh_data h) = true).
Proof.
  unfold convert, blob_of. destruct (hash_all mt (infos (gi_in g))) as [ins ok] eqn:E.
  destruct (hash_all_spec _ _ _ _ (inputs_nlist g) E) as (_ & B & _).
  destruct ok; [|discriminate]. destruct (gi_handler g) as [h|].
  - unfold serialized_data. destruct (bh_verify h (bh_data h)) eqn:V; [|discriminate]. intros [= <-]. cbn.
    split; [exact (B eq_refl)|]. split; [reflexivity|]. split; [reflexivity|]. intros h' [= <-]. exact V.
  - intros [= <-]. cbn. split; [exact (B eq_refl)|]. split; [reflexivity|]. split; [reflexivity|]. discriminate.
Qed.

Lemma hash_all_cong (mt mt' : times) (l : infolist) :
  nlist l -> (forall f, In f (il_paths l) -> mt' f = mt f) -> hash_all mt' l = hash_all mt l.
Proof.
  induction l as [|i l IH]; intros Hn H; [reflexivity|]. apply Forall_cons_iff in Hn as [Hp Hn]. cbn [hash_all].
  rewrite IH; [|exact Hn|intros f Hf; apply H; right; exact Hf].
  unfold compute_hash. rewrite Hp, (H (pi_path i)); [reflexivity|left; reflexivity].
Qed.
Lemma convert_cong (mt mt' : times) (g : gid) :
  (forall f, In f (inputs_of g) -> mt' f = mt f) -> convert mt' g = convert mt g.
Proof. intros H. unfold convert. rewrite (hash_all_cong mt mt'); [reflexivity|apply inputs_nlist|exact H]. Qed.

Lemma convert_some (mt : times) (g : gid) :
  (forall f, In f (inputs_of g) -> mt f <> None) ->
  (forall h, gi_handler g = Some h -> bh_verify h (bh_data h) = true) ->
  exists i, convert mt g = Some i.
Proof.
  intros H V. unfold convert. destruct (hash_all_true mt (infos (gi_in g)) (inputs_nlist g) H) as (l & ->).
  destruct (gi_handler g) as [h|]; [|eauto]. unfold serialized_data. rewrite (V h eq_refl). eauto.
Qed.

Lemma is_changed_false (oh : option handler) (p c : idinfo) :
  is_changed oh p c = Some false <->
  ii_inputs p = ii_inputs c /\ ii_outputs p = ii_outputs c /\
  (forall h, oh = Some h -> check_changed h (ii_blob p) (ii_blob c) = Some false).
Proof.
  unfold is_changed. destruct (infolist_eqb (ii_inputs p) (ii_inputs c)) eqn:E1; cbn [negb orb].
  - apply infolist_eqb_eq in E1. destruct (str_list_eqb (ii_outputs p) (ii_outputs c)) eqn:E2; cbn [negb].
    + apply str_list_eqb_eq in E2. destruct oh as [h|]; split.
      * intros H. split; [exact E1|]. split; [exact E2|]. intros h' [= <-]. exact H.
      * intros (_ & _ & H). apply H. reflexivity.
      * intros _. split; [exact E1|]. split; [exact E2|]. discriminate.
      * intros _. reflexivity.
    + split; [discriminate|]. intros (_ & H & _). apply str_list_eqb_eq in H. congruence.
  - split; [discriminate|]. intros (H & _). apply infolist_eqb_eq in H. congruence.
Qed.
Lemma check_changed_false (h : handler) (p c : list N) :
  check_changed h p c = Some false <->
  bh_verify h p = true /\ bh_verify h c = true /\ bh_equal h p c = Some true.
Proof.
  unfold check_changed. destruct (bh_verify h p); cbn [negb]; [|split; [discriminate|intros (H & _); discriminate]].
  destruct (bh_verify h c); cbn [negb]; [|split; [discriminate|intros (_ & H & _); discriminate]].
  destruct (bh_equal h p c) as [[]|]; split; cbn; intros H; try discriminate; auto; destruct H as (_ & _ & H); discriminate.
Qed.

(** ** Entries that will not be taken for current *)

Definition outdated (next : string -> N) (mt : times) (i : idinfo) (g : gid) : Prop :=
  il_paths (ii_inputs i) <> inputs_of g \/ ii_outputs i <> outputs_of g \/
  (exists h, gi_handler g = Some h /\ check_changed h (ii_blob i) (bh_data h) <> Some false) \/
  (exists x, In x (ii_inputs i) /\ In (pi_path x) (inputs_of g) /\
     forall v, mt (pi_path x) = Some v \/ (next (pi_path x) <= v)%N -> pi_hash x <> dec_of_N v).

Definition timely (next : string -> N) (i : idinfo) : Prop :=
  forall x v, In x (ii_inputs i) -> pi_hash x = dec_of_N v -> (v < next (pi_path x))%N.

Lemma outdated_changed (next : string -> N) (mt : times) (i cur : idinfo) (g : gid) :
  outdated next mt i g -> convert mt g = Some cur -> is_changed (gi_handler g) i cur <> Some false.
Proof.
  intros O C H. apply is_changed_false in H as (H1 & H2 & H3).
  destruct (convert_spec _ _ _ C) as (C1 & C2 & C3 & _). destruct O as [O|[O|[(h & O1 & O2)|(x & O1 & _ & O2)]]].
  - apply O. rewrite H1. exact (Hashed_paths _ _ _ C1).
  - apply O. congruence.
  - apply O2. rewrite <- (H3 h O1), C3. unfold blob_of. rewrite O1. reflexivity.
  - rewrite H1 in O1. destruct (Hashed_In _ _ _ _ C1 O1) as (t & A & B). exact (O2 t (or_introl A) B).
Qed.

Lemma str_list_dec (a b : list string) : {a = b} + {a <> b}.
Proof. apply list_eq_dec, string_dec. Qed.

Lemma Hashed_differ (mt : times) (l : list string) (a b : infolist) :
  Hashed mt l b -> il_paths a = l -> a <> b -> exists x, In x a /\ ~ hashed mt (pi_path x) (pi_hash x).
Proof.
  intros B. revert a. induction B as [|p y l b [Hy1 Hy2] B IH]; intros a E N.
  - destruct a; [contradiction|discriminate].
  - destruct a as [|x a]; [discriminate|]. cbn in E. injection E as E1 E2.
    destruct (string_dec (pi_hash x) (pi_hash y)) as [D|D].
    + destruct (IH a E2) as (z & Z1 & Z2).
      { intros ->. apply N. f_equal. destruct x, y; cbn in *; congruence. }
      exists z. split; [right; exact Z1|exact Z2].
    + exists x. split; [left; reflexivity|]. intros K. apply D. rewrite E1 in K. exact (hashed_fun _ _ _ _ K Hy2).
Qed.

Lemma changed_outdated (next : string -> N) (mt : times) (i cur : idinfo) (g : gid) :
  convert mt g = Some cur -> timely next i -> is_changed (gi_handler g) i cur <> Some false ->
  outdated next mt i g.
Proof.
  intros C T H. destruct (convert_spec _ _ _ C) as (C1 & C2 & C3 & _). unfold outdated.
  destruct (str_list_dec (il_paths (ii_inputs i)) (inputs_of g)) as [E1|E1]; [|auto].
  destruct (str_list_dec (ii_outputs i) (outputs_of g)) as [E2|E2]; [|auto].
  destruct (infolist_eqb (ii_inputs i) (ii_inputs cur)) eqn:E3.
  - apply infolist_eqb_eq in E3. right. right. left. destruct (gi_handler g) as [h|] eqn:Eh.
    + exists h. split; [reflexivity|]. intros K. apply H. apply is_changed_false. split; [exact E3|].
      split; [congruence|]. intros h' [= <-]. rewrite C3. unfold blob_of. rewrite Eh. exact K.
    + exfalso. apply H. apply is_changed_false. split; [exact E3|]. split; [congruence|]. discriminate.
  - right. right. right. destruct (Hashed_differ _ _ _ _ C1 E1) as (x & X1 & X2).
    { intros K. apply infolist_eqb_eq in K. congruence. }
    exists x. split; [exact X1|]. split.
    { rewrite <- E1. unfold il_paths. apply in_map. exact X1. }
    intros v [V|V] K.
    + apply X2. exists v. auto.
    + specialize (T x v X1 K). lia.
Qed.

Lemma outdated_touch (next : string -> N) (mt : times) (i : idinfo) (g : gid) (f : string) (t : option N) :
  outdated next mt i g -> (~ In f (inputs_of g) \/ forall v, t = Some v -> (next f <= v)%N) ->
  outdated (next_after next (f, t)) (upd mt f t) i g.
Proof.
  intros [O|[O|[O|(x & O1 & O3 & O2)]]] F; unfold outdated; auto. right. right. right. exists x.
  split; [exact O1|]. split; [exact O3|]. intros v V. apply O2.
  unfold upd in V. destruct (String.eqb (pi_path x) f) eqn:E.
  - apply String.eqb_eq in E. destruct F as [F|F]; [exfalso; apply F; rewrite <- E; exact O3|].
    rewrite E in *. unfold next_after, upd in V. cbn [fst snd] in V. destruct V as [V|V].
    + right. exact (F v V).
    + right. destruct t as [w|]; [|exact V]. rewrite String.eqb_refl in V. lia.
  - destruct V as [V|V]; [left; exact V|right]. unfold next_after, upd in V. cbn [fst snd] in V.
    destruct t as [w|]; [|exact V]. rewrite E in V. exact V.
Qed.
Lemma next_after_le (next : string -> N) (x : string * option N) (f : string) : (next f <= next_after next x f)%N.
Proof.
  unfold next_after, upd. destruct (snd x) as [v|]; [|lia]. destruct (String.eqb f (fst x)) eqn:E; [|lia].
  apply String.eqb_eq in E as ->. lia.
Qed.
Lemma next_afters_le (w : list (string * option N)) (next : string -> N) (f : string) :
  (next f <= fold_left next_after w next f)%N.
Proof.
  revert next. induction w as [|x w IH]; intros next; cbn [fold_left]; [lia|].
  specialize (IH (next_after next x)). pose proof (next_after_le next x f). lia.
Qed.
Lemma outdated_le (next next' : string -> N) (mt : times) (i : idinfo) (g : gid) :
  outdated next mt i g -> (forall f, (next f <= next' f)%N) -> outdated next' mt i g.
Proof.
  intros [O|[O|[O|(x & O1 & O3 & O2)]]] F; unfold outdated; auto. right. right. right. exists x.
  split; [exact O1|]. split; [exact O3|]. intros v [V|V]; apply O2; [auto|]. right. specialize (F (pi_path x)). lia.
Qed.
(** After writing times that are all later than [next]. *)
Lemma outdated_writes (w : list (string * option N)) (i : idinfo) (g : gid) (next : string -> N) : forall mt,
  outdated next mt i g ->
  (forall f t, In (f, t) w -> ~ In f (inputs_of g) \/ forall v, t = Some v -> (next f <= v)%N) ->
  outdated next (write_all mt w) i g.
Proof.
  induction w as [|[f t] w IH]; intros mt O F; cbn [write_all fold_left]; [exact O|].
  apply IH; [|intros f' t' K; apply F; right; exact K]. cbn [fst snd].
  specialize (F f t (or_introl eq_refl)). destruct O as [O|[O|[O|(x & O1 & O3 & O2)]]]; unfold outdated; auto.
  right. right. right. exists x. split; [exact O1|]. split; [exact O3|]. intros v V. apply O2.
  unfold upd in V. destruct (String.eqb (pi_path x) f) eqn:E; [|exact V].
  apply String.eqb_eq in E. destruct F as [F|F]; [exfalso; apply F; rewrite <- E; exact O3|].
  right. destruct V as [V|V]; [|exact V]. rewrite E. exact (F v V).
Qed.

Lemma write_all_same (w : list (string * option N)) (f : string) : forall mt,
  (forall t, ~ In (f, t) w) -> write_all mt w f = mt f.
Proof.
  induction w as [|[k t] w IH]; intros mt H; cbn [write_all fold_left]; [reflexivity|].
  unfold write_all in IH. rewrite IH by (intros t' K; apply (H t'); right; exact K). cbn [fst snd]. unfold upd.
  destruct (String.eqb f k) eqn:E; [|reflexivity]. apply String.eqb_eq in E as ->. exfalso. apply (H t). left. reflexivity.
Qed.
Lemma write_all_bound (w : list (string * option N)) : forall mt next,
  (forall f v, mt f = Some v -> (v < next f)%N) ->
  forall f v, write_all mt w f = Some v -> (v < fold_left next_after w next f)%N.
Proof.
  induction w as [|[k t] w IH]; intros mt next H; cbn [write_all fold_left]; [exact H|].
  apply IH. intros f v. unfold upd, next_after. cbn [fst snd]. destruct (String.eqb f k) eqn:E.
  - intros ->. unfold upd. rewrite E. lia.
  - intros K. specialize (H f v K). destruct t as [u|]; [unfold upd; rewrite E; exact H|exact H].
Qed.
