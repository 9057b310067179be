From Verif Require Import Prelude Proof_Prelude Model_Command Spec_Command Proof_Command Model_Gen Spec_Pattern.

Lemma names_of_add o k v : forall x,
  first_value x (add_default_argument (go_args o) (k, v)) = naming (names_of o) k v x.
Proof.
  intros x. rewrite <- assoc_first_value, add_default_assoc. unfold naming, names_of.
  rewrite <- assoc_first_value. destruct (assoc x (go_args o)); [reflexivity|].
  cbn [fst snd]. rewrite String.eqb_sym. destruct (String.eqb x k); reflexivity.
Qed.

Lemma construct_names o l : Forall token_ok l -> construct (go_args o) (render l) [] = to_fres (expand (names_of o) l).
Proof.
  intros H. rewrite (construct_render _ _ _ H), app_nil_r. reflexivity.
Qed.

Lemma expand_same f g l : (forall k, f k = g k) -> expand f l = expand g l.
Proof. intros E. apply expand_ext. intros n _. apply E. Qed.

Lemma naming_same f g k v x : (forall k, f k = g k) -> naming f k v x = naming g k v x.
Proof. intros E. unfold naming. rewrite E. reflexivity. Qed.

(** A deterministic version of [names_after]. *)
Fixpoint after (val : string -> option string) (l : list (string * list token)) : option (string -> option string) :=
  match l with
  | [] => Some val
  | (k, p) :: r => match expand val p with None => None | Some v => after (naming val k v) r end
  end.
Lemma after_spec l : forall val, names_after val l (after val l).
Proof.
  induction l as [|[k p] r IH]; intros val; cbn [after]; [constructor|].
  destruct (expand val p) as [v|] eqn:E; [exact (after_next _ _ _ _ _ _ E (IH _))|exact (after_unknown _ _ _ _ E)].
Qed.
Lemma names_after_fun val l res : names_after val l res -> res = after val l.
Proof.
  induction 1 as [val|val k l r v res E H IH|val k l r E]; cbn [after]; [reflexivity| |]; rewrite E; [exact IH|reflexivity].
Qed.

Lemma add_patterns_after l : Forall (fun x => Forall token_ok (snd x)) l -> forall o val,
  (forall k, names_of o k = val k) ->
  match after val l with
  | None => add_patterns o (written l) = AFatal
  | Some val' => exists o', add_patterns o (written l) = AOk o' /\ go_ids o' = go_ids o /\ forall k, names_of o' k = val' k
  end.
Proof.
  induction 1 as [|[k p] r T F IH]; intros o val V; cbn [after written map add_patterns fst snd].
  - exists o. split; [reflexivity|]. split; [reflexivity|exact V].
  - unfold add_pattern. cbn [snd] in T. rewrite (construct_names o p T), (expand_same _ _ p V).
    destruct (expand val p) as [v|]; cbn [to_fres]; [|reflexivity].
    assert (V' : forall x, names_of (GO (add_default_argument (go_args o) (k, v)) (go_ids o)) x = naming val k v x).
    { intros x. unfold names_of at 1. cbn [go_args]. rewrite names_of_add. apply naming_same. exact V. }
    exact (IH _ _ V').
Qed.

Lemma patterns_named o l res : Forall (fun x => Forall token_ok (snd x)) l -> names_after (names_of o) l res ->
  match res with
  | None => add_patterns o (written l) = AFatal
  | Some val => exists o', add_patterns o (written l) = AOk o' /\ go_ids o' = go_ids o /\
                  forall t, Forall token_ok t -> construct (go_args o') (render t) [] = to_fres (expand val t)
  end.
Proof.
  intros T H. rewrite (names_after_fun _ _ _ H). pose proof (add_patterns_after l T o _ (fun k => eq_refl)) as A.
  destruct (after (names_of o) l) as [val|]; [|exact A]. destruct A as (o' & A & B & C).
  exists o'. split; [exact A|]. split; [exact B|]. intros t Ht. rewrite (construct_names o' t Ht), (expand_same _ _ t C). reflexivity.
Qed.

(** ** Texts already expandable keep their meaning *)
Lemma add_patterns_keeps l : forall o o', add_patterns o l = AOk o' -> forall k v, assoc k (go_args o) = Some v -> assoc k (go_args o') = Some v.
Proof.
  induction l as [|[k p] r IH]; intros o o'; cbn [add_patterns]; [intros [= <-]; tauto|].
  unfold add_pattern. destruct (construct (go_args o) p []) as [v| |]; try discriminate.
  intros H k0 v0 A. apply (IH _ _ H). cbn [go_args]. rewrite add_default_assoc, A. reflexivity.
Qed.
Lemma expand_more f g l t : (forall k v, f k = Some v -> g k = Some v) -> expand f l = Some t -> expand g l = Some t.
Proof.
  intros M. revert t. induction l as [|[c|n] r IH]; intros t; cbn [expand]; [tauto| |].
  - destruct (expand f r) as [u|]; [|discriminate]. cbn [option_map]. intros [= <-]. rewrite (IH u eq_refl). reflexivity.
  - destruct (f n) as [v|] eqn:E; [|discriminate]. destruct (expand f r) as [u|]; [|discriminate]. intros [= <-].
    rewrite (M _ _ E), (IH u eq_refl). reflexivity.
Qed.
Lemma meaning_kept o l o' p t : add_patterns o l = AOk o' -> construct (go_args o) p [] = FOk t -> construct (go_args o') p [] = FOk t.
Proof.
  intros H K. apply construct_ok_iff in K as (tk & T1 & -> & T2). apply construct_ok_iff. exists tk. split; [exact T1|]. split; [reflexivity|].
  rewrite app_nil_r in *. revert T2. apply expand_more. intros k v. rewrite <- !assoc_first_value. exact (add_patterns_keeps _ _ _ H k v).
Qed.

(** ** Orders *)
(** With self-contained patterns the result is given key by key. *)
Definition at_once (val : string -> option string) (l : list (string * list token)) (x : string) : option string :=
  match val x with
  | Some w => Some w
  | None => match assoc x l with Some p => expand val p | None => None end
  end.

Lemma self_contained_tail val k p v r : self_contained val ((k, p) :: r) -> self_contained (naming val k v) r.
Proof.
  intros S k' p' n I F N K. unfold naming in N. destruct (val n) eqn:E; [discriminate|].
  apply (S k' p' n (or_intror I) F E). right. exact K.
Qed.
Lemma self_contained_expand val k p v r k' p' : self_contained val ((k, p) :: r) -> In (k', p') r ->
  expand (naming val k v) p' = expand val p'.
Proof.
  intros S I. apply expand_ext. intros n F. unfold naming. destruct (val n) eqn:E; [reflexivity|].
  destruct (String.eqb n k) eqn:Q; [|reflexivity]. apply String.eqb_eq in Q. subst n.
  exfalso. apply (S k' p' k (or_intror I) F E). left. reflexivity.
Qed.
Lemma after_at_once l : forall val, NoDup (map fst l) -> self_contained val l ->
  match after val l with
  | None => exists k p, In (k, p) l /\ expand val p = None
  | Some val' => (forall k p, In (k, p) l -> expand val p <> None) /\ forall x, val' x = at_once val l x
  end.
Proof.
  induction l as [|[k p] r IH]; intros val N S; cbn [after].
  - split; [intros k p []|]. intros x. unfold at_once. cbn [assoc]. destruct (val x); reflexivity.
  - destruct (expand val p) as [v|] eqn:E.
    2:{ exists k, p. split; [left; reflexivity|exact E]. }
    inversion N as [|? ? N1 N2]; subst. specialize (IH _ N2 (self_contained_tail _ _ _ v _ S)).
    destruct (after (naming val k v) r) as [val'|].
    + destruct IH as [A B]. split.
      * intros k' p' [I|I]; [injection I as <- <-; congruence|]. rewrite <- (self_contained_expand _ _ _ v _ _ _ S I). exact (A _ _ I).
      * intros x. rewrite B. unfold at_once, naming. cbn [assoc]. destruct (val x) as [w|] eqn:V; [reflexivity|].
        destruct (String.eqb x k) eqn:Q.
        -- apply String.eqb_eq in Q. subst x. rewrite E. reflexivity.
        -- destruct (assoc x r) as [q|] eqn:Z; [|reflexivity].
           change (expand (naming val k v) q = expand val q). exact (self_contained_expand _ _ _ v _ _ _ S (assoc_In _ _ _ Z)).
    + destruct IH as (k' & p' & I & Q). exists k', p'. split; [right; exact I|]. rewrite <- (self_contained_expand _ _ _ v _ _ _ S I). exact Q.
Qed.

Lemma self_contained_perm val l l' : Permutation l l' -> self_contained val l -> self_contained val l'.
Proof.
  intros P S k p n I F V K. apply (S k p n); [exact (Permutation_in _ (Permutation_sym P) I)|exact F|exact V|].
  exact (Permutation_in _ (Permutation_map fst (Permutation_sym P)) K).
Qed.

(** Both orders succeed and mean the same, or both are fatal. *)
Lemma patterns_any_order o l l' : Forall (fun x => Forall token_ok (snd x)) l -> NoDup (map fst l) -> Permutation l l' ->
  self_contained (names_of o) l ->
  (add_patterns o (written l) = AFatal /\ add_patterns o (written l') = AFatal) \/
  (exists o1 o2, add_patterns o (written l) = AOk o1 /\ add_patterns o (written l') = AOk o2 /\
     forall t, Forall token_ok t -> construct (go_args o1) (render t) [] = construct (go_args o2) (render t) []).
Proof.
  intros T N P S.
  assert (T' : Forall (fun x => Forall token_ok (snd x)) l') by exact (Permutation_Forall P T).
  assert (N' : NoDup (map fst l')) by exact (Permutation_NoDup (Permutation_map fst P) N).
  pose proof (self_contained_perm _ _ _ P S) as S'.
  pose proof (after_at_once l _ N S) as A. pose proof (after_at_once l' _ N' S') as A'.
  pose proof (add_patterns_after l T o _ (fun k => eq_refl)) as B. pose proof (add_patterns_after l' T' o _ (fun k => eq_refl)) as B'.
  destruct (after (names_of o) l) as [v|], (after (names_of o) l') as [v'|].
  - right. destruct B as (o1 & B1 & _ & B2), B' as (o2 & B1' & _ & B2'). exists o1, o2. split; [exact B1|]. split; [exact B1'|].
    intros t Ht. rewrite (construct_names o1 t Ht), (construct_names o2 t Ht). f_equal. apply expand_same. intros k.
    rewrite B2, B2'. destruct A as [_ A], A' as [_ A']. rewrite A, A'. unfold at_once. rewrite (assoc_perm k _ _ N P). reflexivity.
  - exfalso. destruct A' as (k & p & I & E). destruct A as [A _]. exact (A k p (Permutation_in _ (Permutation_sym P) I) E).
  - exfalso. destruct A as (k & p & I & E). destruct A' as [A' _]. exact (A' k p (Permutation_in _ P I) E).
  - left. split; assumption.
Qed.

Lemma after_incl l : forall val v v', after val l = Some v -> (forall k w, val k = Some w -> v' k = Some w) ->
  (forall k p, In (k, p) l -> val k = None -> v' k = expand v' p) -> forall k w, v k = Some w -> v' k = Some w.
Proof.
  induction l as [|[k p] r IH]; intros val v v'; cbn [after]; [intros [= <-]; tauto|].
  destruct (expand val p) as [t|] eqn:E; [|discriminate]. intros H V S.
  apply (IH _ _ _ H).
  - intros x w. unfold naming. destruct (val x) as [u|] eqn:X; [intros [= <-]; exact (V _ _ X)|].
    destruct (String.eqb x k) eqn:Q; [|discriminate]. apply String.eqb_eq in Q. subst x. intros [= <-].
    rewrite (S k p (or_introl eq_refl) X). exact (expand_more _ _ _ _ V E).
  - intros x q I X. apply (S x q (or_intror I)). unfold naming in X. destruct (val x); [discriminate|reflexivity].
Qed.
Lemma after_extends l : forall val v, after val l = Some v -> forall k w, val k = Some w -> v k = Some w.
Proof.
  induction l as [|[k p] r IH]; intros val v; cbn [after]; [intros [= <-]; tauto|].
  destruct (expand val p) as [t|]; [|discriminate]. intros H x w X. apply (IH _ _ H). unfold naming. rewrite X. reflexivity.
Qed.
Lemma after_solves l : forall val v, NoDup (map fst l) -> after val l = Some v ->
  forall k p, In (k, p) l -> val k = None -> v k = expand v p.
Proof.
  induction l as [|[k p] r IH]; intros val v N; cbn [after]; [intros _ k p []|].
  destruct (expand val p) as [t|] eqn:E; [|discriminate]. intros H. inversion N as [|? ? N1 N2]; subst.
  pose proof (after_extends _ _ _ H) as X.
  intros k' p' [I|I] V.
  - injection I as <- <-. rewrite (X k t); [|unfold naming; rewrite V, String.eqb_refl; reflexivity].
    symmetry. apply (expand_more val v); [|exact E]. intros k1 w W. apply X. unfold naming. rewrite W. reflexivity.
  - apply (IH _ _ N2 H _ _ I). unfold naming. rewrite V. destruct (String.eqb k' k) eqn:Q; [|reflexivity].
    apply String.eqb_eq in Q. subst k'. exfalso. apply N1. exact (in_map fst _ _ I).
Qed.
Lemma after_perm val l l' v v' : NoDup (map fst l) -> Permutation l l' -> after val l = Some v -> after val l' = Some v' ->
  forall k, v k = v' k.
Proof.
  intros N P H H'. pose proof (Permutation_NoDup (Permutation_map fst P) N) as N'.
  assert (A : forall k w, v k = Some w -> v' k = Some w).
  { apply (after_incl l val); [exact H|exact (after_extends _ _ _ H')|]. intros k p I. exact (after_solves _ _ _ N' H' _ _ (Permutation_in _ P I)). }
  assert (B : forall k w, v' k = Some w -> v k = Some w).
  { apply (after_incl l' val); [exact H'|exact (after_extends _ _ _ H)|]. intros k p I. exact (after_solves _ _ _ N H _ _ (Permutation_in _ (Permutation_sym P) I)). }
  intros k. destruct (v k) as [w|] eqn:E; [symmetry; exact (A _ _ E)|]. destruct (v' k) as [w|] eqn:E'; [|reflexivity].
  rewrite (B _ _ E') in E. discriminate.
Qed.
Lemma accepted_orders_agree o l l' o1 o2 :
  Forall (fun x => Forall token_ok (snd x)) l -> NoDup (map fst l) -> Permutation l l' ->
  add_patterns o (written l) = AOk o1 -> add_patterns o (written l') = AOk o2 ->
  forall t, Forall token_ok t -> construct (go_args o1) (render t) [] = construct (go_args o2) (render t) [].
Proof.
  intros T N P H1 H2 t Ht.
  assert (T' : Forall (fun x => Forall token_ok (snd x)) l') by exact (Permutation_Forall P T).
  pose proof (add_patterns_after l T o _ (fun k => eq_refl)) as B. pose proof (add_patterns_after l' T' o _ (fun k => eq_refl)) as B'.
  destruct (after (names_of o) l) as [v|] eqn:E; [|congruence]. destruct (after (names_of o) l') as [v'|] eqn:E'; [|congruence].
  destruct B as (x & B1 & _ & B2), B' as (y & B1' & _ & B2'). assert (x = o1) by congruence. assert (y = o2) by congruence. subst x y.
  rewrite (construct_names o1 t Ht), (construct_names o2 t Ht). f_equal. apply expand_same. intros k. rewrite B2, B2'.
  exact (after_perm _ _ _ _ _ N P E E' k).
Qed.

Lemma pats_okb_sound (l : list (string * list token)) : forallb (fun x => forallb token_okb (snd x)) l = true -> Forall (fun x => Forall token_ok (snd x)) l.
Proof. rewrite forallb_forall, Forall_forall. intros H x I. exact (tokens_okb_sound _ (H x I)). Qed.
