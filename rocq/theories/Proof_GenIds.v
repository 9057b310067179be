From Verif Require Import Prelude Proof_Prelude Model_Command Spec_Command Proof_Command Model_Gen Spec_Pattern Proof_Pattern Spec_GenIds.

Lemma construct_all_cases o val l : (forall k, names_of o k = val k) -> Forall (Forall token_ok) l ->
  (exists l', construct_all (go_args o) (map render l) = AOk l' /\ stand_for val l l') \/
  (construct_all (go_args o) (map render l) = AFatal /\ unknown_name val l).
Proof.
  intros V. induction 1 as [|p r T F IH]; cbn [map construct_all].
  - left. exists []. split; [reflexivity|constructor].
  - rewrite (construct_names o p T), (expand_same _ _ p V).
    destruct (expand val p) as [v|] eqn:E; cbn [to_fres].
    + destruct IH as [(l' & -> & S)|[-> (q & I & U)]].
      * left. exists (v :: l'). split; [reflexivity|constructor; assumption].
      * right. split; [reflexivity|]. exists q. split; [right; exact I|exact U].
    + right. split; [reflexivity|]. exists p. split; [left; reflexivity|exact E].
Qed.

Lemma stand_for_fun val l a b : stand_for val l a -> stand_for val l b -> a = b.
Proof.
  intros H. revert b. induction H as [|p t l a E H IH]; intros b B; inversion B as [|p' t' l' b' E' B']; subst; [reflexivity|].
  f_equal; [congruence|exact (IH _ B')].
Qed.
Lemma stand_for_known val l a : stand_for val l a -> ~ unknown_name val l.
Proof.
  induction 1 as [|p t l a E H IH]; intros (q & I & U); [destruct I|]. destruct I as [<-|I]; [congruence|]. apply IH. exists q. split; assumption.
Qed.

Lemma unknown_l val a b : unknown_name val a -> unknown_name val (a ++ b).
Proof. intros (p & I & U). exists p. split; [apply in_or_app; left; exact I|exact U]. Qed.
Lemma unknown_r val a b : unknown_name val b -> unknown_name val (a ++ b).
Proof. intros (p & I & U). exists p. split; [apply in_or_app; right; exact I|exact U]. Qed.
Lemma unknown_app val a b : unknown_name val (a ++ b) -> unknown_name val a \/ unknown_name val b.
Proof. intros (p & I & U). apply in_app_or in I as [I|I]; [left|right]; exists p; split; assumption. Qed.

(** One id, exactly. *)
Lemma id_added o id ins outs h : Forall (Forall token_ok) ins -> Forall (Forall token_ok) outs ->
  (exists o' ins' outs', add_id_info o id (map render ins) (map render outs) h = AOk o' /\
     ~ In id (map fst (go_ids o)) /\ stand_for (names_of o) ins ins' /\ stand_for (names_of o) outs outs' /\
     go_args o' = go_args o /\ go_ids o' = go_ids o ++ [(id, GI ins' outs' h)]) \/
  (add_id_info o id (map render ins) (map render outs) h = AFatal /\
     (In id (map fst (go_ids o)) \/ unknown_name (names_of o) (ins ++ outs))).
Proof.
  intros Fi Fo. unfold add_id_info. destruct (assoc id (go_ids o)) as [g|] eqn:A.
  - right. split; [reflexivity|]. left. apply assoc_In in A. exact (in_map fst _ _ A).
  - apply assoc_None in A.
    destruct (construct_all_cases o _ ins (fun k => eq_refl) Fi) as [(ins' & -> & Si)|[-> U]].
    + destruct (construct_all_cases o _ outs (fun k => eq_refl) Fo) as [(outs' & -> & So)|[-> U]].
      * left. eexists. exists ins', outs'. split; [reflexivity|]. cbn [go_args go_ids]. repeat split; assumption.
      * right. split; [reflexivity|]. right. apply unknown_r, U.
    + right. split; [reflexivity|]. right. apply unknown_l, U.
Qed.

Lemma stand_for_ext val val' l l' : (forall k, val k = val' k) -> stand_for val l l' -> stand_for val' l l'.
Proof.
  intros V. induction 1 as [|p t l l' E H IH]; constructor; [rewrite <- (expand_same _ _ p V); exact E|exact IH].
Qed.

Lemma described_exists l : Forall description_ok l -> forall o val, (forall k, names_of o k = val k) ->
  (describes o l = AFatal /\ described val (map fst (go_ids o)) l None) \/
  (exists o' ids, describes o l = AOk o' /\ go_ids o' = go_ids o ++ ids /\ described val (map fst (go_ids o)) l (Some ids)).
Proof.
  induction 1 as [|c r T F IH]; intros o val V; cbn [describes].
  - right. exists o, []. split; [reflexivity|]. rewrite app_nil_r. split; [reflexivity|constructor].
  - destruct c as [k p|id ins outs h]; cbn [describe description_ok] in *.
    + unfold add_pattern. rewrite (construct_names o p T), (expand_same _ _ p V).
      destruct (expand val p) as [v|] eqn:E; cbn [to_fres].
      * assert (V' : forall x, names_of (GO (add_default_argument (go_args o) (k, v)) (go_ids o)) x = naming val k v x).
        { intros x. unfold names_of at 1. cbn [go_args]. rewrite names_of_add. apply naming_same. exact V. }
        destruct (IH _ _ V') as [[E1 D]|(o' & ids & E1 & E2 & D)]; cbn [go_ids] in *.
        -- left. split; [exact E1|]. eapply described_pattern; eassumption.
        -- right. exists o', ids. split; [exact E1|]. split; [exact E2|]. eapply described_pattern; eassumption.
      * left. split; [reflexivity|]. apply described_bad_pattern, E.
    + destruct T as [Ti To]. destruct (id_added o id ins outs h Ti To) as [(o1 & ins' & outs' & -> & N & Si & So & Ea & Ei)|[-> W]].
      * assert (V1 : forall x, names_of o1 x = val x) by (intros x; unfold names_of; rewrite Ea; apply V).
        assert (M : map fst (go_ids o1) = map fst (go_ids o) ++ [id]) by (rewrite Ei, map_app; reflexivity).
        assert (Si' : stand_for val ins ins') by exact (stand_for_ext _ _ _ _ V Si).
        assert (So' : stand_for val outs outs') by exact (stand_for_ext _ _ _ _ V So).
        destruct (IH _ _ V1) as [[E1 D]|(o' & ids & E1 & E2 & D)]; rewrite M in D.
        -- left. split; [exact E1|]. exact (described_id _ _ _ _ _ h _ _ _ _ N Si' So' D).
        -- right. exists o', ((id, GI ins' outs' h) :: ids). split; [exact E1|].
           split; [rewrite E2, Ei, <- app_assoc; reflexivity|]. exact (described_id _ _ _ _ _ h _ _ _ _ N Si' So' D).
      * left. split; [reflexivity|]. destruct W as [I|U]; [apply described_taken, I|]. apply described_bad_id.
        destruct U as (q & I & U). exists q. split; [exact I|]. rewrite <- (expand_same _ _ q V). exact U.
Qed.

Lemma described_fun val taken l res : described val taken l res -> forall res', described val taken l res' -> res = res'.
Proof.
  induction 1 as [|val taken k p v r res E D IH|val taken k p r E|val taken id ins outs h ins' outs' r res N Si So D IH|val taken id ins outs h r I|val taken id ins outs h r U];
    intros res' D'; inversion D'; subst; try congruence; try tauto.
  - apply IH. congruence.
  - match goal with A : stand_for val ins ?a, B : stand_for val outs ?b, C : described val (taken ++ [id]) r ?c |- _ =>
      rewrite (stand_for_fun _ _ _ _ Si A), (stand_for_fun _ _ _ _ So B), (IH _ C); reflexivity end.
  - exfalso. match goal with U : unknown_name val (ins ++ outs) |- _ => apply unknown_app in U as [U|U];
      [exact (stand_for_known _ _ _ Si U)|exact (stand_for_known _ _ _ So U)] end.
  - exfalso. apply unknown_app in U as [U|U]; [eapply stand_for_known; [|exact U]|eapply stand_for_known; [|exact U]]; eassumption.
Qed.

Lemma described_exact o l res : Forall description_ok l -> described (names_of o) (map fst (go_ids o)) l res ->
  match res with
  | None => describes o l = AFatal
  | Some ids => exists o', describes o l = AOk o' /\ go_ids o' = go_ids o ++ ids
  end.
Proof.
  intros F D. destruct (described_exists l F o _ (fun k => eq_refl)) as [[E D']|(o' & ids & E & E2 & D')]; rewrite (described_fun _ _ _ _ D _ D').
  - exact E.
  - exists o'. split; assumption.
Qed.
Lemma described_total o l : Forall description_ok l -> exists res, described (names_of o) (map fst (go_ids o)) l res.
Proof. intros F. destruct (described_exists l F o _ (fun k => eq_refl)) as [[E D]|(o' & ids & E & E2 & D)]; eexists; exact D. Qed.
