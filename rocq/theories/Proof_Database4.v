(** Which targets count as built in a process. *)
From Verif Require Import Prelude Model_Schema Model_ToolchainConfig Model_Target Model_Reg Model_Project
  Model_CompileCommands Model_Database Spec_Database.

Lemma wexec_snoc build added : forall evs w ev, wexec build added w (evs ++ [ev]) =
  match wexec build added w evs with Some w1 => wstep build added w1 ev | None => None end.
Proof.
  induction evs as [|x evs IH]; intros w ev; cbn [app wexec].
  - destruct (wstep build added w ev); reflexivity.
  - destruct (wstep build added w x); [apply IH|reflexivity].
Qed.
Lemma completes_iff st r : completes st r = true <-> s_dirty st = true /\
  exists text, store_text (update_store (s_buf st) (s_user st)) = Some text /\ (r = WOk \/ exists n, r = WShort n true).
Proof.
  unfold completes. rewrite andb_true_iff. split; intros [D H]; (split; [exact D|]).
  - destruct (store_text _) as [t|]; [|discriminate]. exists t. split; [reflexivity|].
    destruct r as [| |n [|]]; try discriminate; eauto.
  - destruct H as (t & -> & [->|[n ->]]); reflexivity.
Qed.
Lemma step_built build added w ev w' : wstep build added w ev = Some w' ->
  w_built w' = match ev with WRun pe => built_after (w_p w) (w_built w) pe | _ => w_built w end.
Proof.
  intros S. destruct ev as [pe|r|t]; cbn [wstep] in S.
  - destruct (match w_stage w with WBefore => true | _ => after_generate pe end); [|discriminate].
    destruct (pstep (w_p w) pe); [|discriminate]. injection S as <-. reflexivity.
  - destruct (w_stage w); try discriminate. destruct (run_returned _); [|discriminate].
    destruct (cc_generate _ _ _), r; try discriminate; try (injection S as <-; reflexivity).
    destruct (short n text); [|discriminate]. injection S as <-. reflexivity.
  - injection S as <-. reflexivity.
Qed.

Section Built.
Variables (build : string) (added : list string) (w0 : wstate) (id : string).
Let here evs := stored_here build added w0 evs id.

Lemma here_old evs ev : (forall l, ev <> WRun (PStop l)) -> here evs -> here (evs ++ [ev]).
Proof.
  intros N (a & r & t & b & w1 & e & st & x & -> & Nb & X & R). exists a, r, t, (b ++ [ev]), w1, e, st, x.
  split; [rewrite <- app_assoc; reflexivity|]. split; [|split; [exact X|exact R]].
  intros l K. apply in_app_iff in K as [K|[K|[]]]; [exact (Nb l K)|exact (N l K)].
Qed.
Lemma here_inv evs ev : here (evs ++ [ev]) -> (here evs /\ forall l, ev <> WRun (PStop l)) \/
  exists r t w1 e st, ev = WRun (PStep id (EvEnd r) t) /\ wexec build added w0 evs = Some w1 /\
    assoc id (p_targets (w_p w1)) = Some (e, st) /\ completes st r = true.
Proof.
  intros (a & r & t & b & w1 & e & st & x & E & Nb & X & As & D & T & W).
  destruct b as [|y b _] using rev_ind.
  - apply app_inj_tail in E as [-> ->]. right. exists r, t, w1, e, st. repeat split; try assumption. apply completes_iff. eauto.
  - rewrite app_comm_cons, app_assoc in E. apply app_inj_tail in E as [-> ->]. left. split.
    + exists a, r, t, b, w1, e, st, x. repeat split; try assumption. intros l K. apply (Nb l). apply in_app_iff. auto.
    + intros l ->. apply (Nb l). apply in_app_iff. right. left. reflexivity.
Qed.

Lemma built_iff : w_built w0 = [] -> forall evs w, wexec build added w0 evs = Some w -> (In id (w_built w) <-> here evs).
Proof.
  intros B0 evs. induction evs as [|ev evs IH] using rev_ind; intros w X.
  - cbn [wexec] in X. injection X as <-. rewrite B0. split; [intros []|]. intros (a & r & t & b & w1 & e & st & x & E & _).
    destruct a; discriminate.
  - rewrite wexec_snoc in X. destruct (wexec build added w0 evs) as [w1|] eqn:X1; [|discriminate].
    specialize (IH w1 eq_refl). rewrite (step_built _ _ _ _ _ X).
    assert (New : forall r t e st, ev = WRun (PStep id (EvEnd r) t) -> assoc id (p_targets (w_p w1)) = Some (e, st) -> completes st r = true -> here (evs ++ [ev])).
    { intros r t e st -> As C. apply completes_iff in C as (D & x & T & W). exists evs, r, t, [], w1, e, st, x.
      repeat split; try assumption. intros l []. }
    split.
    + intros H. destruct ev as [pe|r|t]; [|apply here_old; [discriminate|tauto]|apply here_old; [discriminate|tauto]].
      destruct pe as [f t|i|i c ord|k r|i|i x t|i f t|i|i okk|l]; cbn [built_after] in H; try (apply here_old; [discriminate|tauto]).
      * destruct x; try (apply here_old; [discriminate|tauto]). destruct (assoc i (p_targets (w_p w1))) as [[e st]|] eqn:As; [|apply here_old; [discriminate|tauto]].
        destruct (completes st w2) eqn:C; [|apply here_old; [discriminate|tauto]].
        destruct H as [->|H]; [exact (New _ _ _ _ eq_refl As C)|apply here_old; [discriminate|tauto]].
      * destruct H.
    + intros H. apply here_inv in H as [[H N]|(r & t & w2 & e & st & -> & X2 & As & C)].
      * apply IH in H. destruct ev as [pe|r|t]; try exact H. destruct pe as [f t|i|i c ord|k r|i|i x t|i f t|i|i okk|l]; cbn [built_after]; try exact H.
        -- destruct x; try exact H. destruct (assoc i (p_targets (w_p w1))) as [[e st]|]; [|exact H]. destruct (completes st w2); [right|]; exact H.
        -- destruct (N l eq_refl).
      * rewrite X1 in X2. injection X2 as <-. cbn [built_after]. rewrite As, C. left. reflexivity.
Qed.
End Built.
