From Coq Require Import Permutation Lia.
From Verif Require Import Prelude Model_Command Model_Target Model_Args Model_Reg Model_Tests Spec_Tests Spec_Reg Proof_Prelude Proof_Reg Proof_Tests.

Definition tests_in (evs : list vevent) : list qevent := flat_map (fun ev => match ev with VTest e => [e] | _ => [] end) evs.
Lemma tests_in_map qs : tests_in (map VTest qs) = qs.
Proof. unfold tests_in. induction qs as [|e qs IH]; cbn; [reflexivity|rewrite IH; reflexivity]. Qed.
Lemma tests_in_before cb : tests_in (before cb) = [].
Proof. destruct cb; reflexivity. Qed.

Section Run.
Variables (w : nat) (lv : log_level) (other : string -> option string) (cb : bool) (tests : list test) (users : nat -> list string).
Hypothesis NT : NoDup (map t_id tests).

Lemma run_inv evs s : reg_run_tests w lv other cb tests users evs = Some s ->
  QInv lv other tests (v_tests s) (tests_in evs) /\ qexec w lv other (q_init tests users) (tests_in evs) = Some (v_tests s).
Proof.
  intros H. apply run_shape in H. destruct H as [| | |qs q X|qs q X E W R]; cbn [v_tests].
  - split; [apply QInv_init; exact NT|reflexivity].
  - split; [apply QInv_init; exact NT|reflexivity].
  - split; [apply QInv_init; exact NT|reflexivity].
  - unfold tests_in. rewrite flat_map_app. fold (tests_in (before cb)) (tests_in (map VTest qs)). rewrite tests_in_before, tests_in_map.
    split; [exact (QInv_exec _ _ _ _ _ _ NT _ X)|exact X].
  - unfold tests_in. rewrite !flat_map_app. fold (tests_in (before cb)) (tests_in (map VTest qs)). rewrite tests_in_before, tests_in_map.
    cbn [app flat_map]. rewrite app_nil_r. split; [exact (QInv_exec _ _ _ _ _ _ NT _ X)|exact X].
Qed.
Lemma in_tests_in evs e : In e (tests_in evs) <-> In (VTest e) evs.
Proof.
  unfold tests_in. rewrite in_flat_map. split.
  - intros (ev & A & B). destruct ev; cbn in B; try contradiction. destruct B as [<-|[]]. exact A.
  - intros A. exists (VTest e). split; [exact A|left; reflexivity].
Qed.

(** ** Order *)

Lemma vtest_before evs s : reg_run_tests w lv other cb tests users evs = Some s ->
  (forall a e b, evs = a ++ VTest e :: b -> In (VBuilt true) a /\ (cb = true -> In VCallback a)) /\
  (forall a b, evs = a ++ VCallback :: b -> cb = true /\ a = [VBuilt true]).
Proof.
  intros H. apply run_shape in H.
  assert (Gen : forall l, (forall x, In x l -> (exists e, x = VTest e) \/ x = VReturn) ->
    (forall a e b, before cb ++ l = a ++ VTest e :: b -> In (VBuilt true) a /\ (cb = true -> In VCallback a)) /\
    (forall a b, before cb ++ l = a ++ VCallback :: b -> cb = true /\ a = [VBuilt true])).
  { intros l L. unfold before. split.
    - intros a e b E. destruct a as [|x a]; [destruct cb; discriminate E|]. injection E as <- E. split; [left; reflexivity|].
      intros ->. cbn [app] in E. destruct a as [|y a]; [discriminate E|]. injection E as <- E. right. left. reflexivity.
    - intros a b E. destruct a as [|x a]; [destruct cb; discriminate E|]. injection E as <- E. destruct cb; cbn [app] in E.
      + destruct a as [|y a]; [split; reflexivity|]. injection E as <- E. exfalso.
        destruct (L VCallback) as [(e & K)|K]; [rewrite E; apply in_or_app; right; left; reflexivity|discriminate K|discriminate K].
      + exfalso. destruct (L VCallback) as [(e & K)|K]; [rewrite E; apply in_or_app; right; left; reflexivity|discriminate K|discriminate K]. }
  assert (Tests : forall qs x, In x (map VTest qs) -> exists e, x = VTest e) by (intros qs x X; apply in_map_iff in X as (e & <- & _); eauto).
  destruct H as [| |Hc|qs q X|qs q X E W R].
  - split; intros [|? [|? ?]]; discriminate.
  - split; intros [|? [|? ?]]; discriminate.
  - split; intros [|? [|? ?]]; discriminate.
  - apply Gen. intros x K. left. exact (Tests _ _ K).
  - apply Gen. intros x K. apply in_app_or in K as [K|[<-|[]]]; [left; exact (Tests _ _ K)|right; reflexivity].
Qed.

Lemma built_first evs s : reg_run_tests w lv other cb tests users evs = Some s -> v_phase s = Returned -> In (VBuilt true) evs.
Proof.
  intros H P. apply run_shape in H. destruct H as [| | |qs q X|qs q X E W R]; cbn [v_phase] in P; try discriminate P.
  - destruct (q_ended q); discriminate P.
  - apply in_or_app. left. left. reflexivity.
Qed.

(** ** All tests have run when Run returns *)

Lemma returned_state evs s : reg_run_tests w lv other cb tests users evs = Some s -> v_phase s = Returned ->
  q_ended (v_tests s) = false /\ q_waiting (v_tests s) = [] /\ q_running (v_tests s) = [].
Proof.
  intros H P. apply run_shape in H. destruct H as [| | |qs q X|qs q X E W R]; cbn [v_phase v_tests] in *; try discriminate P; auto.
  destruct (q_ended q); discriminate P.
Qed.
Lemma in_mine id e qs : In e (mine id qs) <-> In e qs /\ ev_id e = id.
Proof. unfold mine. rewrite filter_In, String.eqb_eq. reflexivity. Qed.
Lemma returned_test evs s t : reg_run_tests w lv other cb tests users evs = Some s -> v_phase s = Returned -> In t tests ->
  exists c ws, cmd_of other t = Some c /\ c <> "" /\ mine (t_id t) (tests_in evs) = QStart (t_id t) :: writes (t_id t) ws ++ [QExit (t_id t) true] /\
    console_of (t_id t) (v_tests s) = begin lv t c ++ direct (t_out t) ws ++ report lv t (kept (t_out t) false ws) (kept (t_out t) true ws) /\
    started_of (t_id t) (v_tests s) = [(c, t_dir t)].
Proof.
  intros H P T. destruct (run_inv _ _ H) as [I _]. destruct (returned_state _ _ H P) as (E & W & R).
  destruct (qi_stage _ _ _ _ _ I t T) as [H1 H2 H3 H4|c ws H1 H2 H3 H4 H5 H6|c ws H1 H2 H3 H4 H5 H6|c ws H1 H2 H3 H4 H5 H6|H1 H2 H3 H4]; try congruence.
  - rewrite W in H2. destruct H2.
  - rewrite R in H4. destruct H4.
  - exists c, ws. auto.
Qed.
Lemma exit_false_in id ws b : In (QExit id false) (QStart id :: writes id ws ++ [QExit id b]) -> b = false.
Proof.
  intros [K|K]; [discriminate|]. apply in_app_or in K as [K|[K|[]]].
  - unfold writes in K. apply in_map_iff in K as (x & K & _). discriminate.
  - injection K as ->. reflexivity.
Qed.

(** Every process that was started belongs to a test. *)
Lemma started_of_exec qs : forall q, qexec w lv other (q_init tests users) qs = Some q ->
  incl (map fst (q_started q)) (map t_id tests).
Proof.
  induction qs as [|ev qs IH] using rev_ind; intros q H.
  - cbn in H. injection H as <-. intros x [].
  - rewrite qexec_app in H. destruct (qexec w lv other (q_init tests users) qs) as [q1|] eqn:X; [|discriminate]. cbn [qexec] in H.
    destruct (qstep w lv other q1 ev) as [q2|] eqn:S; [|discriminate]. injection H as <-. specialize (IH q1 eq_refl).
    pose proof (QInv_exec _ _ _ _ _ _ NT _ X) as I.
    unfold qstep in S. destruct (q_ended q1); [discriminate|]. destruct ev as [id|id err x|id ok].
    + destruct (Nat.ltb _ w); [|discriminate]. destruct (take_test id (q_waiting q1)) as [[t r]|] eqn:Tk; [|discriminate].
      apply take_test_some in Tk as (_ & P). assert (T : In t tests) by (apply (qi_wait _ _ _ _ _ I), (Permutation_in _ (Permutation_sym P)); left; reflexivity).
      destruct (test_text other (t_id t) (t_exe t) (t_cmd t) (t_args t)) as [c|]; [destruct (String.eqb c "")|]; injection S as <-; cbn [q_started]; try exact IH.
      rewrite map_app. apply incl_app; [exact IH|]. intros y [<-|[]]. cbn [fst]. exact (in_map t_id _ _ T).
    + destruct (String.eqb x ""); [discriminate|]. destruct (take_running id (q_running q1)) as [[[t [o e]] r]|]; [|discriminate].
      destruct (sink_of (t_out t) err); injection S as <-; exact IH.
    + destruct (take_running id (q_running q1)) as [[[t [o e]] r]|]; [|discriminate]. destruct ok; injection S as <-; exact IH.
Qed.

(** ** Progress *)

Lemma run_progress evs s : 0 < w -> reg_run_tests w lv other cb tests users evs = Some s -> v_phase s <> Returned -> v_phase s <> Ended ->
  exists ev s', vstep w lv other cb s ev = Some s'.
Proof.
  intros W0 H P1 P2. destruct (run_inv _ _ H) as [I _]. destruct s as [p q]. cbn [v_phase v_tests] in *. destruct p; try congruence.
  - exists (VBuilt true). cbn. eauto.
  - exists VCallback. cbn. eauto.
  - assert (E : q_ended q = false).
    { apply run_shape in H. inversion H; subst. destruct (q_ended q); [discriminate|reflexivity]. }
    destruct (q_running q) as [|[t k] r] eqn:R.
    + destruct (q_waiting q) as [|t r] eqn:Wt.
      * exists VReturn. cbn. rewrite Wt, R. eauto.
      * exists (VTest (QStart (t_id t))). cbn [vstep v_phase v_tests].
        assert (exists q', qstep w lv other q (QStart (t_id t)) = Some q') as (q' & ->); [|eauto].
        unfold qstep. rewrite E, R, Wt. cbn [length take_test]. rewrite String.eqb_refl. destruct w as [|w']; [lia|]. cbn [Nat.ltb Nat.leb].
        destruct (test_text other (t_id t) (t_exe t) (t_cmd t) (t_args t)) as [c|]; [destruct (String.eqb c "")|]; eauto.
    + exists (VTest (QExit (t_id t) true)). cbn [vstep v_phase v_tests].
      assert (exists q', qstep w lv other q (QExit (t_id t) true) = Some q') as (q' & ->); [|eauto].
      unfold qstep. rewrite E, R. cbn [take_running]. rewrite String.eqb_refl. destruct k. eauto.
Qed.

(** ** Ending *)

Lemma ended_why evs s : reg_run_tests w lv other cb tests users evs = Some s ->
  (v_phase s = Ended <-> In (VBuilt false) evs \/ exists t, In t tests /\
     ((cmd_of other t = None \/ cmd_of other t = Some "") /\ In (VTest (QStart (t_id t))) evs \/ In (VTest (QExit (t_id t) false)) evs)).
Proof.
  intros H. destruct (run_inv _ _ H) as [I _]. split.
  - intros P. pose proof (run_shape _ _ _ _ _ _ _ _ H) as Sh. destruct Sh as [| | |qs q X|qs q X E W R]; cbn [v_phase v_tests] in *; try discriminate P.
    + left. left. reflexivity.
    + right. destruct (q_ended q) eqn:E; [|discriminate P]. destruct (qi_end _ _ _ _ _ I E) as (t & T & K). exists t. split; [exact T|].
      rewrite !in_tests_in in K. exact K.
  - intros [K|(t & T & K)].
    + apply run_shape in H. destruct H as [| |Hc|qs q X|qs q X E W R]; cbn [v_phase] in *.
      * destruct K.
      * reflexivity.
      * destruct K as [K|[]]. discriminate K.
      * exfalso. apply in_app_or in K as [K|K]; [destruct cb; repeat (destruct K as [K|K]; [discriminate K|]); destruct K|].
        apply in_map_iff in K as (e & K & _). discriminate K.
      * exfalso. apply in_app_or in K as [K|K]; [destruct cb; repeat (destruct K as [K|K]; [discriminate K|]); destruct K|].
        apply in_app_or in K as [K|[K|[]]]; [|discriminate K]. apply in_map_iff in K as (e & K & _). discriminate K.
    + assert (E : q_ended (v_tests s) = true).
      { rewrite <- !in_tests_in in K.
        destruct (qi_stage _ _ _ _ _ I t T) as [H1 H2 H3 H4|c ws H1 H2 H3 H4 H5 H6|c ws H1 H2 H3 H4 H5 H6|c ws H1 H2 H3 H4 H5 H6|H1 H2 H3 H4]; try assumption; exfalso.
        - destruct K as [[_ K]|K].
          + assert (M : In (QStart (t_id t)) (mine (t_id t) (tests_in evs))) by (apply in_mine; auto). rewrite H1 in M. destruct M.
          + assert (M : In (QExit (t_id t) false) (mine (t_id t) (tests_in evs))) by (apply in_mine; auto). rewrite H1 in M. destruct M.
        - destruct K as [[[K|K] _]|K]; [congruence|congruence|].
          assert (M : In (QExit (t_id t) false) (mine (t_id t) (tests_in evs))) by (apply in_mine; auto). rewrite H1 in M.
          destruct M as [M|M]; [discriminate|]. unfold writes in M. apply in_map_iff in M as (x & M & _). discriminate.
        - destruct K as [[[K|K] _]|K]; [congruence|congruence|].
          assert (M : In (QExit (t_id t) false) (mine (t_id t) (tests_in evs))) by (apply in_mine; auto). rewrite H1 in M.
          apply exit_false_in in M. discriminate. }
      apply run_shape in H. destruct H as [| |Hc|qs q X|qs q X E' W R]; cbn [v_phase v_tests] in *; try discriminate E.
      * rewrite E. reflexivity.
      * congruence.
Qed.

(** ** What is seen *)

Definition pieces_of (err : bool) (ws : list (bool * string)) : list string := flat_map (fun x => if Bool.eqb (fst x) err then [snd x] else []) ws.
Lemma wrote_mine id err evs : wrote id err evs =
  flat_map (fun e => match e with QWrite _ e' x => if Bool.eqb e' err then [x] else [] | _ => [] end) (mine id (tests_in evs)).
Proof.
  unfold wrote, tests_in. induction evs as [|ev evs IH]; [reflexivity|]. cbn [flat_map].
  unfold mine. rewrite filter_app, flat_map_app. unfold mine in IH. rewrite <- IH. f_equal.
  destruct ev as [b| |[i|i e x|i ok]|]; cbn [filter flat_map ev_id app]; try reflexivity; destruct (String.eqb i id); cbn [flat_map andb app]; try reflexivity.
  rewrite app_nil_r. reflexivity.
Qed.
Lemma directly_mine o id evs : wrote_directly o id evs =
  flat_map (fun e => match e with QWrite _ e' x => match sink_of o e' with Inherited => [Direct e' x] | _ => [] end | _ => [] end) (mine id (tests_in evs)).
Proof.
  unfold wrote_directly, tests_in. induction evs as [|ev evs IH]; [reflexivity|]. cbn [flat_map].
  unfold mine. rewrite filter_app, flat_map_app. unfold mine in IH. rewrite <- IH. f_equal.
  destruct ev as [b| |[i|i e x|i ok]|]; cbn [filter flat_map ev_id app]; try reflexivity; destruct (String.eqb i id); cbn [flat_map app]; try reflexivity.
  unfold sink_of, user_sink. destruct (o_type o), e; try reflexivity; [destruct (o_stderr o)|destruct (o_stdout o)]; reflexivity.
Qed.
Lemma mine_pieces id ws l err : (forall e, In e l -> forall a b c, e <> QWrite a b c) ->
  flat_map (fun e => match e with QWrite _ e' x => if Bool.eqb e' err then [x] else [] | _ => [] end) (QStart id :: writes id ws ++ l) = pieces_of err ws.
Proof.
  intros L. cbn [flat_map app]. rewrite flat_map_app. replace (flat_map _ l) with (@nil string).
  - rewrite app_nil_r. unfold writes, pieces_of. induction ws as [|[e x] ws IH]; [reflexivity|]. cbn [map flat_map fst snd]. rewrite IH. reflexivity.
  - symmetry. induction l as [|e l IHl]; [reflexivity|]. cbn [flat_map]. rewrite IHl by (intros e' K; apply L; right; exact K).
    destruct e as [i|i e x|i ok]; try reflexivity. exfalso. exact (L _ (or_introl eq_refl) _ _ _ eq_refl).
Qed.
Lemma mine_direct o id ws l : (forall e, In e l -> forall a b c, e <> QWrite a b c) ->
  flat_map (fun e => match e with QWrite _ e' x => match sink_of o e' with Inherited => [Direct e' x] | _ => [] end | _ => [] end) (QStart id :: writes id ws ++ l)
  = direct o ws.
Proof.
  intros L. cbn [flat_map app]. rewrite flat_map_app. replace (flat_map _ l) with (@nil shown).
  - rewrite app_nil_r. unfold writes, direct. induction ws as [|[e x] ws IH]; [reflexivity|]. cbn [map flat_map fst snd]. rewrite IH. reflexivity.
  - symmetry. induction l as [|e l IHl]; [reflexivity|]. cbn [flat_map]. rewrite IHl by (intros e' K; apply L; right; exact K).
    destruct e as [i|i e x|i ok]; try reflexivity. exfalso. exact (L _ (or_introl eq_refl) _ _ _ eq_refl).
Qed.
Lemma kept_pieces o err ws : kept o err ws = if is_kept (o_type o) err then pieces_of err ws else [].
Proof.
  unfold kept, pieces_of. assert (K : sink_of o err = Kept <-> is_kept (o_type o) err = true).
  { unfold sink_of, is_kept, user_sink. destruct (o_type o), err; cbn; try (split; intros; congruence);
      [destruct (o_stderr o)|destruct (o_stdout o)]; split; intros; congruence. }
  destruct (is_kept (o_type o) err).
  - replace (sink_of o err) with Kept by (symmetry; apply K; reflexivity). reflexivity.
  - destruct (sink_of o err) eqn:S; try (specialize (proj1 K eq_refl); discriminate); clear;
      induction ws as [|x ws IH]; cbn; [reflexivity|destruct (Bool.eqb (fst x) err); exact IH|reflexivity|destruct (Bool.eqb (fst x) err); exact IH].
Qed.
Lemma begin_announced t c : begin lv t c = announced lv (t_id t) c.
Proof.
  unfold begin, said, announced, log_line, when, info_shown, debug_shown.
  destruct lv; cbn [level_number Nat.leb map app]; rewrite ?sapp_assoc; reflexivity.
Qed.
Lemma report_logged t out err : report lv t out err =
  when (info_shown lv) (logged (o_type (t_out t)) (t_id t) (join " " out) (join " " err)).
Proof.
  unfold report, log_line, when, info_shown, logged, aggregate. destruct (o_type (t_out t)), lv; cbn [level_number Nat.leb map app]; rewrite ?sapp_assoc; reflexivity.
Qed.
Lemma logged_kept ty id o1 e1 o2 e2 : (is_kept ty false = true -> o1 = o2) -> (is_kept ty true = true -> e1 = e2) -> logged ty id o1 e1 = logged ty id o2 e2.
Proof. destruct ty; cbn; intros A B; try rewrite A by reflexivity; try rewrite B by reflexivity; reflexivity. Qed.

Theorem test_seen evs s t : reg_run_tests w lv other cb tests users evs = Some s -> In t tests -> In (VTest (QExit (t_id t) true)) evs ->
  exists c, cmd_of other t = Some c /\
    seen (t_id t) s = announced lv (t_id t) c ++ wrote_directly (t_out t) (t_id t) evs ++
      when (info_shown lv) (logged (o_type (t_out t)) (t_id t) (join " " (wrote (t_id t) false evs)) (join " " (wrote (t_id t) true evs))).
Proof.
  intros H T X. destruct (run_inv _ _ H) as [I _]. apply in_tests_in in X.
  assert (M : In (QExit (t_id t) true) (mine (t_id t) (tests_in evs))) by (apply in_mine; auto).
  destruct (qi_stage _ _ _ _ _ I t T) as [H1 H2 H3 H4|c ws H1 H2 H3 H4 H5 H6|c ws H1 H2 H3 H4 H5 H6|c ws H1 H2 H3 H4 H5 H6|H1 H2 H3 H4]; rewrite H1 in M.
  - destruct M.
  - exfalso. destruct M as [M|M]; [discriminate|]. unfold writes in M. apply in_map_iff in M as (y & M & _). discriminate.
  - exists c. split; [exact H2|]. unfold seen. fold (console_of (t_id t) (v_tests s)).
    assert (L : forall e, In e [QExit (t_id t) true] -> forall a b c, e <> QWrite a b c) by (intros e [<-|[]]; discriminate).
    rewrite H5, begin_announced, report_logged, directly_mine, !wrote_mine, H1, (mine_direct _ _ _ _ L), !(mine_pieces _ _ _ _ L), !kept_pieces.
    do 3 f_equal. apply logged_kept; intros ->; reflexivity.
  - exfalso. destruct M as [M|M]; [discriminate|]. apply in_app_or in M as [M|[M|[]]]; [|discriminate].
    unfold writes in M. apply in_map_iff in M as (y & M & _). discriminate.
  - destruct M as [M|[]]. discriminate.
Qed.
Theorem test_failed evs s t : reg_run_tests w lv other cb tests users evs = Some s -> In t tests -> In (VTest (QExit (t_id t) false)) evs ->
  exists c, cmd_of other t = Some c /\
    seen (t_id t) s = announced lv (t_id t) c ++ wrote_directly (t_out t) (t_id t) evs ++ [Line ("[assert]: Could not run " +++ t_id t)].
Proof.
  intros H T X. destruct (run_inv _ _ H) as [I _]. apply in_tests_in in X.
  assert (M : In (QExit (t_id t) false) (mine (t_id t) (tests_in evs))) by (apply in_mine; auto).
  destruct (qi_stage _ _ _ _ _ I t T) as [H1 H2 H3 H4|c ws H1 H2 H3 H4 H5 H6|c ws H1 H2 H3 H4 H5 H6|c ws H1 H2 H3 H4 H5 H6|H1 H2 H3 H4]; rewrite H1 in M.
  - destruct M.
  - exfalso. destruct M as [M|M]; [discriminate|]. unfold writes in M. apply in_map_iff in M as (y & M & _). discriminate.
  - apply exit_false_in in M. discriminate.
  - exists c. split; [exact H2|]. unfold seen. fold (console_of (t_id t) (v_tests s)).
    assert (L : forall e, In e [QExit (t_id t) false] -> forall a b c, e <> QWrite a b c) by (intros e [<-|[]]; discriminate).
    rewrite H5, begin_announced, directly_mine, H1, (mine_direct _ _ _ _ L). do 2 f_equal.
    unfold failed, log_line. destruct lv; cbn [level_number Nat.leb]; rewrite ?sapp_assoc; reflexivity.
  - destruct M as [M|[]]. discriminate.
Qed.

(** ** The user's vectors *)

Lemma users_exec v t err : In t tests -> goes_to t err v ->
  (forall t' err', In t' tests -> goes_to t' err' v -> t' = t /\ err' = err) ->
  forall qs q, qexec w lv other (q_init tests users) qs = Some q ->
  q_users q v = users v ++ wrote (t_id t) err (map VTest qs).
Proof.
  intros T G U qs. induction qs as [|ev qs IH] using rev_ind; intros q H.
  - cbn in H. injection H as <-. cbn. rewrite app_nil_r. reflexivity.
  - rewrite qexec_app in H. destruct (qexec w lv other (q_init tests users) qs) as [q1|] eqn:X; [|discriminate]. cbn [qexec] in H.
    destruct (qstep w lv other q1 ev) as [q2|] eqn:S; [|discriminate]. injection H as <-. specialize (IH q1 eq_refl).
    pose proof (QInv_exec _ _ _ _ _ _ NT _ X) as I.
    assert (Ap : wrote (t_id t) err (map VTest (qs ++ [ev])) = wrote (t_id t) err (map VTest qs) ++ wrote (t_id t) err [VTest ev]).
    { unfold wrote. rewrite map_app, flat_map_app. reflexivity. }
    rewrite Ap, app_assoc, <- IH. clear Ap IH. unfold qstep in S. destruct (q_ended q1); [discriminate|]. destruct ev as [id|id e x|id ok].
    + cbn. rewrite app_nil_r. destruct (Nat.ltb _ w); [|discriminate]. destruct (take_test id (q_waiting q1)) as [[u r]|]; [|discriminate].
      destruct (test_text other (t_id u) (t_exe u) (t_cmd u) (t_args u)) as [c|]; [destruct (String.eqb c "")|]; injection S as <-; reflexivity.
    + destruct (String.eqb x "") eqn:Ex; [discriminate|]. destruct (take_running id (q_running q1)) as [[[u [o e0]] r]|] eqn:Tk; [|discriminate].
      apply take_running_some in Tk as (Tid & P). unfold run_id in Tid. cbn [fst] in Tid. subst id.
      assert (Tu : In u tests).
      { apply (qi_run _ _ _ _ _ I). rewrite P. left. reflexivity. }
      assert (Gs : sink_of (t_out u) e = ToUser v <-> goes_to u e v).
      { unfold goes_to, sink_of, user_sink. destruct (o_type (t_out u)), e; try (split; [discriminate|intros [K _]; discriminate K]);
          [destruct (o_stderr (t_out u)) as [z|]|destruct (o_stdout (t_out u)) as [z|]];
          (split; [intros K; first [discriminate K|injection K as ->; split; reflexivity]|intros [_ K]; first [discriminate K|injection K as ->; reflexivity]]). }
      assert (Mine : (String.eqb (t_id u) (t_id t) && Bool.eqb e err = true) <-> goes_to u e v).
      { split.
        - intros K. apply andb_true_iff in K as [K1 K2]. apply String.eqb_eq in K1. apply Bool.eqb_prop in K2. subst e.
          rewrite (same_id tests NT u t Tu T K1). exact G.
        - intros K. destruct (U u e Tu K) as [-> ->]. rewrite String.eqb_refl, Bool.eqb_reflx. reflexivity. }
      unfold wrote. cbn [flat_map]. rewrite app_nil_r.
      destruct (sink_of (t_out u) e) as [| |v'] eqn:Sk; injection S as <-; cbn [q_users].
      * destruct (_ && _) eqn:B; [|rewrite app_nil_r; reflexivity]. pose proof (proj2 Gs (proj1 Mine eq_refl)) as C. discriminate C.
      * destruct (_ && _) eqn:B; [|rewrite app_nil_r; reflexivity]. pose proof (proj2 Gs (proj1 Mine eq_refl)) as C. discriminate C.
      * unfold append_user. destruct (Nat.eqb v v') eqn:V.
        -- apply Nat.eqb_eq in V. subst v'. rewrite (proj2 Mine) by (apply Gs; reflexivity). reflexivity.
        -- destruct (_ && _) eqn:B; [|rewrite app_nil_r; reflexivity]. pose proof (proj2 Gs (proj1 Mine eq_refl)) as C. injection C as C. subst v'.
           rewrite Nat.eqb_refl in V. discriminate V.
    + cbn. rewrite app_nil_r. destruct (take_running id (q_running q1)) as [[[u [o e0]] r]|]; [|discriminate]. destruct ok; injection S as <-; reflexivity.
Qed.
Lemma users_none v : (forall t err, In t tests -> ~ goes_to t err v) ->
  forall qs q, qexec w lv other (q_init tests users) qs = Some q -> q_users q v = users v.
Proof.
  intros U qs. induction qs as [|ev qs IH] using rev_ind; intros q H.
  - cbn in H. injection H as <-. reflexivity.
  - rewrite qexec_app in H. destruct (qexec w lv other (q_init tests users) qs) as [q1|] eqn:X; [|discriminate]. cbn [qexec] in H.
    destruct (qstep w lv other q1 ev) as [q2|] eqn:S; [|discriminate]. injection H as <-. specialize (IH q1 eq_refl).
    pose proof (QInv_exec _ _ _ _ _ _ NT _ X) as I. rewrite <- IH.
    unfold qstep in S. destruct (q_ended q1); [discriminate|]. destruct ev as [id|id e x|id ok].
    + destruct (Nat.ltb _ w); [|discriminate]. destruct (take_test id (q_waiting q1)) as [[u r]|]; [|discriminate].
      destruct (test_text other (t_id u) (t_exe u) (t_cmd u) (t_args u)) as [c|]; [destruct (String.eqb c "")|]; injection S as <-; reflexivity.
    + destruct (String.eqb x "") eqn:Ex; [discriminate|]. destruct (take_running id (q_running q1)) as [[[u [o e0]] r]|] eqn:Tk; [|discriminate].
      apply take_running_some in Tk as (Tid & P).
      assert (Tu : In u tests) by (apply (qi_run _ _ _ _ _ I); rewrite P; left; reflexivity).
      destruct (sink_of (t_out u) e) as [| |v'] eqn:Sk; injection S as <-; cbn [q_users]; try reflexivity.
      unfold append_user. destruct (Nat.eqb v v') eqn:V; [|reflexivity]. exfalso. apply Nat.eqb_eq in V. subst v'. apply (U u e Tu).
      unfold goes_to, sink_of, user_sink in *. destruct (o_type (t_out u)), e; try discriminate Sk;
        [destruct (o_stderr (t_out u)) as [z|]|destruct (o_stdout (t_out u)) as [z|]]; first [discriminate Sk|injection Sk as ->; split; reflexivity].
    + destruct (take_running id (q_running q1)) as [[[u [o e0]] r]|]; [|discriminate]. destruct ok; injection S as <-; reflexivity.
Qed.
Lemma wrote_tests id err evs : wrote id err evs = wrote id err (map VTest (tests_in evs)).
Proof.
  rewrite !wrote_mine, tests_in_map. reflexivity.
Qed.
Theorem users_get evs s t err v : reg_run_tests w lv other cb tests users evs = Some s -> In t tests -> goes_to t err v ->
  (forall t' err', In t' tests -> goes_to t' err' v -> t' = t /\ err' = err) ->
  q_users (v_tests s) v = users v ++ wrote (t_id t) err evs.
Proof.
  intros H T G U. destruct (run_inv _ _ H) as [_ X]. rewrite wrote_tests. exact (users_exec v t err T G U _ _ X).
Qed.
End Run.

(** ** Statements about a registry *)

Section Registry.
Variables (n : nat) (prog : list api) (r : reg) (exe : string -> string) (dir : string -> option string) (out : string -> test_output) (tests : list test).
Hypothesis R : registers n prog r.
Hypothesis P : Permutation tests (tests_of r exe dir out).

Lemma tests_ids : map t_id (tests_of r exe dir out) = map fst (rg_tests r).
Proof. unfold tests_of. rewrite map_map. reflexivity. Qed.
Lemma tests_nodup : NoDup (map t_id tests).
Proof.
  apply (Permutation_NoDup (l := map fst (rg_tests r))).
  - rewrite <- tests_ids. apply Permutation_map, Permutation_sym, P.
  - exact (proj1 (proj2 (proj2 (proj2 (reg_ends n prog r R))))).
Qed.
Lemma registered_test id cmd args : In (id, (cmd, args)) (rg_tests r) <-> In (TEST id (exe id) cmd args (dir id) (out id)) tests.
Proof.
  assert (E : In (TEST id (exe id) cmd args (dir id) (out id)) tests <-> In (TEST id (exe id) cmd args (dir id) (out id)) (tests_of r exe dir out)).
  { split; apply Permutation_in; [exact P|apply Permutation_sym, P]. }
  rewrite E. unfold tests_of. rewrite in_map_iff. split.
  - intros H. exists (id, (cmd, args)). split; [reflexivity|exact H].
  - intros ((i & c & a) & K & H). cbn [fst snd] in K. injection K as -> _ -> -> _ _. exact H.
Qed.
Lemma test_registered t : In t tests -> exists id cmd args, In (id, (cmd, args)) (rg_tests r) /\ t = TEST id (exe id) cmd args (dir id) (out id).
Proof.
  intros T. apply (Permutation_in _ P) in T. unfold tests_of in T. apply in_map_iff in T as ((i & c & a) & <- & H). exists i, c, a. split; [exact H|reflexivity].
Qed.

Variables (w : nat) (lv : log_level) (other : string -> option string) (cb : bool) (users : nat -> list string) (evs : list vevent) (s : vstate).
Hypothesis H : reg_run_tests w lv other cb tests users evs = Some s.

Lemma reg_tests_after : 
  (forall a e b, evs = a ++ VTest e :: b -> In (VBuilt true) a /\ (cb = true -> In VCallback a)) /\
  (forall a b, evs = a ++ VCallback :: b -> cb = true /\ a = [VBuilt true]).
Proof. exact (vtest_before w lv other cb tests users evs s H). Qed.

Lemma processes_only id : processes id s <> [] -> In id (map fst (rg_tests r)).
Proof.
  intros K. destruct (run_inv w lv other cb tests users tests_nodup evs s H) as [_ X].
  pose proof (started_of_exec w lv other tests users tests_nodup _ _ X) as L. rewrite <- tests_ids.
  apply (Permutation_in _ (Permutation_map t_id P)). apply L. unfold processes in K.
  destruct (filter (fun x => String.eqb (fst x) id) (q_started (v_tests s))) as [|x l] eqn:F; [exfalso; apply K; reflexivity|].
  assert (M : In x (x :: l)) by (left; reflexivity). rewrite <- F in M. apply filter_In in M as (M1 & M2). apply String.eqb_eq in M2. subst id.
  apply in_map. exact M1.
Qed.
Lemma processes_once id : length (processes id s) <= 1.
Proof.
  destruct (processes id s) as [|x l] eqn:E; [cbn; lia|].
  assert (K : In id (map fst (rg_tests r))) by (apply processes_only; intros Z; congruence).
  apply in_map_iff in K as ((i & c & a) & K & T). cbn [fst] in K. subst i. apply registered_test in T.
  destruct (run_inv w lv other cb tests users tests_nodup evs s H) as [I _].
  assert (Ps : forall z, started_of (t_id (TEST id (exe id) c a (dir id) (out id))) (v_tests s) = z -> processes id s = z) by (intros z <-; reflexivity).
  destruct (qi_stage _ _ _ _ _ I _ T) as [H1 H2 H3 H4|c' ws H1 H2 H3 H4 H5 H6|c' ws H1 H2 H3 H4 H5 H6|c' ws H1 H2 H3 H4 H5 H6|H1 H2 H3 H4];
    [apply Ps in H4|apply Ps in H6|apply Ps in H6|apply Ps in H6|apply Ps in H4]; rewrite E in *;
    [discriminate|injection H6 as _ ->|injection H6 as _ ->|injection H6 as _ ->|discriminate]; cbn; lia.
Qed.

Lemma reg_returned : v_phase s = Returned ->
  In (VBuilt true) evs /\
  forall id cmd args, In (id, (cmd, args)) (rg_tests r) ->
    exists c, test_text other id (exe id) cmd args = Some c /\ c <> "" /\ processes id s = [(c, dir id)] /\
      In (VTest (QExit id true)) evs /\ ~ In (VTest (QExit id false)) evs.
Proof.
  intros Ph. split; [exact (built_first w lv other cb tests users evs s H Ph)|]. intros id cmd args T. apply registered_test in T.
  destruct (returned_test w lv other cb tests users tests_nodup evs s _ H Ph T) as (c & ws & C & C0 & M & _ & S). cbn [t_id t_dir] in *.
  exists c. split; [exact C|]. split; [exact C0|]. split; [exact S|]. split.
  - apply in_tests_in. apply (in_mine id). rewrite M. right. apply in_or_app. right. left. reflexivity.
  - intros K. apply in_tests_in in K. assert (K' : In (QExit id false) (mine id (tests_in evs))) by (apply in_mine; auto).
    rewrite M in K'. apply exit_false_in in K'. discriminate.
Qed.

Lemma reg_ended : v_phase s = Ended <->
  In (VBuilt false) evs \/ exists id cmd args, In (id, (cmd, args)) (rg_tests r) /\
    (In (VTest (QExit id false)) evs \/
     In (VTest (QStart id)) evs /\ (test_text other id (exe id) cmd args = None \/ test_text other id (exe id) cmd args = Some "")).
Proof.
  rewrite (ended_why w lv other cb tests users tests_nodup evs s H). split; (intros [K|K]; [left; exact K|right]).
  - destruct K as (t & T & K). destruct (test_registered t T) as (id & cmd & args & A & ->). exists id, cmd, args. split; [exact A|].
    cbn [t_id] in K. destruct K as [[K1 K2]|K]; [right; split; [exact K2|exact K1]|left; exact K].
  - destruct K as (id & cmd & args & A & K). exists (TEST id (exe id) cmd args (dir id) (out id)). split; [apply registered_test; exact A|].
    cbn [t_id]. destruct K as [K|[K1 K2]]; [right; exact K|left; split; [exact K2|exact K1]].
Qed.

Lemma reg_progress : 0 < w -> v_phase s <> Returned -> v_phase s <> Ended ->
  exists ev s', reg_run_tests w lv other cb tests users (evs ++ [ev]) = Some s'.
Proof.
  intros W P1 P2. destruct (run_progress w lv other cb tests users tests_nodup evs s W H P1 P2) as (ev & s' & St).
  exists ev, s'. unfold reg_run_tests in *. rewrite vexec_app, H. cbn [vexec]. rewrite St. reflexivity.
Qed.

Lemma reg_seen id cmd args : In (id, (cmd, args)) (rg_tests r) -> In (VTest (QExit id true)) evs ->
  exists c, test_text other id (exe id) cmd args = Some c /\
    seen id s = announced lv id c ++ wrote_directly (out id) id evs ++
      when (info_shown lv) (logged (o_type (out id)) id (join " " (wrote id false evs)) (join " " (wrote id true evs))).
Proof.
  intros T X. apply registered_test in T. exact (test_seen w lv other cb tests users tests_nodup evs s _ H T X).
Qed.
Lemma reg_failed id cmd args : In (id, (cmd, args)) (rg_tests r) -> In (VTest (QExit id false)) evs ->
  exists c, test_text other id (exe id) cmd args = Some c /\
    seen id s = announced lv id c ++ wrote_directly (out id) id evs ++ [Line ("[assert]: Could not run " +++ id)].
Proof.
  intros T X. apply registered_test in T. exact (test_failed w lv other cb tests users tests_nodup evs s _ H T X).
Qed.
Lemma join_one l : length l <= 1 -> join " " l = text l.
Proof. destruct l as [|x [|y l]]; cbn; intros K; [reflexivity|rewrite sapp_nil_r; reflexivity|lia]. Qed.
Lemma reg_seen_text id cmd args : In (id, (cmd, args)) (rg_tests r) -> In (VTest (QExit id true)) evs -> info_shown lv = true ->
  (forall err, is_kept (o_type (out id)) err = true -> length (wrote id err evs) <= 1) ->
  exists c, test_text other id (exe id) cmd args = Some c /\
    seen id s = announced lv id c ++ wrote_directly (out id) id evs ++
      map Line (logged (o_type (out id)) id (text (wrote id false evs)) (text (wrote id true evs))).
Proof.
  intros T X L K. destruct (reg_seen id cmd args T X) as (c & C & E). exists c. split; [exact C|]. rewrite E, L. unfold when.
  do 3 f_equal. apply logged_kept; intros Y; apply join_one, K, Y.
Qed.
Lemma reg_failed_default id cmd args : In (id, (cmd, args)) (rg_tests r) -> In (VTest (QExit id false)) evs -> o_type (out id) = DefaultBehaviour ->
  forall err x, In x (wrote id err evs) -> In (Direct err x) (seen id s).
Proof.
  intros T X D err x K. destruct (reg_failed id cmd args T X) as (c & _ & ->). apply in_or_app. right. apply in_or_app. left.
  unfold wrote in K. apply in_flat_map in K as (ev & E & K). unfold wrote_directly. apply in_flat_map. exists ev. split; [exact E|].
  destruct ev as [b| |[i|i e y|i ok]|]; try destruct K. rewrite D. destruct (String.eqb i id); [|destruct K]. cbn [andb] in K.
  destruct (Bool.eqb e err) eqn:B; [|destruct K]. apply Bool.eqb_prop in B. subst e. destruct K as [<-|[]]. left. reflexivity.
Qed.

Lemma reg_users id cmd args (err : bool) v : In (id, (cmd, args)) (rg_tests r) ->
  (o_type (out id) = UserRedirect /\ (if err then o_stderr (out id) else o_stdout (out id)) = Some v) ->
  (forall (id' : string) (err' : bool), In id' (map fst (rg_tests r)) -> o_type (out id') = UserRedirect -> (if err' then o_stderr (out id') else o_stdout (out id')) = Some v ->
     id' = id /\ err' = err) ->
  q_users (v_tests s) v = users v ++ wrote id err evs.
Proof.
  intros T G U. pose proof T as T'. apply registered_test in T.
  apply (users_get w lv other cb tests users tests_nodup evs s _ err v H T G).
  intros t err' T1 G1. destruct (test_registered t T1) as (id1 & cmd1 & args1 & A & ->). destruct G1 as [G1 G2]. cbn [t_out] in G1, G2.
  destruct (U id1 err') as [-> ->]; [apply (in_map fst _ _ A)|exact G1|exact G2|]. split; [|reflexivity].
  apply (same_id tests tests_nodup); [exact T1|exact T|reflexivity].
Qed.
Lemma reg_users_kept v : (forall (id : string) (err : bool), In id (map fst (rg_tests r)) -> o_type (out id) = UserRedirect ->
     (if err then o_stderr (out id) else o_stdout (out id) : option nat) <> Some v) ->
  q_users (v_tests s) v = users v.
Proof.
  intros U. destruct (run_inv w lv other cb tests users tests_nodup evs s H) as [_ X].
  apply (users_none w lv other tests users tests_nodup v) with (qs := tests_in evs); [|exact X].
  intros t err T [G1 G2]. destruct (test_registered t T) as (id & cmd & args & A & ->). cbn [t_out] in *.
  exact (U id err (in_map fst _ _ A) G1 G2).
Qed.
End Registry.

Lemma reg_hidden n prog r exe dir out tests : registers n prog r -> Permutation tests (tests_of r exe dir out) ->
  forall w other cb users evs s, reg_run_tests w Warning other cb tests users evs = Some s ->
  forall id cmd args, In (id, (cmd, args)) (rg_tests r) -> In (VTest (QExit id true)) evs -> out id = default_output ->
  seen id s = [].
Proof.
  intros R P w other cb users evs s H id cmd args T X D.
  destruct (reg_seen n prog r exe dir out tests R P w Warning other cb users evs s H id cmd args T X) as (c & _ & ->).
  rewrite D. cbn [announced when info_shown debug_shown app]. rewrite app_nil_r. unfold wrote_directly.
  induction evs as [|ev l IH]; [reflexivity|]. cbn [flat_map]. replace (flat_map _ l) with (@nil shown).
  - destruct ev as [b| |[i|i e y|i ok]|]; try reflexivity. destruct (String.eqb i id), e; reflexivity.
  - clear. symmetry. induction l as [|ev l IH]; [reflexivity|]. cbn [flat_map]. rewrite IH.
    destruct ev as [b| |[i|i e y|i ok]|]; try reflexivity. destruct (String.eqb i id), e; reflexivity.
Qed.

(** ** Workers *)

Lemma begun_app a b : begun (a ++ b) = begun a + begun b.
Proof. unfold begun. rewrite filter_app, app_length. reflexivity. Qed.
Lemma over_app a b : over (a ++ b) = over a + over b.
Proof. unfold over. rewrite filter_app, app_length. reflexivity. Qed.
Lemma workers_exec w lv other tests users qs : forall q, qexec w lv other (q_init tests users) qs = Some q ->
  length (q_running q) <= w /\ (q_ended q = false -> begun (map VTest qs) = over (map VTest qs) + length (q_running q)).
Proof.
  induction qs as [|ev qs IH] using rev_ind; intros q H.
  - cbn in H. injection H as <-. cbn. split; [lia|reflexivity].
  - rewrite qexec_app in H. destruct (qexec w lv other (q_init tests users) qs) as [q1|] eqn:X; [|discriminate]. cbn [qexec] in H.
    destruct (qstep w lv other q1 ev) as [q2|] eqn:S; [|discriminate]. injection H as <-. specialize (IH q1 eq_refl).
    rewrite map_app, begun_app, over_app. unfold qstep in S. destruct (q_ended q1) eqn:E; [discriminate|]. destruct IH as [I1 I2]. specialize (I2 eq_refl).
    destruct ev as [id|id err x|id ok]; cbn [map] in *.
    + change (begun [VTest (QStart id)]) with 1. change (over [VTest (QStart id)]) with 0.
      destruct (Nat.ltb_spec (length (q_running q1)) w) as [L|]; [|discriminate]. destruct (take_test id (q_waiting q1)) as [[t r]|]; [|discriminate].
      destruct (test_text other (t_id t) (t_exe t) (t_cmd t) (t_args t)) as [c|]; [destruct (String.eqb c "")|]; injection S as <-; cbn [q_running q_ended length];
        (split; [lia|intros K; try discriminate K; lia]).
    + change (begun [VTest (QWrite id err x)]) with 0. change (over [VTest (QWrite id err x)]) with 0.
      destruct (String.eqb x ""); [discriminate|]. destruct (take_running id (q_running q1)) as [[[t [o e]] r]|] eqn:Tk; [|discriminate].
      apply take_running_some in Tk as (_ & P). apply Permutation_length in P. cbn [length] in P.
      destruct (sink_of (t_out t) err); injection S as <-; cbn [q_running q_ended length]; (split; [lia|intros _; lia]).
    + change (begun [VTest (QExit id ok)]) with 0. change (over [VTest (QExit id ok)]) with 1.
      destruct (take_running id (q_running q1)) as [[[t [o e]] r]|] eqn:Tk; [|discriminate].
      apply take_running_some in Tk as (_ & P). apply Permutation_length in P. cbn [length] in P.
      destruct ok; injection S as <-; cbn [q_running q_ended length]; (split; [lia|intros K; try discriminate K; lia]).
Qed.
Lemma begun_before cb : begun (before cb) = 0. Proof. destruct cb; reflexivity. Qed.
Lemma over_before cb : over (before cb) = 0. Proof. destruct cb; reflexivity. Qed.
Theorem run_workers w lv other cb tests users evs s : reg_run_tests w lv other cb tests users evs = Some s -> v_phase s <> Ended ->
  begun evs <= over evs + w.
Proof.
  intros H P. apply run_shape in H. destruct H as [| |Hc|qs q X|qs q X E W R]; cbn [v_phase] in P; try (cbn; lia).
  - rewrite begun_app, over_app, begun_before, over_before. destruct (workers_exec _ _ _ _ _ _ _ X) as [A B].
    destruct (q_ended q); [congruence|]. specialize (B eq_refl). lia.
  - rewrite !begun_app, !over_app, begun_before, over_before. destruct (workers_exec _ _ _ _ _ _ _ X) as [A B]. specialize (B E). cbn. lia.
Qed.
