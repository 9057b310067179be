(** Sessions checked by computation. *)
From Verif Require Import Prelude Proof_Prelude Model_Path Model_Json Model_Schema Model_Command Spec_Command
  Model_ToolchainConfig Model_Target Spec_Target Proof_TargetBase Proof_TargetInv Proof_TargetRun
  Proof_TargetStep Proof_TargetStep2 Proof_TargetMain Proof_TargetCase Model_Again Spec_Again.

Definition calmb (rg : regime) (e : tenv) (h : hist) (a : astate) (ev : aevent) : bool :=
  match ev with
  | AOnce x =>
      admissibleb rg e h (a_st a) x &&
      match a_phase a, x with
      | Rest _, EvEdit _ _ | Rest _, EvFail => true
      | Rest _, _ => false
      | _, _ => true
      end
  | _ => true
  end.
Lemma calmb_sound rg e h a ev : calmb rg e h a ev = true -> calm rg e h a ev.
Proof.
  destruct ev as [x| |]; cbn [calmb calm]; [|trivial..]. intros H. apply andb_true_iff in H as [A B].
  split; [exact (admissibleb_sound _ _ _ _ _ A)|]. destruct (a_phase a), x; try exact Logic.I; discriminate B.
Qed.
Definition is_again (x : aevent) : bool := match x with AAgain => true | _ => false end.
Fixpoint afollow (rg : regime) (e : tenv) (h : hist) (a : astate) (evs : list aevent) : option (hist * astate) :=
  match evs with
  | [] => Some (h, a)
  | ev :: r =>
      if calmb rg e h a ev then
        match astep e a ev with Some a' => afollow rg e (atrack e h a ev) a' r | None => None end
      else None
  end.
Lemma afollow_session rg e d0 evs : forall pre h a h' a',
  session rg e d0 pre h a -> afollow rg e h a evs = Some (h', a') -> session rg e d0 (pre ++ evs) h' a'.
Proof.
  induction evs as [|ev evs IH]; intros pre h a h' a' H F; cbn [afollow] in F.
  - injection F as <- <-. rewrite app_nil_r. exact H.
  - destruct (calmb rg e h a ev) eqn:A; [|discriminate F]. destruct (astep e a ev) as [a1|] eqn:S; [|discriminate F].
    apply calmb_sound in A. pose proof (session_snoc rg e d0 pre h a ev a1 H A S) as H1.
    specialize (IH _ _ _ _ _ H1 F). rewrite <- app_assoc in IH. exact IH.
Qed.
Lemma session_case rg e d0 evs (P : hist -> astate -> bool) :
  match afollow rg e (hist0 d0) (ainit d0) evs with Some (h, a) => P h a | None => false end = true ->
  exists h a, session rg e d0 evs h a /\ P h a = true.
Proof.
  intros H. destruct (afollow rg e (hist0 d0) (ainit d0) evs) as [[h a]|] eqn:F; [|discriminate H].
  exists h, a. split; [|exact H]. exact (afollow_session rg e d0 evs [] _ _ h a (session_nil rg e d0) F).
Qed.
(** A session in which no process starts after a repeated run. *)
Fixpoint no_late_start (seen : bool) (evs : list aevent) : bool :=
  match evs with
  | [] => true
  | AAgain :: r => no_late_start true r
  | AOnce (EvStart _ _) :: r => negb seen && no_late_start seen r
  | _ :: r => no_late_start seen r
  end.
Lemma no_late_snoc evs ev : forall seen, no_late_start seen (evs ++ [ev]) = true ->
  no_late_start seen evs = true /\ (match ev with AOnce (EvStart _ _) => seen = false /\ ~ In AAgain evs | _ => True end).
Proof.
  induction evs as [|x evs IH]; intros seen H.
  - split; [reflexivity|]. destruct ev as [[]| |]; try exact Logic.I. cbn in H. rewrite andb_true_r in H. apply negb_true_iff in H. auto.
  - cbn [app no_late_start] in H.
    assert (K : forall s, no_late_start s (evs ++ [ev]) = true ->
       no_late_start s evs = true /\ (match ev with AOnce (EvStart _ _) => s = false /\ ~ In AAgain evs | _ => True end)) by exact IH.
    destruct x as [y| |].
    + assert (Z : exists b, no_late_start seen (AOnce y :: evs) = b && no_late_start seen evs /\ b && no_late_start seen (evs ++ [ev]) = true).
      { destruct y; try (exists true; split; [reflexivity|exact H]). exists (negb seen). split; [reflexivity|exact H]. }
      destruct Z as (b & Z1 & Z2). apply andb_true_iff in Z2 as [-> Z2]. destruct (K _ Z2) as [K1 K2]. rewrite Z1, K1. split; [reflexivity|].
      destruct ev as [[]| |]; try exact Logic.I. destruct K2 as [K2 K3]. split; [exact K2|]. intros [X|X]; [discriminate X|exact (K3 X)].
    + destruct (K _ H) as [K1 K2]. split; [exact K1|]. destruct ev as [[]| |]; try exact Logic.I. destruct K2; discriminate.
    + destruct (K _ H) as [K1 K2]. split; [exact K1|]. destruct ev as [[]| |]; try exact Logic.I. destruct K2 as [K2 K3].
      split; [exact K2|]. intros [X|X]; [discriminate X|exact (K3 X)].
Qed.
Lemma session_ahistory rg e d0 evs h a : session rg e d0 evs h a -> no_late_start false evs = true -> ahistory rg e d0 evs h a.
Proof.
  induction 1 as [|evs h a ev a' H IH A S]; intros N; [apply ahistory_nil|].
  apply no_late_snoc in N as [N1 N2]. apply (ahistory_snoc rg e d0 evs h a ev a' (IH N1)); [|exact S]. split; [exact A|].
  destruct ev as [[]| |]; try exact Logic.I. exact (proj2 N2).
Qed.

(** ** The sessions *)
Definition run1 : list aevent := map AOnce (full_run cA ordA ["/p/a.cpp"; "/p/b.cpp"]).
Definition next_idle : list aevent := map AOnce (idle_run cA ordA).
(** The whole of a repeated run without PCH, in which everything is built. *)
Definition rerun : list event :=
  EvObjCheck :: compiles [("/p/a.cpp", XOk); ("/p/b.cpp", XOk)] ++ [EvLinkCheck; EvLinkExec XOk; EvEnd WOk].
(** A header is edited, the process builds again and a command fails. *)
Definition failing_rerun : list aevent :=
  run1 ++ [AOnce (EvEdit "/p/h.h" (Some 2%N)); AAgain; AOnce EvObjCheck; AOnce (EvCompile "/p/a.cpp" XOk);
           AOnce (EvCompile "/p/b.cpp" (XFail None)); AOnce EvLinkCheck; AOnce (EvEnd WOk)] ++ next_idle.
(** Nothing is edited; the repeated run is killed while it writes an object. *)
Definition killed_rerun : list aevent :=
  run1 ++ [AAgain; AOnce EvObjCheck; AOnce (EvCompile "/p/b.cpp" (XFail None)); AOnce EvCrash] ++ next_idle.
(** A source is edited, built by a repeated run and put back. *)
Definition put_back : list aevent :=
  run1 ++ [AOnce (EvEdit "/p/a.cpp" (Some 2%N)); AAgain] ++ map AOnce rerun ++
  [AStop; AOnce (EvEdit "/p/a.cpp" (Some 1%N))] ++ next_idle.
(** A source is edited and built by a repeated run; the next process. *)
Definition edited_rerun : list aevent :=
  run1 ++ [AOnce (EvEdit "/p/a.cpp" (Some 2%N)); AAgain] ++ map AOnce rerun ++ [AStop].

Definition obj_differs (e : tenv) (c : cfg) (d : disk) (s : string) : bool :=
  match d_obj d (obj_of e s) with
  | Some a => negb (timeb (a_snap a s) (d_mt d s))
  | None => true
  end.
Lemma obj_differs_sound e c d s : In s (sources c) -> obj_differs e c d s = true -> ~ all_current e c d.
Proof.
  intros Hs H (_ & K & _). destruct (K s Hs) as (a & A & _ & _ & B & _). unfold obj_differs in H. rewrite A in H.
  rewrite (B s (or_introl eq_refl)) in H. unfold timeb in H. destruct (d_mt d s); [rewrite N.eqb_refl in H|]; discriminate H.
Qed.

Definition bad_end (s : string) (h : hist) (a : astate) : bool :=
  s_ok (a_st a) && negb (h_edited h) && obj_differs e0 (s_cfg (a_st a)) (s_disk (a_st a)) s &&
  mem_str s (sources (s_cfg (a_st a))).
Lemma bad_end_sound s h a : bad_end s h a = true ->
  s_ok (a_st a) = true /\ h_edited h = false /\ ~ all_current e0 (s_cfg (a_st a)) (s_disk (a_st a)).
Proof.
  unfold bad_end. intros H. apply andb_true_iff in H as [H D]. apply andb_true_iff in H as [H C]. apply andb_true_iff in H as [A B].
  apply negb_true_iff in B. split; [exact A|]. split; [exact B|]. apply (obj_differs_sound _ _ _ s); [apply mem_str_In; exact D|exact C].
Qed.

(** ** Careful sessions checked by computation *)
Definition carefulb (a : astate) (ev : aevent) : bool :=
  match a_phase a, ev with
  | Rep, AOnce EvCrash | Rep, AOnce (EvCrashEnd _) => false
  | Rep, AOnce (EvEnd w) =>
      match w with WOk => s_ok (a_st a) && (negb (s_dirty (a_st a)) || writes_store (a_st a) WOk) | _ => false end
  | _, _ => true
  end.
Lemma carefulb_sound a ev : carefulb a ev = true -> careful a ev.
Proof.
  unfold carefulb, careful. destruct (a_phase a); try exact (fun _ => Logic.I). destruct ev as [[]| |]; try exact (fun _ => Logic.I); try discriminate.
  destruct w; try discriminate. intros H. apply andb_true_iff in H as [A B]. split; [reflexivity|]. split; [exact A|].
  intros D. rewrite D in B. exact B.
Qed.
Fixpoint cfollow (rg : regime) (e : tenv) (h : hist) (a : astate) (evs : list aevent) : option (hist * astate) :=
  match evs with
  | [] => Some (h, a)
  | ev :: r =>
      if calmb rg e h a ev && carefulb a ev then
        match astep e a ev with Some a' => cfollow rg e (atrack e h a ev) a' r | None => None end
      else None
  end.
Lemma cfollow_careful rg e d0 evs : forall pre h a h' a',
  careful_session rg e d0 pre h a -> cfollow rg e h a evs = Some (h', a') -> careful_session rg e d0 (pre ++ evs) h' a'.
Proof.
  induction evs as [|ev evs IH]; intros pre h a h' a' H F; cbn [cfollow] in F.
  - injection F as <- <-. rewrite app_nil_r. exact H.
  - destruct (calmb rg e h a ev && carefulb a ev) eqn:A; [|discriminate F]. destruct (astep e a ev) as [a1|] eqn:S; [|discriminate F].
    apply andb_true_iff in A as [A B]. apply calmb_sound in A. apply carefulb_sound in B.
    pose proof (careful_snoc rg e d0 pre h a ev a1 H A B S) as H1.
    specialize (IH _ _ _ _ _ H1 F). rewrite <- app_assoc in IH. exact IH.
Qed.
Lemma careful_case rg e d0 evs (P : hist -> astate -> bool) :
  match cfollow rg e (hist0 d0) (ainit d0) evs with Some (h, a) => P h a | None => false end = true ->
  exists h a, careful_session rg e d0 evs h a /\ P h a = true.
Proof.
  intros H. destruct (cfollow rg e (hist0 d0) (ainit d0) evs) as [[h a]|] eqn:F; [|discriminate H].
  exists h, a. split; [|exact H]. exact (cfollow_careful rg e d0 evs [] _ _ h a (careful_nil rg e d0) F).
Qed.
Lemma careful_session_aexec rg e d0 evs h a : careful_session rg e d0 evs h a -> aexec e (ainit d0) evs = Some a.
Proof.
  induction 1 as [|evs h a ev a' H IH A B S]; [reflexivity|].
  assert (X : forall l x, aexec e x l = Some a -> aexec e x (l ++ [ev]) = Some a').
  { induction l as [|y l IHl]; intros x K; cbn [app aexec] in *; [injection K as ->; rewrite S; reflexivity|].
    destruct (astep e x y); [exact (IHl _ K)|discriminate K]. }
  exact (X _ _ IH).
Qed.

(** ** What the sessions show *)
Lemma last_part (l : list aevent) (w : wres) : last l AStop = AOnce (EvEnd w) -> l <> [] -> l = removelast l ++ [AOnce (EvEnd w)].
Proof. intros H K. rewrite <- H. apply app_removelast_last. exact K. Qed.
Lemma bad_session rg evs s : (exists h a, session rg e0 disk0 evs h a /\ bad_end s h a = true) ->
  last evs AStop = AOnce (EvEnd WOk) -> evs <> [] ->
  exists evs0 h a, session rg e0 disk0 (evs0 ++ [AOnce (EvEnd WOk)]) h a /\ s_ok (a_st a) = true /\ h_edited h = false /\
    ~ all_current e0 (s_cfg (a_st a)) (s_disk (a_st a)).
Proof.
  intros (h & a & A & B) C D. exists (removelast evs), h, a. rewrite <- (last_part evs WOk C D). split; [exact A|exact (bad_end_sound s h a B)].
Qed.
Lemma bad_ok (P : list aevent -> hist -> astate -> Prop) :
  (exists evs h a, P evs h a) -> exists evs h a, templates_ok e0 /\ P evs h a.
Proof. intros (evs & h & a & H). exists evs, h, a. split; [exact e0_templates|exact H]. Qed.
Lemma failing_rerun_bad : exists h a, session Forward e0 disk0 failing_rerun h a /\ bad_end "/p/b.cpp" h a = true.
Proof. apply session_case. vm_compute. reflexivity. Qed.
Lemma killed_rerun_bad : exists h a, session Forward e0 disk0 killed_rerun h a /\ bad_end "/p/b.cpp" h a = true.
Proof. apply session_case. vm_compute. reflexivity. Qed.
Lemma put_back_bad : exists h a, session Quiet e0 disk0 put_back h a /\ bad_end "/p/a.cpp" h a = true.
Proof. apply session_case. vm_compute. reflexivity. Qed.

(** The first run, and a repeated one after it in which nothing has changed. *)
Lemma idle_rerun_case : exists h a a', careful_session Forward e0 disk0 run1 h a /\ s_ok (a_st a) = true /\ h_edited h = false /\
  aexec e0 a (AAgain :: map AOnce rerun) = Some a' /\ s_ok (a_st a') = true /\
  length (s_log (a_st a')) = length (s_log (a_st a)) + 3.
Proof.
  destruct (careful_case Forward e0 disk0 run1 (fun h a => s_ok (a_st a) && negb (h_edited h) &&
     match aexec e0 a (AAgain :: map AOnce rerun) with
     | Some a' => s_ok (a_st a') && Nat.eqb (length (s_log (a_st a'))) (length (s_log (a_st a)) + 3) | None => false end)) as (h & a & A & B).
  - vm_compute. reflexivity.
  - apply andb_true_iff in B as [B C]. apply andb_true_iff in B as [B D]. apply negb_true_iff in D.
    destruct (aexec e0 a (AAgain :: map AOnce rerun)) as [a'|] eqn:E; [|discriminate C]. apply andb_true_iff in C as [C F].
    apply Nat.eqb_eq in F. exists h, a, a'. split; [exact A|]. split; [exact B|]. split; [exact D|]. split; [exact E|]. split; [exact C|exact F].
Qed.
(** The next process after an edit that was built by a repeated run. *)
Definition next_builds : list aevent :=
  map AOnce [EvStart cA ordA; EvObjCheck; EvCompile "/p/a.cpp" XOk; EvLinkCheck; EvLinkExec XOk; EvEnd WOk].
Definition edited_rerun1 : list aevent := run1 ++ [AOnce (EvEdit "/p/a.cpp" (Some 2%N)); AAgain] ++ map AOnce (removelast rerun).
Lemma next_builds_case : exists h a a1 a', careful_session Forward e0 disk0 (edited_rerun1 ++ [AOnce (EvEnd WOk)]) h a /\ s_ok (a_st a) = true /\
  h_edited h = false /\ astep e0 a AStop = Some a1 /\
  aexec e0 a1 next_builds = Some a' /\ s_ok (a_st a') = true /\ length (s_log (a_st a')) = length (s_log (a_st a1)) + 2.
Proof.
  destruct (careful_case Forward e0 disk0 (edited_rerun1 ++ [AOnce (EvEnd WOk)]) (fun h a => s_ok (a_st a) && negb (h_edited h) &&
     match astep e0 a AStop with
     | Some a1 =>
       match aexec e0 a1 next_builds with
       | Some a' => s_ok (a_st a') && Nat.eqb (length (s_log (a_st a'))) (length (s_log (a_st a1)) + 2) | None => false end
     | None => false end)) as (h & a & A & B).
  - vm_compute. reflexivity.
  - apply andb_true_iff in B as [B C]. apply andb_true_iff in B as [B D]. apply negb_true_iff in D.
    destruct (astep e0 a AStop) as [a1|] eqn:E1; [|discriminate C].
    destruct (aexec e0 a1 next_builds) as [a'|] eqn:E; [|discriminate C]. apply andb_true_iff in C as [C F].
    apply Nat.eqb_eq in F. exists h, a, a1, a'. split; [exact A|]. split; [exact B|]. split; [exact D|]. split; [exact E1|]. split; [exact E|].
    split; [exact C|exact F].
Qed.

(** ** The hypotheses of the positive theorems are met *)
Lemma rerun_case : exists h a, ahistory Forward e0 disk0 (edited_rerun1 ++ [AOnce (EvEnd WOk)]) h a /\
  s_ok (a_st a) = true /\ h_edited h = false /\ Nat.eqb (length (s_log (a_st a))) 6 = true.
Proof.
  destruct (session_case Forward e0 disk0 (edited_rerun1 ++ [AOnce (EvEnd WOk)])
    (fun h a => s_ok (a_st a) && negb (h_edited h) && Nat.eqb (length (s_log (a_st a))) 6)) as (h & a & A & B).
  - vm_compute. reflexivity.
  - apply andb_true_iff in B as [B C]. apply andb_true_iff in B as [B D]. apply negb_true_iff in D. exists h, a.
    split; [exact (session_ahistory _ _ _ _ _ _ A eq_refl)|]. auto.
Qed.
(** Two processes with repeated runs, the second after an edit of a header and of a source. *)
Definition two_lives : list aevent :=
  edited_rerun1 ++ [AOnce (EvEnd WOk); AStop] ++ next_builds ++
  [AOnce (EvEdit "/p/h.h" (Some 3%N)); AAgain] ++ map AOnce rerun ++ [AStop] ++
  [AOnce (EvEdit "/p/b.cpp" (Some 4%N))] ++
  map AOnce [EvStart cA ordA; EvObjCheck; EvCompile "/p/b.cpp" XOk; EvLinkCheck; EvLinkExec XOk].
Lemma two_lives_case : exists h a, careful_session Forward e0 disk0 (two_lives ++ [AOnce (EvEnd WOk)]) h a /\
  s_ok (a_st a) = true /\ h_edited h = false.
Proof.
  destruct (careful_case Forward e0 disk0 (two_lives ++ [AOnce (EvEnd WOk)]) (fun h a => s_ok (a_st a) && negb (h_edited h))) as (h & a & A & B).
  - vm_compute. reflexivity.
  - apply andb_true_iff in B as [B D]. apply negb_true_iff in D. exists h, a. auto.
Qed.
(** A process that found nothing to do, an edit, and its repeated run. *)
Lemma new_case : exists h a a', session Forward e0 disk0 (run1 ++ [AStop] ++ next_idle ++ [AOnce (EvEdit "/p/b.cpp" (Some 2%N))]) h a /\
  a_dirty a = false /\ aexec e0 a (AAgain :: map AOnce [EvObjCheck; EvCompile "/p/b.cpp" XOk; EvLinkCheck; EvLinkExec XOk]) = Some a' /\
  s_pc (a_st a') = PcEnd /\ s_ok (a_st a') = true.
Proof.
  destruct (session_case Forward e0 disk0 (run1 ++ [AStop] ++ next_idle ++ [AOnce (EvEdit "/p/b.cpp" (Some 2%N))])
    (fun h a => negb (a_dirty a) &&
     match aexec e0 a (AAgain :: map AOnce [EvObjCheck; EvCompile "/p/b.cpp" XOk; EvLinkCheck; EvLinkExec XOk]) with
     | Some a' => s_ok (a_st a') && match s_pc (a_st a') with PcEnd => true | _ => false end | None => false end)) as (h & a & A & B).
  - vm_compute. reflexivity.
  - apply andb_true_iff in B as [B C]. apply negb_true_iff in B.
    destruct (aexec e0 a (AAgain :: map AOnce [EvObjCheck; EvCompile "/p/b.cpp" XOk; EvLinkCheck; EvLinkExec XOk])) as [a'|] eqn:E; [|discriminate C].
    apply andb_true_iff in C as [C D]. exists h, a, a'. split; [exact A|]. split; [exact B|]. split; [exact E|].
    split; [destruct (s_pc (a_st a')); try discriminate D; reflexivity|exact C].
Qed.
Lemma fresh_case : exists a a', aexec e0 (ainit disk0) run1 = Some a /\ a_dirty a = true /\
  forallb of_run (removelast rerun) = true /\ aexec e0 a (AAgain :: map AOnce (removelast rerun)) = Some a' /\
  s_pc (a_st a') = PcEnd /\ s_ok (a_st a') = true /\ length (s_log (a_st a')) = 6.
Proof.
  destruct (aexec e0 (ainit disk0) run1) as [a|] eqn:E; [|vm_compute in E; discriminate E].
  destruct (aexec e0 a (AAgain :: map AOnce (removelast rerun))) as [a'|] eqn:F; [|vm_compute in E; injection E as <-; vm_compute in F; discriminate F].
  exists a, a'. split; [reflexivity|]. vm_compute in E. injection E as <-. vm_compute in F. injection F as <-.
  split; [reflexivity|]. split; [reflexivity|]. split; [vm_compute; reflexivity|]. split; [reflexivity|]. split; reflexivity.
Qed.
