(** Runs of a generator with several calls of Build(). *)
From Verif Require Import Prelude Proof_Prelude Model_Path Model_Json Model_Schema Model_Command
  Model_Target Spec_Target Proof_TargetBase Model_Gen Spec_Gen Proof_Gen Proof_GenInv Proof_GenMain Proof_GenRuns
  Proof_GenCase Model_GenDup Spec_GenDup.

Definition at_ (i : nat) (l : list gevent) : list guevent := map (GuTask i) l.

Definition gen_stepb (o : gobj) (ev : gevent) : bool :=
  match ev with
  | GSetup | GEnter _ | GFail => true
  | GCall _ _ w => forallb (fun y => negb (existsb (fun x => mem_str (fst y) (inputs_of (snd x))) (go_ids o))) w
  | GFinish WOk | GFinish WKeep => true
  | _ => false
  end.
Lemma gen_stepb_sound o ev : gen_stepb o ev = true -> gen_step o ev.
Proof.
  destruct ev as [f t| | | |o'| |id|id ok w|w|n]; cbn [gen_stepb gen_step subtask]; try discriminate; try (intros _; exact Logic.I).
  - intros H f t id' g I J K. rewrite forallb_forall in H. specialize (H _ I). cbn [fst] in H. apply negb_true_iff in H.
    assert (X : existsb (fun x => mem_str f (inputs_of (snd x))) (go_ids o) = true); [|congruence].
    apply existsb_exists. exists (id', g). split; [exact J|]. apply mem_str_In. exact K.
  - destruct w; try discriminate; auto.
Qed.
Definition gen_taskb (o : gobj) (x : guevent) : bool := match x with GuTask _ ev => gen_stepb o ev | _ => false end.
Lemma gen_tasksb_sound o l : forallb (gen_taskb o) l = true -> Forall (gen_task o) l.
Proof.
  intros H. apply Forall_forall. intros x I. rewrite forallb_forall in H. specialize (H x I). destruct x as [|i ev]; [discriminate|].
  exact (gen_stepb_sound _ _ H).
Qed.
(** Both generate tasks read the state file before either has written it. *)
Definition gtwice : list guevent :=
  at_ 0 [GSetup; GEnter "A"; GEnter "B"] ++ at_ 1 [GSetup; GEnter "B"] ++ at_ 0 [GCall "A" true [("/p/b.txt", Some 1%N)]] ++
  at_ 1 [GCall "B" true [("/p/c.txt", Some 1%N)]; GEnter "A"] ++
  at_ 0 [GCall "B" true [("/p/c.txt", Some 2%N)]; GFinish WOk] ++
  at_ 1 [GCall "A" true [("/p/b.txt", Some 2%N)]; GFinish WOk].
Lemma gtwice_run : exists s, gu_exec u80 (gu_begin (ginit files1)) (GuStart 2 o1 :: gtwice) = Some s /\ gall_ended s /\ g_ok (gu_st s) = true /\
  Forall (gen_task o1) gtwice /\ invoked "A" (g_log (gu_st s)) = 2 /\ invoked "B" (g_log (gu_st s)) = 2.
Proof.
  eexists. split; [vm_compute; reflexivity|]. split; [intros [|[|i]]; reflexivity|]. split; [reflexivity|].
  split; [apply gen_tasksb_sound; vm_compute; reflexivity|]. split; reflexivity.
Qed.

(** The callback of "B" fails in the second generate task after the first has stored
    the state, and its own state cannot be written. *)
Definition gspoilt : list guevent :=
  at_ 0 [GSetup; GEnter "A"; GEnter "B"] ++ at_ 1 [GSetup; GEnter "A"; GEnter "B"] ++
  at_ 0 [GCall "A" true [("/p/b.txt", Some 1%N)]; GCall "B" true [("/p/c.txt", Some 1%N)]; GFinish WOk] ++
  at_ 1 [GCall "A" true [("/p/b.txt", Some 2%N)]; GCall "B" false [("/p/c.txt", None)]; GFinish WKeep].
Lemma gspoilt_run : exists s st2,
  gu_exec u80 (gu_begin (ginit files1)) (GuStart 2 o1 :: gspoilt) = Some s /\ gall_ended s /\ g_ok (gu_st s) = false /\
  gexec u80 (gafter s) (gidle_run o1 ["A"; "B"]) = Some st2 /\ g_ok st2 = true /\ g_log st2 = g_log (gu_st s) /\
  Forall (gen_task o1) gspoilt /\
  exists g, In ("B", g) (go_ids o1) /\ ~ id_current no_blobs (gd_mt (g_disk st2)) (g_disk st2) "B" g.
Proof.
  eexists. eexists. split; [vm_compute; reflexivity|]. split; [intros [|[|i]]; reflexivity|]. split; [reflexivity|]. split; [vm_compute; reflexivity|].
  split; [reflexivity|]. split; [reflexivity|]. split; [apply gen_tasksb_sound; vm_compute; reflexivity|].
  exists (GI ["/p/x.txt"; "/p/a.txt"] ["/p/c.txt"] None). split; [right; left; reflexivity|].
  apply (gstaleb_sound _ _ _ _ _ "/p/x.txt"); [reflexivity|vm_compute; auto|vm_compute; reflexivity].
Qed.

(** Cases: after the history [gbusy] "/p/x.txt" has been edited. *)
Definition gboth : list guevent :=
  at_ 1 [GSetup; GEnter "B"] ++ at_ 0 [GSetup; GEnter "A"] ++ at_ 1 [GCall "B" true [("/p/c.txt", Some 5%N)]; GEnter "A"; GFinish WOk] ++
  at_ 0 [GEnter "B"; GCall "B" true [("/p/c.txt", Some 6%N)]; GFinish WOk].
Lemma gboth_case : exists h st s, ghistory Quiet no_blobs u80 files1 gbusy h st /\ g_pc st = GIdle /\ follows no_blobs o1 /\
  (forall c, gh_taint h = Some c -> o1 = c) /\ Forall (gen_task o1) gboth /\
  gu_exec u80 (gu_begin st) (GuStart 2 o1 :: gboth) = Some s /\ gall_ended s /\ g_ok (gu_st s) = true /\ sane_handlers o1 /\
  exists g, In ("B", g) (go_ids o1) /\ ~ id_current no_blobs (gd_mt (g_disk st)) (g_disk st) "B" g.
Proof.
  destruct (gfollow Quiet u80 (ghist0 files1) (ginit files1) gbusy) as [[h st]|] eqn:F; [|vm_compute in F; discriminate].
  assert (H := gfollow_history Quiet no_blobs u80 files1 gbusy [] _ _ h st ltac:(apply gbusy_starts; vm_compute; reflexivity) (ghistory_nil _ _ _ _) F).
  vm_compute in F. injection F as <- <-. eexists. eexists. eexists. split; [exact H|]. split; [reflexivity|].
  split; [apply handlerless_follows; reflexivity|]. split; [discriminate|]. split; [apply gen_tasksb_sound; vm_compute; reflexivity|].
  split; [vm_compute; reflexivity|]. split; [intros [|[|i]]; reflexivity|]. split; [reflexivity|]. split.
  { intros id g hd I E. destruct I as [I|[I|[]]]; injection I as <- <-; discriminate. }
  exists (GI ["/p/x.txt"; "/p/a.txt"] ["/p/c.txt"] None). split; [right; left; reflexivity|].
  apply (gstaleb_sound _ _ _ _ _ "/p/x.txt"); [reflexivity|vm_compute; auto|vm_compute; reflexivity].
Qed.

Definition grest : list guevent :=
  at_ 2 [GSetup; GEnter "B"] ++ at_ 0 [GSetup; GEnter "A"] ++ at_ 2 [GEnter "A"; GFinish WOk] ++ at_ 1 [GSetup; GEnter "A"; GEnter "B"] ++
  at_ 0 [GEnter "B"; GFinish WOk] ++ at_ 1 [GFinish WOk].
Lemma grest_case : exists h st s, ghistory Quiet no_blobs u80 files1 ((gbusy ++ gbusy_end) ++ [GFinish WOk]) h st /\ g_ok st = true /\
  sane_handlers (g_cfg st) /\ Forall (gen_task (g_cfg st)) grest /\
  gu_exec u80 (gu_begin st) (GuStart 3 (g_cfg st) :: grest) = Some s /\ gall_ended s /\ g_ok (gu_st s) = true /\ length (g_log st) = 6.
Proof.
  destruct (gfollow Quiet u80 (ghist0 files1) (ginit files1) ((gbusy ++ gbusy_end) ++ [GFinish WOk])) as [[h st]|] eqn:F; [|vm_compute in F; discriminate].
  assert (H := gfollow_history Quiet no_blobs u80 files1 ((gbusy ++ gbusy_end) ++ [GFinish WOk]) [] _ _ h st ltac:(apply gbusy_starts; vm_compute; reflexivity) (ghistory_nil _ _ _ _) F).
  vm_compute in F. injection F as <- <-. eexists. eexists. eexists. split; [exact H|]. split; [reflexivity|]. split.
  { intros id g hd I E. destruct I as [I|[I|[]]]; injection I as <- <-; discriminate. }
  split; [apply gen_tasksb_sound; vm_compute; reflexivity|].
  split; [vm_compute; reflexivity|]. split; [intros [|[|[|i]]]; reflexivity|]. split; reflexivity.
Qed.

Lemma gthen_case : exists s s2, Forall (gen_task o1) gtwice /\ Forall (gen_task o1) grest /\
  gu_exec u80 (gu_begin (ginit files1)) (GuStart 2 o1 :: gtwice) = Some s /\ gall_ended s /\ g_ok (gu_st s) = true /\
  gu_exec u80 s (GuStart 3 o1 :: grest) = Some s2 /\ g_ok (gu_st s2) = true /\ length (g_log (gu_st s2)) = 4.
Proof.
  eexists. eexists. split; [apply gen_tasksb_sound; vm_compute; reflexivity|]. split; [apply gen_tasksb_sound; vm_compute; reflexivity|].
  split; [vm_compute; reflexivity|]. split; [intros [|[|i]]; reflexivity|]. split; [reflexivity|].
  split; [vm_compute; reflexivity|]. split; reflexivity.
Qed.

(** Killed when the first generate task has stored the state and the second has
    invoked one callback; two calls again. *)
Definition gcut : list guevent := firstn 10 gspoilt.
Definition gredo : list guevent := at_ 0 [GSetup; GEnter "A"; GEnter "B"; GFinish WOk] ++ at_ 1 [GSetup; GEnter "B"; GEnter "A"; GFinish WOk].
(** Killed before anything was stored. *)
Definition gcut_early : list guevent := firstn 7 gspoilt.
Lemma gkilled_case : exists s s1 s2, Forall (gen_task o1) gcut /\ Forall (gen_task o1) gredo /\
  gu_exec u80 (gu_begin (ginit files1)) (GuStart 2 o1 :: gcut) = Some s /\ g_ok (gu_st s) = true /\
  gu_step u80 s (GuTask 1 GCrash) = Some s1 /\ gu_exec u80 s1 (GuStart 2 o1 :: gredo) = Some s2 /\ gall_ended s2 /\ g_ok (gu_st s2) = true /\
  length (g_log (gu_st s2)) = 3.
Proof.
  eexists. eexists. eexists. split; [apply gen_tasksb_sound; vm_compute; reflexivity|]. split; [apply gen_tasksb_sound; vm_compute; reflexivity|].
  split; [vm_compute; reflexivity|]. split; [reflexivity|]. split; [vm_compute; reflexivity|]. split; [vm_compute; reflexivity|].
  split; [intros [|[|i]]; reflexivity|]. split; reflexivity.
Qed.
Lemma gkilled_early_case : exists s s1 s2, Forall (gen_task o1) gcut_early /\
  gu_exec u80 (gu_begin (ginit files1)) (GuStart 2 o1 :: gcut_early) = Some s /\ g_ok (gu_st s) = true /\
  gu_step u80 s (GuTask 0 GCrash) = Some s1 /\ gu_exec u80 s1 (GuStart 2 o1 :: gtwice) = Some s2 /\ gall_ended s2 /\ g_ok (gu_st s2) = true /\
  length (g_log (gu_st s2)) = 5.
Proof.
  eexists. eexists. eexists. split; [apply gen_tasksb_sound; vm_compute; reflexivity|].
  split; [vm_compute; reflexivity|]. split; [reflexivity|]. split; [vm_compute; reflexivity|]. split; [vm_compute; reflexivity|].
  split; [intros [|[|i]]; reflexivity|]. split; reflexivity.
Qed.
