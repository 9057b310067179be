(** C139: CustomGenerator::Build() called several times on one generator before the run. *)
From Verif Require Import Prelude Model_Json Model_Schema Model_Command Model_Target Spec_Target Model_Gen Spec_Gen
  Proof_GenCase Model_GenDup Spec_GenDup Proof_GenDup Proof_GenDupLive Proof_GenDupCase Proof_GenDupRow.

(** Two calls of Build(), a first build in which every callback succeeds: each
    callback is invoked twice. *)
Theorem C139_once_refuted :
  exists u8 m0 o l s, Forall (gen_task o) l /\
    gu_exec u8 (gu_begin (ginit m0)) (GuStart 2 o :: l) = Some s /\ gall_ended s /\ g_ok (gu_st s) = true /\
    go_ids o <> [] /\ forall id g, In (id, g) (go_ids o) -> invoked id (g_log (gu_st s)) = 2.
Proof.
  destruct gtwice_run as (s & A & B & C & D & E & F). exists u80, files1, o1, gtwice, s.
  split; [exact D|]. split; [exact A|]. split; [exact B|]. split; [exact C|]. split; [discriminate|].
  intros id g [I|[I|[]]]; injection I as <- _; assumption.
Qed.
Print Assumptions C139_once_refuted.

(** A callback of the second generate task fails after the first has stored the
    state, and the second cannot store its own: the next process finds nothing to do
    and succeeds although an id is not current. *)
Theorem C139_failed_refuted :
  exists bd u8 m0 o l s ids st2, lawful bd /\ follows bd o /\ Forall (gen_task o) l /\
    gu_exec u8 (gu_begin (ginit m0)) (GuStart 2 o :: l) = Some s /\ gall_ended s /\ g_ok (gu_st s) = false /\
    gexec u8 (gafter s) (gidle_run o ids) = Some st2 /\ g_ok st2 = true /\ g_log st2 = g_log (gu_st s) /\
    exists id g, In (id, g) (go_ids o) /\ ~ id_current bd (gd_mt (g_disk st2)) (g_disk st2) id g.
Proof.
  destruct gspoilt_run as (s & st2 & A & B & C & D & E & F & G & g & H & K).
  exists no_blobs, u80, files1, o1, gspoilt, s, ["A"; "B"], st2. split; [exact no_blobs_lawful|].
  split; [apply handlerless_follows; reflexivity|]. split; [exact G|]. split; [exact A|]. split; [exact B|]. split; [exact C|].
  split; [exact D|]. split; [exact E|]. split; [exact F|]. exists "B", g. auto.
Qed.
Print Assumptions C139_failed_refuted.

(** Any number of calls, any interleaving, callbacks with any results that leave the
    inputs alone: when the process reports success every id is current, and the next
    process invokes no callback. *)
Theorem C139_success_current_partial (rg : regime) (bd : discipline) (u8 : string -> N) (m0 : times) (evs : list gevent)
  (h : ghist) (st : gstate) (o : gobj) (n : nat) (l : list guevent) (s : gdup) :
  lawful bd -> ghistory rg bd u8 m0 evs h st -> g_pc st = GIdle -> follows bd o -> (forall c, gh_taint h = Some c -> o = c) ->
  n <> 0 -> Forall (gen_task o) l ->
  gu_exec u8 (gu_begin st) (GuStart n o :: l) = Some s -> gall_ended s -> g_ok (gu_st s) = true ->
  (forall id g, In (id, g) (go_ids o) -> id_current bd (gd_mt (g_disk (gu_st s))) (g_disk (gu_st s)) id g) /\
  (sane_handlers o -> forall ids, Permutation ids (map fst (go_ids o)) ->
     exists st2, gexec u8 (gafter s) (gidle_run o ids) = Some st2 /\ g_ok st2 = true /\
       g_log st2 = g_log (gu_st s) /\ g_disk st2 = g_disk (gu_st s)).
Proof. exact (several_generates rg bd u8 m0 evs h st o n l s). Qed.
Print Assumptions C139_success_current_partial.

(** After several runs an input of "B" was edited; two calls, interleaved. *)
Example C139_case : exists h st s, ghistory Quiet no_blobs u80 files1 gbusy h st /\ g_pc st = GIdle /\ follows no_blobs o1 /\
  (forall c, gh_taint h = Some c -> o1 = c) /\ Forall (gen_task o1) gboth /\
  gu_exec u80 (gu_begin st) (GuStart 2 o1 :: gboth) = Some s /\ gall_ended s /\ g_ok (gu_st s) = true /\ sane_handlers o1 /\
  exists g, In ("B", g) (go_ids o1) /\ ~ id_current no_blobs (gd_mt (g_disk st)) (g_disk st) "B" g.
Proof. exact gboth_case. Qed.

(** After a successful run no callback is invoked and nothing is stored, however
    often Build() is called. *)
Theorem C139_nothing_invoked (rg : regime) (bd : discipline) (u8 : string -> N) (m0 : times) (evs : list gevent)
  (h : ghist) (st : gstate) (n : nat) (l : list guevent) (s : gdup) :
  lawful bd -> ghistory rg bd u8 m0 (evs ++ [GFinish WOk]) h st -> g_ok st = true -> sane_handlers (g_cfg st) ->
  Forall (gen_task (g_cfg st)) l -> gu_exec u8 (gu_begin st) (GuStart n (g_cfg st) :: l) = Some s ->
  g_log (gu_st s) = g_log st /\ gd_store (g_disk (gu_st s)) = gd_store (g_disk st) /\
  gd_made (g_disk (gu_st s)) = gd_made (g_disk st).
Proof. exact (several_rest rg bd u8 m0 evs h st n l s). Qed.
Print Assumptions C139_nothing_invoked.

(** Three calls. *)
Example C139_rest_case : exists h st s, ghistory Quiet no_blobs u80 files1 ((gbusy ++ gbusy_end) ++ [GFinish WOk]) h st /\ g_ok st = true /\
  sane_handlers (g_cfg st) /\ Forall (gen_task (g_cfg st)) grest /\
  gu_exec u80 (gu_begin st) (GuStart 3 (g_cfg st) :: grest) = Some s /\ gall_ended s /\ g_ok (gu_st s) = true /\ length (g_log st) = 6.
Proof. exact grest_case. Qed.

(** The same after a successful process that itself called Build() several times. *)
Theorem C139_then_nothing_invoked (rg : regime) (bd : discipline) (u8 : string -> N) (m0 : times) (evs : list gevent)
  (h : ghist) (st : gstate) (o : gobj) (n : nat) (l : list guevent) (s : gdup) (m : nat) (l2 : list guevent) (s2 : gdup) :
  lawful bd -> ghistory rg bd u8 m0 evs h st -> g_pc st = GIdle -> follows bd o -> (forall c, gh_taint h = Some c -> o = c) ->
  sane_handlers o -> n <> 0 -> Forall (gen_task o) l ->
  gu_exec u8 (gu_begin st) (GuStart n o :: l) = Some s -> gall_ended s -> g_ok (gu_st s) = true ->
  Forall (gen_task o) l2 -> gu_exec u8 s (GuStart m o :: l2) = Some s2 ->
  g_log (gu_st s2) = g_log (gu_st s) /\ gd_store (g_disk (gu_st s2)) = gd_store (g_disk (gu_st s)) /\
  gd_made (g_disk (gu_st s2)) = gd_made (g_disk (gu_st s)).
Proof. exact (several_then_rest rg bd u8 m0 evs h st o n l s m l2 s2). Qed.
Print Assumptions C139_then_nothing_invoked.

(** A first build with two calls, then three calls. *)
Example C139_then_case : exists s s2, Forall (gen_task o1) gtwice /\ Forall (gen_task o1) grest /\
  gu_exec u80 (gu_begin (ginit files1)) (GuStart 2 o1 :: gtwice) = Some s /\ gall_ended s /\ g_ok (gu_st s) = true /\
  gu_exec u80 s (GuStart 3 o1 :: grest) = Some s2 /\ g_ok (gu_st s2) = true /\ length (g_log (gu_st s2)) = 4.
Proof. exact gthen_case. Qed.

(** The process is killed at any moment at which nothing has failed; when the next
    one, with any number of calls, reports success every id is current and the one
    after it invokes nothing. *)
Theorem C139_killed_current_partial (rg : regime) (bd : discipline) (u8 : string -> N) (m0 : times) (evs : list gevent)
  (h : ghist) (st : gstate) (o : gobj) (n : nat) (l : list guevent) (s : gdup) (i : nat) (s1 : gdup) (m : nat)
  (l2 : list guevent) (s2 : gdup) :
  lawful bd -> ghistory rg bd u8 m0 evs h st -> g_pc st = GIdle -> follows bd o -> (forall c, gh_taint h = Some c -> o = c) ->
  Forall (gen_task o) l -> gu_exec u8 (gu_begin st) (GuStart n o :: l) = Some s -> g_ok (gu_st s) = true ->
  gu_step u8 s (GuTask i GCrash) = Some s1 ->
  m <> 0 -> Forall (gen_task o) l2 -> gu_exec u8 s1 (GuStart m o :: l2) = Some s2 -> gall_ended s2 -> g_ok (gu_st s2) = true ->
  (forall id g, In (id, g) (go_ids o) -> id_current bd (gd_mt (g_disk (gu_st s2))) (g_disk (gu_st s2)) id g) /\
  (sane_handlers o -> forall ids, Permutation ids (map fst (go_ids o)) ->
     exists st2, gexec u8 (gafter s2) (gidle_run o ids) = Some st2 /\ g_ok st2 = true /\
       g_log st2 = g_log (gu_st s2) /\ g_disk st2 = g_disk (gu_st s2)).
Proof. exact (killed_generates rg bd u8 m0 evs h st o n l s i s1 m l2 s2). Qed.
Print Assumptions C139_killed_current_partial.

(** Killed after the first generate task has stored the state; before anything was
    stored. *)
Example C139_killed_case : exists s s1 s2, Forall (gen_task o1) gcut /\ Forall (gen_task o1) gredo /\
  gu_exec u80 (gu_begin (ginit files1)) (GuStart 2 o1 :: gcut) = Some s /\ g_ok (gu_st s) = true /\
  gu_step u80 s (GuTask 1 GCrash) = Some s1 /\ gu_exec u80 s1 (GuStart 2 o1 :: gredo) = Some s2 /\ gall_ended s2 /\ g_ok (gu_st s2) = true /\
  length (g_log (gu_st s2)) = 3.
Proof. exact gkilled_case. Qed.
Example C139_killed_early_case : exists s s1 s2, Forall (gen_task o1) gcut_early /\
  gu_exec u80 (gu_begin (ginit files1)) (GuStart 2 o1 :: gcut_early) = Some s /\ g_ok (gu_st s) = true /\
  gu_step u80 s (GuTask 0 GCrash) = Some s1 /\ gu_exec u80 s1 (GuStart 2 o1 :: gtwice) = Some s2 /\ gall_ended s2 /\ g_ok (gu_st s2) = true /\
  length (g_log (gu_st s2)) = 5.
Proof. exact gkilled_early_case. Qed.

(** Any number of processes before, each with any number of calls, each killed at any
    moment at which nothing has failed or come to its end: when the next process
    reports success every id is current, and there is nothing left to invoke. *)
Theorem C139_processes_current_partial (rg : regime) (bd : discipline) (u8 : string -> N) (m0 : times) (evs : list gevent)
  (h : ghist) (st : gstate) (o : gobj) (s : gdup) (n : nat) (l : list guevent) (s' : gdup) :
  lawful bd -> ghistory rg bd u8 m0 evs h st -> g_pc st = GIdle -> follows bd o -> (forall c, gh_taint h = Some c -> o = c) ->
  gprocesses u8 o (gu_begin st) s ->
  n <> 0 -> Forall (gen_task o) l -> gu_exec u8 s (GuStart n o :: l) = Some s' -> gall_ended s' -> g_ok (gu_st s') = true ->
  (forall id g, In (id, g) (go_ids o) -> id_current bd (gd_mt (g_disk (gu_st s'))) (g_disk (gu_st s')) id g) /\
  (sane_handlers o -> forall ids, Permutation ids (map fst (go_ids o)) ->
     exists st2, gexec u8 (gafter s') (gidle_run o ids) = Some st2 /\ g_ok st2 = true /\
       g_log st2 = g_log (gu_st s') /\ g_disk st2 = g_disk (gu_st s')).
Proof. exact (row_generates rg bd u8 m0 evs h st o s n l s'). Qed.
Print Assumptions C139_processes_current_partial.

(** Killed before anything was stored, killed after the first store, then to the end. *)
Example C139_processes_case : exists s s', gprocesses u80 o1 (gu_begin (ginit files1)) s /\ Forall (gen_task o1) gredo /\
  gu_exec u80 s (GuStart 2 o1 :: gredo) = Some s' /\ gall_ended s' /\ g_ok (gu_st s') = true /\ length (g_log (gu_st s')) = 4.
Proof. exact row_case. Qed.

(** The run comes to its end, whatever the callbacks do: the number of steps is
    bounded, and as long as a generate task has not ended one can go on. *)
Theorem C139_comes_to_end (u8 : string -> N) (st : gstate) (n : nat) (o : gobj) (l : list guevent) (s : gdup) :
  gu_exec u8 (gu_begin st) (GuStart n o :: l) = Some s -> Forall gen_move l ->
  length l <= n * (2 * length (go_ids o) + 2) /\
  (gall_ended s \/ exists i ev s', gen_good ev /\ gu_step u8 s (GuTask i ev) = Some s').
Proof. exact (several_generates_end u8 st n o l s). Qed.
Print Assumptions C139_comes_to_end.

(** With a failing callback; the bound is reached by the first case. *)
Example C139_end_case : Forall gen_move (firstn 11 gspoilt) /\ Forall gen_move gtwice /\
  length gtwice = 2 * (2 * length (go_ids o1) + 2) /\
  match gu_exec u80 (gu_begin (ginit files1)) (GuStart 2 o1 :: firstn 11 gspoilt) with
  | Some s => negb (g_ok (gu_st s)) && negb (gall_idle s) | None => false end = true.
Proof. split; [repeat constructor|]. split; [repeat constructor|]. split; vm_compute; reflexivity. Qed.

(** Within one process, whatever happens, no callback is invoked more often than
    Build() was called. *)
Theorem C139_once_per_call (u8 : string -> N) (st : gstate) (n : nat) (o : gobj) (l : list guevent) (s : gdup) (id : string) :
  gu_exec u8 (gu_begin st) (GuStart n o :: l) = Some s -> Forall within l ->
  invoked id (g_log (gu_st s)) <= invoked id (g_log st) + n.
Proof. exact (several_generates_count u8 st n o l s id). Qed.
Print Assumptions C139_once_per_call.

(** The bound is reached. *)
Example C139_count_case : Forall within gtwice /\
  match gu_exec u80 (gu_begin (ginit files1)) (GuStart 2 o1 :: gtwice) with
  | Some s => Nat.eqb (invoked "A" (g_log (gu_st s))) 2 | None => false end = true.
Proof. split; [repeat constructor|vm_compute; reflexivity]. Qed.
