(** C138: Target::Build() called several times on one target before the run. *)
From Verif Require Import Prelude Model_Json Model_Schema Model_Command Model_ToolchainConfig Model_Target Spec_Target
  Proof_TargetCase Spec_Two Proof_TwoCase Model_Dup Spec_Dup Proof_Dup2 Proof_DupCase Proof_DupLive Proof_DupCount Proof_DupThen.

(** Two calls of Build(), a first build in which every command succeeds: the compile
    command of one source and the link command are each executed twice. *)
Theorem C138_once_refuted :
  exists e d c ord l s p, In p (sources c) /\ Forall smooth l /\
    du_exec e (du_begin (init d)) (DuStart 2 c ord :: l) = Some s /\ all_ended s /\ s_ok (du_st s) = true /\
    (exists cmd, compile_command e c p = FOk cmd /\ executed cmd (s_log (du_st s)) = 2) /\
    (exists cmd, link_command e c ord = FOk cmd /\ executed cmd (s_log (du_st s)) = 2).
Proof.
  destruct twice_run as (s & A & B & C & D & E). exists e0, disk0, cA, ordA, twice, s, "/p/a.cpp".
  split; [left; reflexivity|]. split; [exact D|]. split; [exact A|]. split; [exact B|]. split; [exact C|exact E].
Qed.
Print Assumptions C138_once_refuted.

(** A command of the second call fails after the first has stored the state: the
    process fails, but the next one finds nothing to do and succeeds although an
    object is not what its sources give. *)
Theorem C138_failed_refuted :
  exists e d c ord l s st2,
    du_exec e (du_begin (init d)) (DuStart 2 c ord :: l) = Some s /\ s_ok (du_st s) = false /\
    exec e (with_pc (du_st s) Idle) (idle_run c ord) = Some st2 /\ s_ok st2 = true /\
    s_log st2 = s_log (du_st s) /\ ~ all_current e c (s_disk st2).
Proof. destruct spoilt_run as (s & st2 & A). exists e0, disk0, cA, ordA, spoilt, s, st2. exact A. Qed.
Print Assumptions C138_failed_refuted.

(** Any number of calls, any interleaving of the chains, all commands succeeding on
    files that exist and do not change: when the process reports success everything
    is current, and the next process has nothing to execute. *)
Theorem C138_success_current_partial (rg : regime) (e : tenv) (d0 : disk) (evs : list event) (h : hist) (st : tstate)
  (c : cfg) (n : nat) (ord : list string) (l : list duevent) (s : dup) :
  templates_ok e -> history rg e d0 evs h st -> s_pc st = Idle -> permitted e h c ->
  (forall f, In f (tracked c) -> d_mt (s_disk st) f <> None) ->
  n <> 0 -> ~ In (FOk "") (all_commands e c ord) -> Forall smooth l ->
  du_exec e (du_begin st) (DuStart n c ord :: l) = Some s -> all_ended s -> s_ok (du_st s) = true ->
  all_current e c (s_disk (du_st s)) /\
  (forall ord2, ord_ok ord2 (sources c) = true -> forallb is_fok (all_commands e c ord2) = true ->
     exists st2, exec e (with_pc (du_st s) Idle) (idle_run c ord2) = Some st2 /\ s_ok st2 = true /\
       s_disk st2 = s_disk (du_st s) /\ s_log st2 = s_log (du_st s)).
Proof. exact (several_builds rg e d0 evs h st c n ord l s). Qed.
Print Assumptions C138_success_current_partial.

(** A PCH and a source were edited after a build; two calls, interleaved. *)
Example C138_case : exists h st s, history Forward e0 disk0 past h st /\ s_pc st = Idle /\ permitted e0 h cP /\
  (forall f, In f (tracked cP) -> d_mt (s_disk st) f <> None) /\ ~ In (FOk "") (all_commands e0 cP ordA) /\ Forall smooth both /\
  du_exec e0 (du_begin st) (DuStart 2 cP ordA :: both) = Some s /\ all_ended s /\ s_ok (du_st s) = true /\
  ~ all_current e0 cP (s_disk st) /\ ord_ok ordA (sources cP) = true /\ forallb is_fok (all_commands e0 cP ordA) = true.
Proof. exact both_case. Qed.

(** After a successful build nothing is executed or written, however often Build()
    is called. *)
Theorem C138_nothing_executed (rg : regime) (e : tenv) (d0 : disk) (evs : list event) (h : hist) (st : tstate)
  (n : nat) (ord : list string) (l : list duevent) (s : dup) :
  templates_ok e -> history rg e d0 (evs ++ [EvEnd WOk]) h st -> s_ok st = true -> h_edited h = false ->
  permitted e h (s_cfg st) -> (forall f, In f (tracked (s_cfg st)) -> d_mt (s_disk st) f <> None) ->
  n <> 0 -> ~ In (FOk "") (all_commands e (s_cfg st) ord) -> Forall smooth l ->
  du_exec e (du_begin st) (DuStart n (s_cfg st) ord :: l) = Some s -> all_ended s -> s_ok (du_st s) = true ->
  s_disk (du_st s) = s_disk st /\ s_log (du_st s) = s_log st.
Proof. exact (several_idle rg e d0 evs h st n ord l s). Qed.
Print Assumptions C138_nothing_executed.

Example C138_nothing_case : exists h st s, history Forward e0 disk0 (built ++ [EvEnd WOk]) h st /\ s_ok st = true /\ h_edited h = false /\
  permitted e0 h (s_cfg st) /\ (forall f, In f (tracked (s_cfg st)) -> d_mt (s_disk st) f <> None) /\
  ~ In (FOk "") (all_commands e0 (s_cfg st) ordA) /\ Forall smooth rest2 /\
  du_exec e0 (du_begin st) (DuStart 2 (s_cfg st) ordA :: rest2) = Some s /\ all_ended s /\ s_ok (du_st s) = true /\ length (s_log st) = 4.
Proof. exact rest_case. Qed.

(** After a process in which Build() was called several times and which reported
    success, the next process executes and writes nothing, however often Build() is
    called in it. *)
Theorem C138_then_nothing_executed (rg : regime) (e : tenv) (d0 : disk) (evs : list event) (h : hist) (st : tstate)
  (c : cfg) (n : nat) (ord : list string) (l : list duevent) (s : dup) (n2 : nat) (ord2 : list string) (l2 : list duevent) (s2 : dup) :
  templates_ok e -> history rg e d0 evs h st -> s_pc st = Idle -> permitted e h c ->
  (forall f, In f (tracked c) -> d_mt (s_disk st) f <> None) ->
  n <> 0 -> ~ In (FOk "") (all_commands e c ord) -> Forall smooth l ->
  du_exec e (du_begin st) (DuStart n c ord :: l) = Some s -> all_ended s -> s_ok (du_st s) = true ->
  n2 <> 0 -> ~ In (FOk "") (all_commands e c ord2) -> Forall smooth l2 ->
  du_exec e (du_begin (with_pc (du_st s) Idle)) (DuStart n2 c ord2 :: l2) = Some s2 -> all_ended s2 -> s_ok (du_st s2) = true ->
  s_disk (du_st s2) = s_disk (du_st s) /\ s_log (du_st s2) = s_log (du_st s).
Proof. exact (several_then_idle rg e d0 evs h st c n ord l s n2 ord2 l2 s2). Qed.
Print Assumptions C138_then_nothing_executed.

(** A first process with two calls executes eight commands; then another with two calls. *)
Example C138_then_case : exists h st s s2, history Forward e0 disk0 past h st /\ s_pc st = Idle /\ permitted e0 h cP /\
  (forall f, In f (tracked cP) -> d_mt (s_disk st) f <> None) /\ ~ In (FOk "") (all_commands e0 cP ordA) /\
  Forall smooth both /\ Forall smooth rest2 /\
  du_exec e0 (du_begin st) (DuStart 2 cP ordA :: both) = Some s /\ all_ended s /\ s_ok (du_st s) = true /\
  du_exec e0 (du_begin (with_pc (du_st s) Idle)) (DuStart 2 cP ordA :: rest2) = Some s2 /\ all_ended s2 /\ s_ok (du_st s2) = true /\
  length (s_log st) + 8 <= length (s_log (du_st s)).
Proof. exact then_case. Qed.

(** One process after the other, each with any number of calls of Build(), files being
    edited in between: after each that reports success everything is current, and
    there is nothing left to execute. *)
Theorem C138_processes_current_partial (rg : regime) (e : tenv) (d0 : disk) (evs : list event) (h : hist) (st : tstate)
  (c : cfg) (st' : tstate) :
  templates_ok e -> history rg e d0 evs h st -> s_pc st = Idle -> permitted e h c ->
  (forall f, In f (tracked c) -> d_mt (s_disk st) f <> None) -> processes e c st st' ->
  all_current e c (s_disk st') /\
  (forall ord2, ord_ok ord2 (sources c) = true -> forallb is_fok (all_commands e c ord2) = true ->
     exists st2, exec e st' (idle_run c ord2) = Some st2 /\ s_ok st2 = true /\ s_disk st2 = s_disk st' /\ s_log st2 = s_log st').
Proof. exact (processes_current rg e d0 evs h st c st'). Qed.
Print Assumptions C138_processes_current_partial.

(** Two processes with two calls each, a source edited in between; thirteen commands. *)
Example C138_processes_case : exists h st st', history Forward e0 disk0 past h st /\ s_pc st = Idle /\ permitted e0 h cP /\
  (forall f, In f (tracked cP) -> d_mt (s_disk st) f <> None) /\ processes e0 cP st st' /\
  length (s_log st) + 13 <= length (s_log st') /\
  ord_ok ordA (sources cP) = true /\ forallb is_fok (all_commands e0 cP ordA) = true.
Proof. exact processes_case. Qed.

(** The run comes to its end, whatever the commands do: the number of steps is
    bounded, and as long as a chain has not ended some task can go on. *)
Theorem C138_comes_to_end (e : tenv) (st : tstate) (n : nat) (c : cfg) (ord : list string) (l : list duevent) (s : dup) :
  du_exec e (du_begin st) (DuStart n c ord :: l) = Some s -> Forall own_task l -> s_pc st = Idle ->
  length l <= n * (length (sources c) + 6) /\
  (all_ended s \/ exists i ev s', good ev /\ du_step e s (DuTask i ev) = Some s').
Proof. exact (several_end e st n c ord l s). Qed.
Print Assumptions C138_comes_to_end.

(** With a failing command. *)
Example C138_end_case : Forall own_task (firstn 8 spoilt) /\
  match du_exec e0 (du_begin (init disk0)) (DuStart 2 cA ordA :: firstn 8 spoilt) with
  | Some s => negb (s_ok (du_st s)) && negb (all_idle s) | None => false end = true.
Proof. split; [repeat constructor|vm_compute; reflexivity]. Qed.

(** No command is executed more often than Build() was called: the PCH command, the
    link command, and the compile command of each source (once for each time the
    source is in the list). *)
Theorem C138_once_per_call (e : tenv) (st : tstate) (n : nat) (c : cfg) (ord : list string) (l : list duevent) (s : dup) :
  du_exec e (du_begin st) (DuStart n c ord :: l) = Some s -> Forall own_task l -> s_pc st = Idle ->
  pch_runs (s_log (du_st s)) <= pch_runs (s_log st) + n /\ link_runs (s_log (du_st s)) <= link_runs (s_log st) + n /\
  forall p, source_runs p (s_log (du_st s)) <= source_runs p (s_log st) + n * times_in p (sources c).
Proof. exact (several_count e st n c ord l s). Qed.
Print Assumptions C138_once_per_call.

(** The bounds are reached. *)
Example C138_count_case : Forall own_task twice /\ times_in "/p/a.cpp" (sources cA) = 1 /\
  match du_exec e0 (du_begin (init disk0)) (DuStart 2 cA ordA :: twice) with
  | Some s => Nat.eqb (link_runs (s_log (du_st s))) 2 && Nat.eqb (source_runs "/p/a.cpp" (s_log (du_st s))) 2 | None => false end = true.
Proof. split; [repeat constructor|split; vm_compute; reflexivity]. Qed.
