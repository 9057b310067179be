(** C133: several processes building at once in one build directory. *)
From Verif Require Import Prelude Model_Json Model_Schema Model_Command Model_ToolchainConfig Model_Target Spec_Target
  Proof_TargetCase Model_Two Spec_Two Proof_TwoMain Proof_TwoCase.

(** Two builds with different options, all commands of both succeed, both report
    success; afterwards a build with the options of the first finds nothing to do
    and reports success although an object was compiled with the other options. *)
Theorem C133_different_options_refuted :
  exists e c1 c2 ord d l s1 s2,
    Forall (fun x => orderly e (if Nat.eqb (fst x) 0 then c1 else c2) (snd x)) l /\
    sh_exec e (sh_start d) l = Some s1 /\ s_ok (sh_proc s1 0) = true /\ s_ok (sh_proc s1 1) = true /\
    sh_exec e s1 (map (pair 0) (idle_run c1 ord)) = Some s2 /\ s_ok (sh_proc s2 0) = true /\
    ~ all_current e c1 (sh_disk s2).
Proof.
  destruct mix_refuted as (s1 & s2 & A & B & C). exists e0, cA, cB, ordA, disk0, mix, s1, s2. split; [exact B|]. split; [exact A|exact C].
Qed.
Print Assumptions C133_different_options_refuted.

(** The same options in both, but a compile command of the second fails: the first
    reports success, the next build finds nothing to do, an object is not current. *)
Theorem C133_failed_command_refuted :
  exists e c ord d l s1 s2,
    (forall i c' ord', In (i, EvStart c' ord') l -> c' = c) /\
    sh_exec e (sh_start d) l = Some s1 /\ s_ok (sh_proc s1 0) = true /\
    sh_exec e s1 (map (pair 0) (idle_run c ord)) = Some s2 /\ s_ok (sh_proc s2 0) = true /\
    ~ all_current e c (sh_disk s2).
Proof.
  destruct torn_refuted as (s1 & s2 & A & B & C). exists e0, cA, ordA, disk0, torn, s1, s2. split; [exact B|]. split; [exact A|exact C].
Qed.
Print Assumptions C133_failed_command_refuted.

(** Any number of processes started at any time, in any interleaving, all with the
    same options, all commands succeeding, some processes killed or unable to write
    the state file, on files that exist and do not change: once one process has
    reported success everything is current and stays so, whatever the others still
    do, and a process started later has nothing to execute. *)
Theorem C133_same_build_partial (rg : regime) (e : tenv) (d0 : disk) (evs : list event) (h : hist) (st : tstate)
  (c : cfg) (l1 : list (nat * event)) (i : nat) (w : wres) (l2 : list (nat * event)) (s1 s2 : shared) :
  templates_ok e -> history rg e d0 evs h st -> s_pc st = Idle -> permitted e h c ->
  (forall f, In f (tracked c) -> d_mt (s_disk st) f <> None) ->
  Forall (fun x => orderly e c (snd x)) (l1 ++ (i, EvEnd w) :: l2) ->
  sh_exec e (sh_start (s_disk st)) (l1 ++ [(i, EvEnd w)]) = Some s1 -> s_ok (sh_proc s1 i) = true ->
  sh_exec e s1 l2 = Some s2 ->
  all_current e c (sh_disk s2) /\
  (forall j ord, s_pc (sh_proc s2 j) = Idle -> ord_ok ord (sources c) = true ->
     forallb is_fok (all_commands e c ord) = true ->
     exists s3, sh_exec e s2 (map (pair j) (idle_run c ord)) = Some s3 /\ s_ok (sh_proc s3 j) = true /\
       sh_disk s3 = sh_disk s2 /\ s_log (sh_proc s3 j) = s_log (sh_proc s2 j)).
Proof. exact (two_processes rg e d0 evs h st c l1 i w l2 s1 s2). Qed.
Print Assumptions C133_same_build_partial.

(** Three processes after an edit of the PCH and of a source, interleaved; one is
    killed and starts again. *)
Example C133_case : exists h st s1 s2, history Forward e0 disk0 past h st /\ s_pc st = Idle /\ permitted e0 h cP /\
  (forall f, In f (tracked cP) -> d_mt (s_disk st) f <> None) /\
  Forall (fun x => orderly e0 cP (snd x)) (race1 ++ (0, EvEnd WOk) :: race2) /\
  sh_exec e0 (sh_start (s_disk st)) (race1 ++ [(0, EvEnd WOk)]) = Some s1 /\ s_ok (sh_proc s1 0) = true /\
  sh_exec e0 s1 race2 = Some s2 /\ ~ all_current e0 cP (s_disk st) /\
  s_pc (sh_proc s2 1) = Idle /\ ord_ok ordA (sources cP) = true /\ forallb is_fok (all_commands e0 cP ordA) = true.
Proof. exact race_case. Qed.
