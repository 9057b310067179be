(** C136: calls that describe a target after its Build(). *)
From Verif Require Import Prelude Model_Path Model_Json Model_Schema Model_Command Model_ToolchainConfig Model_Target Model_Sync Spec_Sync
  Model_Api Spec_Api Spec_Target Proof_TargetCase Proof_ApiCase Model_Late Spec_Late Proof_Late Proof_Late2 Proof_Late3 Proof_Late4 Proof_LateCase.

(** The decisions of the run, its result and the state file it leaves are those of a
    process that makes the calls before Build(), unless the calls name a source or the
    first PCH file. *)
Theorem C136_late_same_course (e : tenv) (t : tcflags) (ls0 ls : listing) (cs0 cs : list call) (u0 u1 : tschema) (ord : list string)
  (st : tstate) (run : list event) (l : lstate) :
  api_run (AE (te_tc e) (te_root e) ls0) (new_target t) cs0 = Ok u0 -> api_run (AE (te_tc e) (te_root e) ls) u0 cs = Ok u1 ->
  no_new_outputs (AE (te_tc e) (te_root e) ls) u0 cs -> commands_fine e (cfg_of u0) ord -> commands_fine e (cfg_of u1) ord ->
  one_process run -> lexec e (LS st false) (late_run e u0 ord ls cs run) = Some l ->
  exists st', exec e st (EvStart (cfg_of u1) ord :: run) = Some st' /\ same_course (l_st l) st'.
Proof.
  intros D0 D1 NO F0 F1 NS X. destruct (late_same_course e t ls0 ls cs0 cs u0 u1 ord D0 D1 NO F0 F1 st run l NS X) as (st' & A & B & _).
  exists st'. split; [exact A|exact B].
Qed.
Print Assumptions C136_late_same_course.

(** But the commands the run executes are those of the calls before Build(). *)
Theorem C136_late_commands (e : tenv) (u0 : tschema) (ord : list string) (ls : listing) (cs : list call) (run : list event) (st : tstate) (l : lstate) :
  one_process run -> lexec e (LS st false) (late_run e u0 ord ls cs run) = Some l ->
  exists x, s_log (l_st l) = s_log st ++ x /\ Forall (issued e (cfg_of u0) ord) x.
Proof. exact (late_issued e u0 ord ls cs run st l). Qed.
Print Assumptions C136_late_commands.

(** The whole statement holds for files that are only looked at: headers,
    dependencies, and PCH files when there was one already.  Missing: every other
    call, for which it is false. *)
Theorem C136_late_files_count_partial (e : tenv) (t : tcflags) (ls0 ls : listing) (cs0 cs : list call) (u0 u1 : tschema) (ord : list string)
  (d0 : disk) (evs : list event) (h : hist) (st : tstate) (run : list event) (w : wres) (h' : hist) (st' : tstate) (l : lstate) :
  templates_ok e -> api_run (AE (te_tc e) (te_root e) ls0) (new_target t) cs0 = Ok u0 -> api_run (AE (te_tc e) (te_root e) ls) u0 cs = Ok u1 ->
  no_new_outputs (AE (te_tc e) (te_root e) ls) u0 cs -> only_looked_at (AE (te_tc e) (te_root e) ls) cs ->
  history Quiet e d0 evs h st -> one_process run ->
  history Quiet e d0 ((evs ++ EvStart (cfg_of u1) ord :: run) ++ [EvEnd w]) h' st' ->
  lexec e (LS st false) (late_run e u0 ord ls cs (run ++ [EvEnd w])) = Some l -> s_ok (l_st l) = true ->
  all_current e (cfg_of u1) (s_disk (l_st l)).
Proof. exact (looked_current e t ls0 ls cs0 cs u0 u1 ord d0 evs h st run w h' st' l). Qed.
Print Assumptions C136_late_files_count_partial.

(** False for options: after a successful run with late calls, a process that makes
    the same calls before Build() finds nothing to do and succeeds.  Whatever the
    options were, they never reach a command. *)
Theorem C136_late_option_lost_refuted (e : tenv) (t : tcflags) (ls0 ls : listing) (cs0 cs : list call) (u0 u1 : tschema) (ord : list string)
  (rg : regime) (d0 : disk) (evs : list event) (h : hist) (st : tstate) (run : list event) (h' : hist) (st' : tstate) (l : lstate) :
  templates_ok e -> api_run (AE (te_tc e) (te_root e) ls0) (new_target t) cs0 = Ok u0 -> api_run (AE (te_tc e) (te_root e) ls) u0 cs = Ok u1 ->
  no_new_outputs (AE (te_tc e) (te_root e) ls) u0 cs -> commands_fine e (cfg_of u0) ord -> commands_fine e (cfg_of u1) ord ->
  history rg e d0 evs h st -> one_process run ->
  history rg e d0 ((evs ++ EvStart (cfg_of u1) ord :: run) ++ [EvEnd WOk]) h' st' -> h_edited h' = false ->
  lexec e (LS st false) (late_run e u0 ord ls cs (run ++ [EvEnd WOk])) = Some l -> s_ok (l_st l) = true ->
  exists st2, exec e (l_st l) (idle_run (cfg_of u1) ord) = Some st2 /\ s_ok st2 = true /\ s_pc st2 = Idle /\
    s_log st2 = s_log (l_st l) /\ s_disk st2 = s_disk (l_st l).
Proof. exact (late_lost e t ls0 ls cs0 cs u0 u1 ord rg d0 evs h st run h' st' l). Qed.
Print Assumptions C136_late_option_lost_refuted.

(** A concrete one: a flag, an include directory and a library.  Both processes
    report success, the object was compiled without them. *)
Theorem C136_late_flag_refuted :
  exists e t ls cs0 cs u0 u1 ord d0 run l st2 s,
    templates_ok e /\ api_run (AE (te_tc e) (te_root e) ls) (new_target t) cs0 = Ok u0 /\ api_run (AE (te_tc e) (te_root e) ls) u0 cs = Ok u1 /\
    no_new_outputs (AE (te_tc e) (te_root e) ls) u0 cs /\
    lexec e (LS (init d0) false) (late_run e u0 ord ls cs run) = Some l /\ s_ok (l_st l) = true /\
    In s (sources (cfg_of u1)) /\ ~ obj_current e (cfg_of u1) (d_mt (s_disk (l_st l))) (s_disk (l_st l)) s /\
    exec e (l_st l) (idle_run (cfg_of u1) ord) = Some st2 /\ s_ok st2 = true /\ s_log st2 = s_log (l_st l) /\
    ~ obj_current e (cfg_of u1) (d_mt (s_disk st2)) (s_disk st2) s.
Proof.
  destruct lost_case as (l & A & B & C & st2 & D & E & F & G).
  exists e0, tf0, ls0, early, late_options, late_u0, late_u1, ordA, disk0, (all_tasks ordA ++ [EvEnd WOk]), l, st2, "/p/a.cpp".
  split; [exact e0_templates|]. split; [exact late_u0_ok|]. split; [exact late_u1_ok|]. split; [split; [reflexivity|apply or_introl; reflexivity]|].
  split; [exact A|]. split; [exact B|]. split; [vm_compute; apply or_introl; reflexivity|]. split; [exact C|]. split; [exact D|]. split; [exact E|]. split; [exact F|exact G].
Qed.
Print Assumptions C136_late_flag_refuted.

(** A source given after Build(): a run that comes to compile it fails. *)
Theorem C136_late_source_fails (e : tenv) (u0 : tschema) (ord : list string) (ls : listing) (cs : list call) (run : list event) (st : tstate) (l : lstate)
  (s : string) (r : xres obj_art) :
  one_process run -> lexec e (LS st false) (late_run e u0 ord ls cs run) = Some l -> In (EvCompile s r) run -> ~ In s (sources (cfg_of u0)) ->
  s_ok (l_st l) = false.
Proof. exact (late_source_fails e u0 ord ls cs run st l s r). Qed.
Print Assumptions C136_late_source_fails.

(** It fails without being stuck: whatever has happened in the process so far, the
    tasks can go on to the end of the run. *)
Theorem C136_late_run_ends (e : tenv) (u0 : tschema) (ord : list string) (ls : listing) (cs : list call) (run : list event) (st : tstate) (l : lstate) :
  commands_fine e (cfg_of u0) ord -> one_process run -> lexec e (LS st false) (late_run e u0 ord ls cs run) = Some l ->
  s_pc (l_st l) <> Idle -> exists run2 l2, Forall of_task run2 /\ lexec e l (map LEv run2) = Some l2 /\ s_pc (l_st l2) = Idle.
Proof. exact (late_ends e u0 ord ls cs run st l). Qed.
Print Assumptions C136_late_run_ends.

(** A run that does not come to compile it, because an earlier one did, succeeds and
    links without it. *)
Theorem C136_late_source_refuted :
  exists e t ls cs0 cs u0 u1 ord d0 evs run l,
    api_run (AE (te_tc e) (te_root e) ls) (new_target t) cs0 = Ok u0 /\ api_run (AE (te_tc e) (te_root e) ls) u0 cs = Ok u1 /\
    lexec e (LS (init d0) false) (evs ++ late_run e u0 ord ls cs run) = Some l /\ s_ok (l_st l) = true /\
    ~ tgt_current e (cfg_of u1) (d_mt (s_disk (l_st l))) (s_disk (l_st l)).
Proof.
  destruct forgotten_case as (l & A & B & C).
  exists e0, tf0, ls0, [AddSource "a.cpp" ""], late_source, src_u0, src_u1, ["/p/a.cpp"], disk0,
    (map LEv (full_run (cfg_of src_u1) ordA ordA) ++ [LEv (EvEdit "/p/a.cpp" (Some 2%N))]), (all_tasks ["/p/a.cpp"] ++ [EvEnd WOk]), l.
  split; [vm_compute; reflexivity|]. split; [vm_compute; reflexivity|]. split; [rewrite <- app_assoc; exact A|]. split; [exact B|exact C].
Qed.
Print Assumptions C136_late_source_refuted.

(** The hypotheses are met: options and files given late, on an empty build
    directory, and a source given late that no earlier run has compiled. *)
Example C136_options_case : no_new_outputs (AE (te_tc e0) (te_root e0) ls0) late_u0 late_options /\
  commands_fine e0 (cfg_of late_u0) ordA /\ commands_fine e0 (cfg_of late_u1) ordA /\ one_process (all_tasks ordA ++ [EvEnd WOk]) /\
  (exists h' st', history Forward e0 disk0 (([] ++ EvStart (cfg_of late_u1) ordA :: all_tasks ordA) ++ [EvEnd WOk]) h' st' /\ negb (h_edited h') = true) /\
  exists l, lexec e0 (LS (init disk0) false) (late_run e0 late_u0 ordA ls0 late_options (all_tasks ordA ++ [EvEnd WOk])) = Some l /\
    s_ok (l_st l) && Nat.eqb (length (s_log (l_st l))) 3 = true.
Proof.
  split; [split; [reflexivity|apply or_introl; reflexivity]|]. split; [apply fineb_sound; vm_compute; reflexivity|]. split; [apply fineb_sound; vm_compute; reflexivity|].
  split; [apply one_processb; reflexivity|]. split; [apply (follow_case Forward e0 disk0 _ (fun h _ => negb (h_edited h))); vm_compute; reflexivity|].
  apply (lexec_case e0 _ _ (fun l => s_ok (l_st l) && Nat.eqb (length (s_log (l_st l))) 3)). vm_compute. reflexivity.
Qed.
Example C136_files_case : no_new_outputs (AE (te_tc e0) (te_root e0) ls0) late_u0 late_files /\ only_looked_at (AE (te_tc e0) (te_root e0) ls0) late_files /\
  one_process (all_tasks ordA) /\
  (exists h' st', history Quiet e0 disk0 (([] ++ EvStart (cfg_of late_u2) ordA :: all_tasks ordA) ++ [EvEnd WOk]) h' st' /\ s_ok st' = true) /\
  exists l, lexec e0 (LS (init disk0) false) (late_run e0 late_u0 ordA ls0 late_files (all_tasks ordA ++ [EvEnd WOk])) = Some l /\
    s_ok (l_st l) && Nat.eqb (length (s_log (l_st l))) 3 = true.
Proof.
  split; [split; [reflexivity|apply or_introl; reflexivity]|].
  split; [intros [] H; cbn; try (exfalso; apply H; vm_compute; reflexivity); tauto|].
  split; [apply one_processb; reflexivity|]. split; [apply (follow_case Quiet e0 disk0 _ (fun _ st => s_ok st)); vm_compute; reflexivity|].
  apply (lexec_case e0 _ _ (fun l => s_ok (l_st l) && Nat.eqb (length (s_log (l_st l))) 3)). vm_compute. reflexivity.
Qed.
Example C136_source_case : exists l, lexec e0 (LS (init disk0) false)
    (late_run e0 src_u0 ["/p/a.cpp"] ls0 late_source (EvObjCheck :: compiles [("/p/b.cpp", XOk); ("/p/a.cpp", XOk)] ++ [EvLinkCheck; EvEnd WOk])) = Some l /\
  negb (s_ok (l_st l)) && Nat.eqb (length (s_log (l_st l))) 1 = true.
Proof. apply (lexec_case e0 _ _ (fun l => negb (s_ok (l_st l)) && Nat.eqb (length (s_log (l_st l))) 1)). vm_compute. reflexivity. Qed.
Example C136_ends_case : commands_fine e0 (cfg_of src_u0) ["/p/a.cpp"] /\ exists l, lexec e0 (LS (init disk0) false)
    (late_run e0 src_u0 ["/p/a.cpp"] ls0 late_source [EvObjCheck; EvCompile "/p/b.cpp" XOk]) = Some l /\
  (match s_pc (l_st l) with PcCompile [_] => true | _ => false end) && negb (s_ok (l_st l)) = true.
Proof.
  split; [apply fineb_sound; vm_compute; reflexivity|].
  apply (lexec_case e0 _ _ (fun l => (match s_pc (l_st l) with PcCompile [_] => true | _ => false end) && negb (s_ok (l_st l)))). vm_compute. reflexivity.
Qed.
