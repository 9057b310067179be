(** C01 - C15: the target build. *)
From Verif Require Import Prelude Model_Json Model_Schema Model_Command Model_ToolchainConfig Model_Target
  Spec_Command Spec_Json Spec_Target Proof_TargetMain Proof_TargetRuns Proof_TargetSched Proof_TargetLive
  Proof_TargetClean Proof_Schema Proof_TargetCase.

(** The history used by several examples: a full build; a source gets an older
    time stamp; a build with other flags in which one compile fails; a header is
    edited; a failed link; a build that succeeds. *)
Definition busy : list event :=
  full_run cA ordA ["/p/b.cpp"; "/p/a.cpp"] ++
  EvEdit "/p/a.cpp" (Some 0%N) ::
  [EvStart cB ordA; EvObjCheck; EvCompile "/p/a.cpp" (XFail None); EvFail; EvCompile "/p/b.cpp" XOk; EvLinkCheck; EvEnd WOk] ++
  EvEdit "/p/h.h" (Some 9%N) ::
  [EvStart cB ordA; EvObjCheck; EvCompile "/p/a.cpp" XOk; EvCompile "/p/b.cpp" XOk; EvLinkCheck; EvLinkExec XNotRun; EvEnd WOk] ++
  [EvStart cB ordA; EvObjCheck; EvLinkCheck; EvLinkExec XOk; EvEnd WOk].
(** With a PCH: built, PCH file edited, PCH compile fails, built. *)
Definition busy_pch : list event :=
  full_run cP ordA ["/p/b.cpp"; "/p/a.cpp"] ++
  EvEdit "/p/pch.h" (Some 4%N) ::
  [EvStart cP ordA; EvPchCheck; EvPchExec (XFail None); EvObjCheck; EvLinkCheck; EvEnd WOk] ++
  full_run cP ordA ["/p/a.cpp"; "/p/b.cpp"].

(** C01: after every successful run every object file is current. *)
Theorem C01_objects_current : forall e d0 evs w h st,
  templates_ok e -> history Quiet e d0 (evs ++ [EvEnd w]) h st -> s_ok st = true ->
  forall s, In s (sources (s_cfg st)) -> obj_current e (s_cfg st) (d_mt (s_disk st)) (s_disk st) s.
Proof. exact quiet_objects. Qed.
Print Assumptions C01_objects_current.

Example C01_case : templates_ok e0 /\
  exists h st, history Quiet e0 disk0 busy h st /\
    s_ok st && Nat.eqb (length (s_log st)) 8 && str_list_eqb (sources (s_cfg st)) ["/p/a.cpp"; "/p/b.cpp"] = true.
Proof. split; [exact e0_templates|]. apply follow_case. vm_compute. reflexivity. Qed.

(** C02: and the target is linked from exactly these objects. *)
Theorem C02_target_current : forall e d0 evs w h st,
  templates_ok e -> history Quiet e d0 (evs ++ [EvEnd w]) h st -> s_ok st = true ->
  tgt_current e (s_cfg st) (d_mt (s_disk st)) (s_disk st).
Proof. exact quiet_target. Qed.
Print Assumptions C02_target_current.

Example C02_case : exists h st, history Quiet e0 disk0 busy_pch h st /\
    s_ok st && Nat.eqb (length (s_log st)) 9 && negb (tgt_staleb (s_disk st)) = true.
Proof. apply follow_case. vm_compute. reflexivity. Qed.

(** C03: and so is the precompiled header. *)
Theorem C03_pch_current : forall e d0 evs w h st,
  templates_ok e -> history Quiet e d0 (evs ++ [EvEnd w]) h st -> s_ok st = true ->
  pchs (s_cfg st) <> [] -> pch_current e (s_cfg st) (d_mt (s_disk st)) (s_disk st).
Proof. exact quiet_pch. Qed.
Print Assumptions C03_pch_current.

Example C03_case : exists h st, history Quiet e0 disk0 busy_pch h st /\
    s_ok st && str_list_eqb (pchs (s_cfg st)) ["/p/pch.h"] = true.
Proof. apply follow_case. vm_compute. reflexivity. Qed.

(** C04: after a successful run nothing is executed or written until a tracked
    file, the configuration or an output is touched ... *)
Theorem C04_nothing_executed : forall rg e d0 evs h st evs2 st2,
  templates_ok e -> history rg e d0 (evs ++ [EvEnd WOk]) h st -> s_ok st = true -> h_edited h = false ->
  Forall (undisturbed (s_cfg st)) evs2 -> exec e st evs2 = Some st2 ->
  s_log st2 = s_log st /\ same_outputs (s_disk st) (s_disk st2).
Proof. exact nothing_executed. Qed.
Print Assumptions C04_nothing_executed.

(** ... and the next run succeeds without doing anything. *)
Theorem C04_next_run_succeeds : forall rg e d0 evs h st ord,
  templates_ok e -> history rg e d0 (evs ++ [EvEnd WOk]) h st -> s_ok st = true -> h_edited h = false ->
  ord_ok ord (sources (s_cfg st)) = true ->
  exists st2, exec e st (idle_run (s_cfg st) ord) = Some st2 /\ s_ok st2 = true /\ s_pc st2 = Idle /\
    s_log st2 = s_log st /\ s_disk st2 = s_disk st.
Proof. exact idle_run_succeeds. Qed.
Print Assumptions C04_next_run_succeeds.

Example C04_case : exists h st, history Forward e0 disk0 (busy_pch) h st /\
  s_ok st && negb (h_edited h) && ord_ok ordA (sources (s_cfg st)) &&
  match exec e0 st (EvEdit "/p/other" (Some 3%N) :: idle_run cP ordA ++ [EvStart cP ordA; EvPchCheck; EvCrash]) with
  | Some st2 => Nat.eqb (length (s_log st2)) 9 | None => false end = true.
Proof. apply follow_case. vm_compute. reflexivity. Qed.

(** A source added twice is compiled again in every run. *)
Theorem C04_duplicate_source_refuted :
  exists st, exec e0 (init disk0) trace04 = Some st /\ s_ok st = true /\
  exists st2, exec e0 st [EvStart cD ["/p/a.cpp"]; EvObjCheck; EvCompile "/p/a.cpp" XOk; EvLinkCheck; EvLinkExec XOk; EvEnd WOk] = Some st2 /\
    s_ok st2 = true /\ length (s_log st2) = length (s_log st) + 2.
Proof. exact trace04_rebuilds. Qed.
Print Assumptions C04_duplicate_source_refuted.

(** C05: each source is compiled at most once; with an unchanged set-up exactly
    the new and changed ones, otherwise all. *)
Theorem C05_compiled_exactly : forall rg e d0 evs h st cs st2,
  templates_ok e -> history rg e d0 evs h st -> s_pc st = PcObj -> s_ok st = true ->
  (forall p, In p (sources (s_cfg st) ++ headers (s_cfg st) ++ compile_deps (s_cfg st)) -> d_mt (s_disk st) p <> None) ->
  exec e st (EvObjCheck :: compiles cs ++ [EvLinkCheck]) = Some st2 ->
  NoDup (map fst cs) /\
  (forall l, stored (s_disk st) = Some l -> s_dirty st = false ->
     compile_setup_unchanged l (s_cfg st) (d_mt (s_disk st)) ->
     forall p, In p (map fst cs) <-> In p (sources (s_cfg st)) /\ ~ source_unchanged l (d_mt (s_disk st)) p) /\
  (stored (s_disk st) = None \/ s_dirty st = true \/
   (exists l, stored (s_disk st) = Some l /\ ~ compile_setup_unchanged l (s_cfg st) (d_mt (s_disk st))) ->
   Permutation (map fst cs) (sources (s_cfg st))).
Proof. exact compiled_exactly. Qed.
Print Assumptions C05_compiled_exactly.

(** One source edited, one unchanged: only the edited one is compiled. *)
Example C05_case : exists h st,
  history Quiet e0 disk0 (full_run cA ordA ordA ++ [EvEdit "/p/a.cpp" (Some 7%N); EvStart cA ordA]) h st /\
  match s_pc st, stored (s_disk st) with PcObj, Some _ => s_ok st && negb (s_dirty st) | _, _ => false end &&
  match exec e0 st (EvObjCheck :: compiles [("/p/a.cpp", XOk)] ++ [EvLinkCheck]) with Some _ => true | None => false end = true.
Proof. apply follow_case. vm_compute. reflexivity. Qed.

(** C06: no success before a source whose compile failed (or could not be
    started) has been compiled. The same for the PCH and the link. *)
Theorem C06_failed_source_recompiled : forall rg e d0 evs1 s r evs2 w h st,
  templates_ok e -> r <> XOk ->
  history rg e d0 (evs1 ++ EvCompile s r :: evs2 ++ [EvEnd w]) h st -> s_ok st = true -> h_edited h = false ->
  In s (sources (s_cfg st)) ->
  exists s', obj_of e s' = obj_of e s /\ In (EvCompile s' XOk) evs2.
Proof. exact failed_source_recompiled. Qed.
Print Assumptions C06_failed_source_recompiled.

Theorem C06_failed_pch_recompiled : forall rg e d0 evs1 r evs2 w h st,
  templates_ok e -> r <> XOk ->
  history rg e d0 (evs1 ++ EvPchExec r :: evs2 ++ [EvEnd w]) h st -> s_ok st = true -> h_edited h = false ->
  pchs (s_cfg st) <> [] -> In (EvPchExec XOk) evs2.
Proof. exact failed_pch_recompiled. Qed.
Print Assumptions C06_failed_pch_recompiled.

Theorem C06_failed_link_relinked : forall rg e d0 evs1 r evs2 w h st,
  templates_ok e -> r <> XOk ->
  history rg e d0 (evs1 ++ EvLinkExec r :: evs2 ++ [EvEnd w]) h st -> s_ok st = true -> h_edited h = false ->
  In (EvLinkExec XOk) evs2.
Proof. exact failed_link_relinked. Qed.
Print Assumptions C06_failed_link_relinked.

(** [busy] and [busy_pch] contain such failures and end with success. *)
Example C06_case :
  (exists evs1 evs2, busy = evs1 ++ EvCompile "/p/a.cpp" (XFail None) :: evs2 ++ [EvEnd WOk]) /\
  (exists evs1 evs2, busy = evs1 ++ EvLinkExec XNotRun :: evs2 ++ [EvEnd WOk]) /\
  (exists evs1 evs2, busy_pch = evs1 ++ EvPchExec (XFail None) :: evs2 ++ [EvEnd WOk]) /\
  exists h st, history Quiet e0 disk0 busy h st /\ s_ok st && negb (h_edited h) = true.
Proof.
  split; [|split; [|split]].
  - exists (firstn 10 busy), (removelast (skipn 11 busy)). vm_compute. reflexivity.
  - exists (firstn 21 busy), (removelast (skipn 22 busy)). vm_compute. reflexivity.
  - exists (firstn 12 busy_pch), (removelast (skipn 13 busy_pch)). vm_compute. reflexivity.
  - apply follow_case. vm_compute. reflexivity.
Qed.

(** C07, C09: edits, crashes and failures to write the state file at any moment
    of earlier runs do no harm (under the conditions of [Forward]). *)
Theorem C07_crash_safe : forall e d0 pre c ord run w h st,
  templates_ok e -> history Forward e d0 (pre ++ EvStart c ord :: run ++ [EvEnd w]) h st ->
  (forall f t, ~ In (EvEdit f t) run) -> s_ok st = true ->
  all_current e (s_cfg st) (s_disk st).
Proof. exact forward_current. Qed.
Print Assumptions C07_crash_safe.

(** Killed during the first compile; killed while writing the state file; the
    state file truncated but reported as written. *)
Definition crashes : list event :=
  [EvStart cA ordA; EvObjCheck; EvCompile "/p/a.cpp" XOk; EvCrash] ++
  [EvStart cA ordA; EvObjCheck; EvCompile "/p/a.cpp" XOk; EvEdit "/p/a.cpp" (Some 6%N); EvCompile "/p/b.cpp" XOk; EvLinkCheck; EvLinkExec XOk; EvCrashEnd 100] ++
  [EvStart cA ordA; EvObjCheck; EvCompile "/p/a.cpp" XOk; EvCompile "/p/b.cpp" XOk; EvLinkCheck; EvLinkExec XOk; EvEnd (WShort 50 true)] ++
  full_run cA ordA ordA.
Example C07_case : exists h st, history Forward e0 disk0 crashes h st /\ s_ok st && Nat.eqb (length (s_log st)) 10 = true.
Proof. apply follow_case. vm_compute. reflexivity. Qed.

(** C08: not if the configuration changes around the crash: built with -O1,
    killed in a build with -O2, then "up to date" with -O1 although one object is
    compiled with -O2. *)
Theorem C08_config_change_refuted :
  exists st, exec e0 (init disk0) trace08 = Some st /\ s_ok st = true /\ s_cfg st = cA /\
  ~ obj_current e0 cA (d_mt (s_disk st)) (s_disk st) "/p/a.cpp".
Proof. exact trace08_stale. Qed.
Print Assumptions C08_config_change_refuted.

(** C09: an edit at any moment of a run is picked up by the next successful run
    (a run whose own checks came after its edits counts, [h_edited]) ... *)
Theorem C09_edits_not_lost_partial : forall rg e d0 evs w h st,
  templates_ok e -> history rg e d0 (evs ++ [EvEnd w]) h st -> s_ok st = true -> h_edited h = false ->
  all_current e (s_cfg st) (s_disk st).
Proof. exact success_current. Qed.
Print Assumptions C09_edits_not_lost_partial.

Example C09_case : exists h st, history Forward e0 disk0
    ([EvStart cA ordA; EvObjCheck; EvCompile "/p/a.cpp" XOk; EvEdit "/p/a.cpp" (Some 5%N); EvCompile "/p/b.cpp" XOk;
      EvLinkCheck; EvEdit "/p/l.a" (Some 5%N); EvLinkExec XOk; EvEnd WOk] ++
     [EvStart cA ordA; EvObjCheck; EvCompile "/p/a.cpp" XOk; EvLinkCheck; EvLinkExec XOk; EvEnd WOk]) h st /\
  s_ok st && negb (h_edited h) = true.
Proof. apply follow_case. vm_compute. reflexivity. Qed.

(** ... except a header edited between the PCH stage and the object stage. *)
Theorem C09_header_in_pch_window_refuted :
  exists st, exec e0 (init disk0) trace09 = Some st /\ s_ok st = true /\ s_cfg st = cP /\
  ~ pch_current e0 cP (d_mt (s_disk st)) (s_disk st).
Proof. exact trace09_stale. Qed.
Print Assumptions C09_header_in_pch_window_refuted.

(** C10: every order of the parallel compiles gives the same result. *)
Theorem C10_schedule_independent : forall e st pend cs1 cs2 st1,
  s_pc st = PcCompile pend -> NoDup (map (obj_of e) (il_paths pend)) -> Permutation cs1 cs2 ->
  exec e st (compiles cs1) = Some st1 ->
  exists st2, exec e st (compiles cs2) = Some st2 /\ same_result st1 st2.
Proof. exact schedule_independent. Qed.
Print Assumptions C10_schedule_independent.

Example C10_case : exists h st, history Quiet e0 disk0 [EvStart cA ordA; EvObjCheck] h st /\
  match s_pc st with PcCompile pend => nodup_str (map (obj_of e0) (il_paths pend)) | _ => false end &&
  match exec e0 st (compiles [("/p/b.cpp", XFail None); ("/p/a.cpp", XOk)]) with Some st1 => negb (s_ok st1) | None => false end = true.
Proof. apply follow_case. vm_compute. reflexivity. Qed.

(** Also over the rest of the run, up to the state file. *)
Theorem C10_run_schedule_independent : forall e st pend cs1 cs2 rest st1,
  s_pc st = PcCompile pend -> NoDup (map (obj_of e) (il_paths pend)) -> Permutation cs1 cs2 ->
  Forall after_compiles rest -> exec e st (compiles cs1 ++ rest) = Some st1 ->
  exists st2, exec e st (compiles cs2 ++ rest) = Some st2 /\ same_run st1 st2.
Proof. exact run_schedule_independent. Qed.
Print Assumptions C10_run_schedule_independent.

Example C10_run_case : exists h st, history Quiet e0 disk0 [EvStart cA ordA; EvObjCheck] h st /\
  match s_pc st with PcCompile pend => nodup_str (map (obj_of e0) (il_paths pend)) | _ => false end &&
  match exec e0 st (compiles [("/p/b.cpp", XOk); ("/p/a.cpp", XOk)] ++ [EvEdit "/p/a.cpp" (Some 6%N); EvLinkCheck; EvLinkExec XOk; EvEnd WOk]) with
  | Some st1 => s_ok st1 && match stored (s_disk st1) with Some s => Nat.eqb (length (ts_sources s)) 2 | None => false end
  | None => false end = true.
Proof. apply follow_case. vm_compute. reflexivity. Qed.

(** C11: switching the PCH off is not noticed. *)
Theorem C11_pch_removed_refuted :
  exists st, exec e0 (init disk0) trace11 = Some st /\ s_ok st = true /\ s_cfg st = cA /\
  forall s, In s (sources cA) -> ~ obj_current e0 cA (d_mt (s_disk st)) (s_disk st) s.
Proof. exact trace11_stale. Qed.
Print Assumptions C11_pch_removed_refuted.

(** C12: nor is a change of the language of the PCH. *)
Theorem C12_pch_language_refuted :
  exists st, exec e0 (init disk0) trace12 = Some st /\ s_ok st = true /\ s_cfg st = cP2 /\
  ~ pch_current e0 cP2 (d_mt (s_disk st)) (s_disk st).
Proof. exact trace12_stale. Qed.
Print Assumptions C12_pch_language_refuted.

(** C13: nor is another compiler or another command template; and a compile
    template that uses the link flags breaks C01. *)
Theorem C13_toolchain_change_refuted : forall e1, e1 = e0_clang \/ e1 = e0_verbose -> templates_ok e1 /\
  exists st1 st2, exec e0 (init disk0) (full_run cA ordA ["/p/a.cpp"; "/p/b.cpp"]) = Some st1 /\
  exec e1 st1 (idle_run cA ordA) = Some st2 /\ s_ok st2 = true /\ s_log st2 = s_log st1 /\
  forall s, In s (sources cA) -> ~ obj_current e1 cA (d_mt (s_disk st2)) (s_disk st2) s.
Proof. exact trace13_stale. Qed.
Print Assumptions C13_toolchain_change_refuted.

Theorem C13_untracked_option_refuted :
  exists st, exec e0_linkflags (init disk0) trace13b = Some st /\ s_ok st = true /\
  s_cfg st = cL ["-g"] /\ ~ obj_current e0_linkflags (s_cfg st) (d_mt (s_disk st)) (s_disk st) "/p/a.cpp".
Proof. exact trace13b_stale. Qed.
Print Assumptions C13_untracked_option_refuted.

(** C14: nor is a deleted object, PCH or target. *)
Theorem C14_deleted_output_refuted :
  (exists st, exec e0 (init disk0) (trace14 (EvDelObj (obj_of e0 "/p/a.cpp"))) = Some st /\ s_ok st = true /\ s_cfg st = cP /\
     ~ obj_current e0 cP (d_mt (s_disk st)) (s_disk st) "/p/a.cpp") /\
  (exists st, exec e0 (init disk0) (trace14 EvDelPch) = Some st /\ s_ok st = true /\ s_cfg st = cP /\
     ~ pch_current e0 cP (d_mt (s_disk st)) (s_disk st)) /\
  (exists st, exec e0 (init disk0) (trace14 EvDelTgt) = Some st /\ s_ok st = true /\ s_cfg st = cP /\
     ~ tgt_current e0 cP (d_mt (s_disk st)) (s_disk st)).
Proof. exact trace14_stale. Qed.
Print Assumptions C14_deleted_output_refuted.

(** C15: after a failing command only commands of the same stage are executed in
    this run, and it does not report success ... *)
Theorem C15_failure_stops : forall e st ev stage evs st',
  failing ev stage -> exec e st (ev :: evs) = Some st' -> forallb (fun ev => negb (is_start ev)) evs = true ->
  s_ok st' = false /\ exists l, s_log st' = s_log st ++ l /\ Forall stage l.
Proof. exact failure_stops. Qed.
Print Assumptions C15_failure_stops.

(** ... and the link command runs only when every source has an object made by
    its present command. *)
Theorem C15_link_has_all_objects : forall rg e d0 evs h st r st',
  templates_ok e -> history rg e d0 evs h st -> step e st (EvLinkExec r) = Some st' ->
  forall s, In s (sources (s_cfg st)) ->
  exists a, d_obj (s_disk st) (obj_of e s) = Some a /\ d_obj_bad (s_disk st) (obj_of e s) = false /\
    compile_command e (s_cfg st) s = FOk (a_cmd a).
Proof. exact link_has_all_objects. Qed.
Print Assumptions C15_link_has_all_objects.

Example C15_case :
  (exists h st, history Quiet e0 disk0 [EvStart cA ordA; EvObjCheck] h st /\
   match exec e0 st (EvCompile "/p/a.cpp" (XFail None) :: [EvCompile "/p/b.cpp" XOk; EvLinkCheck; EvEnd WOk]) with
   | Some st' => Nat.eqb (length (s_log st')) 2 | None => false end = true) /\
  (exists h st, history Quiet e0 disk0 (firstn 26 busy) h st /\
   match step e0 st (EvLinkExec XOk) with Some _ => true | None => false end = true).
Proof. split; apply follow_case; vm_compute; reflexivity. Qed.

(** C51: a run can always go on until it is over, and it is over after at most
    six steps and one per source. *)
Theorem C51_never_stuck : forall rg e d0 evs h st,
  templates_ok e -> history rg e d0 evs h st -> s_pc st <> Idle ->
  exists ev st', good ev /\ step e st ev = Some st'.
Proof. exact never_stuck. Qed.
Print Assumptions C51_never_stuck.

Theorem C51_run_bounded : forall e st c ord evs st',
  exec e st (EvStart c ord :: evs) = Some st' -> Forall own evs -> length evs <= length (sources c) + 6.
Proof. exact run_bounded. Qed.
Print Assumptions C51_run_bounded.

Example C51_case : exists h st, history Quiet e0 disk0 [EvStart cP ordA; EvPchCheck; EvPchExec (XFail None); EvObjCheck] h st /\
  negb (s_ok st) && match s_pc st with Idle => false | _ => true end &&
  match exec e0 (init disk0) (full_run cP ordA ordA) with Some _ => Nat.eqb (length (full_run cP ordA ordA)) (1 + 2 + 6) | None => false end = true.
Proof. apply follow_case. vm_compute. reflexivity. Qed.

(** C52: when every tracked file exists, every command and write succeeds and
    the recorded strings are valid UTF-8, the run reports success, whatever
    happened in earlier runs. *)
Theorem C52_good_run_succeeds : forall rg e d0 pre c ord run h st,
  templates_ok e -> history rg e d0 (pre ++ EvStart c ord :: run) h st -> Forall good run -> run <> [] ->
  (forall f, In f (tracked c) -> d_mt (s_disk st) f <> None) ->
  commands_nonempty e c -> Forall valid_utf8 (target_strings (user_of c)) ->
  s_ok st = true.
Proof. exact good_run_succeeds. Qed.
Print Assumptions C52_good_run_succeeds.

Example C52_case : (exists t, store_text (user_of cP) = Some t) /\ exists h st, history Quiet e0 disk0 busy_pch h st /\
  forallb (fun f => match d_mt (s_disk st) f with Some _ => true | None => false end) (tracked cP) &&
  negb (match pch_command e0 cP with FOk x => String.eqb x "" | _ => true end) &&
  forallb (fun s => negb (match compile_command e0 cP s with FOk x => String.eqb x "" | _ => true end)) (sources cP) &&
  negb (match link_command e0 cP ordA with FOk x => String.eqb x "" | _ => true end) = true.
Proof. split; [eexists; vm_compute; reflexivity|]. apply follow_case. vm_compute. reflexivity. Qed.

(** C53: without a state file a successful run makes everything current,
    whatever objects, PCH and target of other toolchains, configurations or
    interrupted runs are on disk. *)
Theorem C53_clean_build : forall e d c ord run w st,
  templates_ok e -> NoDup (map (obj_of e) (sources c)) -> Forall own run ->
  exec e (init d) (EvStart c ord :: run ++ [EvEnd w]) = Some st -> s_ok st = true ->
  all_current e c (s_disk st).
Proof. exact clean_build. Qed.
Print Assumptions C53_clean_build.

(** Leftovers of a build with other flags and with a PCH, then a build of [cA]
    after the state file was removed. *)
Example C53_case : exists h st, history Quiet e0 disk0 busy_pch h st /\
  obj_staleb e0 cA (s_disk st) "/p/a.cpp" &&
  match exec e0 (init (s_disk st)) (full_run cA ordA ordA) with Some st2 => s_ok st2 | None => false end = true.
Proof. apply follow_case. vm_compute. reflexivity. Qed.
