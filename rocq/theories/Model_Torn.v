(** The target again, without the simplification that a command reads all its
    input files at one instant and that a check reads all last-write times at one
    instant: checks, compilers and linkers go through the files one after the
    other, and each file may be edited before, after or in between. Everything
    else is [Model_Target.step]. *)
From Verif Require Import Prelude Model_Path Model_Json Model_Schema Model_Command Model_ToolchainConfig Model_Target.

(** [saw f] is the version of [f] that the check or the command has found. *)

(** tasks.cpp:47-68 and compile_pch.cpp:73-108 *)
Definition pch_check_saw (st : tstate) (saw : times) : tstate :=
  if negb (s_ok st) then with_pc st PcObj
  else
    let (u, b) := pch_pre saw (s_user st) in
    let st1 := with_user st u in
    if negb b then fail st1 PcObj
    else
      let dirty := s_dirty st1 || match s_load st1 with None => true | Some l => negb (pch_same l u) end in
      if dirty then with_pc (with_dirty st1 true) PcPchExec
      else with_pc (with_buf st1 (update_pch_compiled (s_buf st1) u)) PcObj.

(** tasks.cpp:80-100, 112-121 and compile_object.cpp:166-212 *)
Definition obj_check_saw (st : tstate) (saw : times) : tstate :=
  if negb (s_ok st) then with_pc st (PcCompile [])
  else
    let (u, b) := obj_pre saw (s_user st) in
    let st1 := with_user st u in
    if negb b then fail st1 (PcCompile [])
    else
      let dirty := match s_load st1 with
                   | None => true
                   | Some l => s_dirty st1 || negb (obj_same l u)
                   end in
      let '(sel, dum, dirty') :=
        if dirty then (ts_sources u, [], true)
        else match s_load st1 with
             | None => ([], [], true)      (* not reachable: dirty *)
             | Some l => recompile_sources (ts_sources l) (ts_sources u)
             end in
      with_pc (with_buf (with_dirty st1 dirty') (fold_left add_source dum (s_buf st1))) (PcCompile sel).

(** tasks.cpp:132-144 and link_target.cpp:68-101 *)
Definition link_check_saw (st : tstate) (saw : times) : tstate :=
  if negb (s_ok st) then with_pc st PcEnd
  else
    let (u, b) := link_pre saw (s_user st) in
    let st1 := with_user st u in
    if negb b then fail st1 PcEnd
    else
      let dirty := match s_load st1 with
                   | None => true
                   | Some l => s_dirty st1 || negb (link_same l u)
                   end in
      with_pc (with_dirty st1 dirty) (if dirty then PcLinkExec else PcEnd).

(** compile_pch.cpp:106-121, tasks.cpp:54-58 *)
Definition pch_exec_saw (e : tenv) (st : tstate) (r : xres pch_art) (saw : times) : option tstate :=
  match pch_command e (s_cfg st) with
  | FOk cmd =>
      let d := s_disk st in
      Some (match run_res cmd r with
            | XOk =>
                let art := PA cmd (pch_header_text (il_paths (ts_pchs (s_user st)))) saw in
                let st1 := log_cmd (with_disk st (set_pch d (Some art) false)) (XPch cmd) in
                with_pc (with_buf st1 (update_pch_compiled (s_buf st1) (s_user st1))) PcObj
            | XFail lo =>
                fail (log_cmd (with_disk st (set_pch d lo true)) (XPch cmd)) PcObj
            | XNotRun => fail (with_disk st (set_pch d (d_pch d) true)) PcObj
            end)
  | _ => None
  end.

(** tasks.cpp:101-111: one compile subtask. *)
Definition compile_one_saw (e : tenv) (st : tstate) (s : string) (pend : infolist) (r : xres obj_art) (saw : times)
  : option tstate :=
  match take_pending s pend, compile_command e (s_cfg st) s with
  | Some (i, rest), FOk cmd =>
      let d := s_disk st in
      let st0 := with_pc st (PcCompile rest) in
      Some (match run_res cmd r with
            | XOk =>
                let art := OA cmd saw (d_pch d) in
                let st1 := log_cmd (with_disk st0 (set_obj d (obj_of e s) (Some art) false)) (XObj s cmd) in
                with_buf st1 (add_source (s_buf st1) i)
            | XFail lo =>
                with_ok (log_cmd (with_disk st0 (set_obj d (obj_of e s) lo true)) (XObj s cmd)) false
            | XNotRun => with_ok (with_disk st0 (set_obj d (obj_of e s) (d_obj d (obj_of e s)) true)) false
            end)
  | _, _ => None
  end.

(** link_target.cpp:103-107 *)
Definition link_exec_saw (e : tenv) (st : tstate) (r : xres tgt_art) (saw : times) : option tstate :=
  match link_command e (s_cfg st) (s_ord st) with
  | FOk cmd =>
      let d := s_disk st in
      Some (match run_res cmd r with
            | XOk =>
                let art := TA cmd saw (d_obj d) in
                let st1 := log_cmd (with_disk st (set_tgt d (Some art) false)) (XLink cmd) in
                with_pc (with_buf st1 (update_target_compiled (s_buf st1))) PcEnd
            | XFail lo =>
                fail (log_cmd (with_disk st (set_tgt d lo true)) (XLink cmd)) PcEnd
            | XNotRun => fail (with_disk st (set_tgt d (d_tgt d) true)) PcEnd
            end)
  | _ => None
  end.

(** The state, with all versions that each file has had since the end of the last
    check of the run, or since the run began: a command starts after the check that
    asked for it, and a check after the one of the stage before
    (tasks.cpp:47-172), so the versions found are among these. *)
Record wstate := WS { w_st : tstate; w_seen : string -> list (option N) }.

Definition seen_after (st' : tstate) (seen : string -> list (option N)) (ev : event) : string -> list (option N) :=
  match ev with
  | EvEdit f t => upd seen f (t :: seen f)
  | EvStart _ _ | EvPchCheck | EvObjCheck | EvLinkCheck => fun f => [d_mt (s_disk st') f]
  | _ => seen
  end.

(** An event, with what was seen if it is the end of a check or of a command. *)
Definition wstep (e : tenv) (w : wstate) (ev : event) (saw : times) : option wstate :=
  let st := w_st w in
  match
    match ev with
    | EvPchCheck => match s_pc st with PcPch => Some (pch_check_saw st saw) | _ => None end
    | EvObjCheck => match s_pc st with PcObj => Some (obj_check_saw st saw) | _ => None end
    | EvLinkCheck => match s_pc st with PcCompile [] => Some (link_check_saw st saw) | _ => None end
    | EvPchExec r => match s_pc st with PcPchExec => pch_exec_saw e st r saw | _ => None end
    | EvCompile s r => match s_pc st with PcCompile p => compile_one_saw e st s p r saw | _ => None end
    | EvLinkExec r => match s_pc st with PcLinkExec => link_exec_saw e st r saw | _ => None end
    | _ => step e st ev
    end
  with
  | Some st' => Some (WS st' (seen_after st' (w_seen w) ev))
  | None => None
  end.
