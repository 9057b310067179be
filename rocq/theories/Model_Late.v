(** Calls that describe a target after its Build() and before the run.

    Nothing refuses them: no Add* call looks at whether Build() was called
    (lib/target/include/target/api/*.h, lib/toolchain/include/toolchain/api/flag_api.h).
    They change [user_]; the commands, the object files and whether there is a PCH
    stage were fixed by Build() (lib/target/src/target/build.cpp:54-127), the checks
    and the state file look at [user_] (compile_pch.cpp:73-104,
    compile_object.cpp:166-267, link_target.cpp:68-101, tasks.cpp:150-164).
    In Model_Target [s_cfg] is what Build() saw and [s_user] is [user_]. *)
From Verif Require Import Prelude Model_Path Model_Json Model_Schema Model_Command Model_ToolchainConfig Model_Target Model_Api.

(** [l_open]: Build() has been called, no task has run. *)
Record lstate := LS { l_st : tstate; l_open : bool }.
Inductive levent :=
| LEv (ev : event)                          (* any event of Model_Target; EvStart: a process up to Build() *)
| LCalls (ls : listing) (cs : list call).   (* calls after Build(); [ls]: the directories then *)

(** tasks.cpp:101-111 for a source that Build() has not seen: GetObjectData does not
    find it (compile_object.cpp:74-82), the assertion is caught by the subtask. *)
Definition late_compile (st : tstate) (s : string) : option tstate :=
  match s_pc st with
  | PcCompile pend =>
      match take_pending s pend with
      | Some (_, rest) => Some (with_ok (with_pc st (PcCompile rest)) false)
      | None => None
      end
  | _ => None
  end.

(** A refused call is an uncaught exception: the process ends. *)
Definition lstep (e : tenv) (l : lstate) (ev : levent) : option lstate :=
  let st := l_st l in
  match ev with
  | LCalls ls cs =>
      if l_open l then
        match api_run (AE (te_tc e) (te_root e) ls) (s_user st) cs with
        | Ok u => Some (LS (with_user st u) true)
        | Fatal => Some (LS (killed st) false)
        end
      else None
  | LEv (EvCompile s r) =>
      match (if mem_str s (sources (s_cfg st)) then step e st (EvCompile s r) else late_compile st s) with
      | Some st' => Some (LS st' false)
      | None => None
      end
  | LEv x =>
      match step e st x with
      | Some st' =>
          Some (LS st' (match x with
                        | EvStart _ _ => match s_pc st' with Idle => false | _ => true end
                        | EvEdit _ _ | EvFail | EvDropStore | EvDelObj _ | EvDelPch | EvDelTgt => l_open l
                        | _ => false
                        end))
      | None => None
      end
  end.
Fixpoint lexec (e : tenv) (l : lstate) (evs : list levent) : option lstate :=
  match evs with
  | [] => Some l
  | ev :: r => match lstep e l ev with Some l' => lexec e l' r | None => None end
  end.
