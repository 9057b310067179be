(** Reg::Run called several times in one process (a program that watches the files
    and builds again, or one that calls Run before and after a step of its own).

    Reg::Run (lib/args/src/register.cpp:101-108) runs the taskflow that was composed
    when the targets were registered; nothing in it, in the tasks
    (lib/target/src/target/tasks.cpp:47-172) or in the serialization
    (schema/src/target_serialization.cpp:22-45) resets the Target object.  A repeated
    run starts with [dirty_], [user_], the loaded state file and [store_] as the
    previous run left them. *)
From Verif Require Import Prelude Model_Json Model_Schema Model_Command Model_ToolchainConfig Model_Target.

(** Where the process is: none, or none that calls Run again; in its first run;
    waiting after a run that returned ([again]: it was a repeated one); in a
    repeated run. *)
Inductive phase := Out | First | Rest (again : bool) | Rep.

(** [a_dirty]: [dirty_] of the waiting process (Model_Target forgets it at the end
    of a run because it has one run per process).
    lib/target/include/target/interface/builder_interface.h:39-45 *)
Record astate := AS { a_st : tstate; a_dirty : bool; a_phase : phase }.

Inductive aevent :=
| AOnce (ev : event)     (* any event of Model_Target; EvStart: a new process *)
| AAgain                 (* the process calls Reg::Run again *)
| AStop.                 (* the process ends between two runs *)

(** lib/args/src/register.cpp:101-108, lib/args/src/tasks.cpp:33-41: RunBuild runs
    the taskflow; it returns only if the task state is SUCCESS, otherwise
    assert_fatal ends the process. *)
Definition astep (e : tenv) (a : astate) (ev : aevent) : option astate :=
  match ev with
  | AOnce x =>
      match step e (a_st a) x with
      | Some st =>
          match x with
          | EvStart _ _ =>
              match a_phase a with
              | Out => Some (AS st false (match s_pc st with Idle => Out | _ => First end))
              | _ => None
              end
          | EvCrash | EvCrashEnd _ => Some (AS st false Out)
          | EvEnd _ =>
              Some (AS st (s_dirty (a_st a))
                      (if s_ok st then Rest (match a_phase a with Rep => true | _ => false end) else Out))
          | _ => Some (AS st (a_dirty a) (a_phase a))
          end
      | None => None
      end
  | AAgain =>
      match a_phase a with
      | Rest _ =>
          if s_ok (a_st a) then
            Some (AS (with_pc (with_dirty (a_st a) (a_dirty a))
                        (if contains_pch (s_cfg (a_st a)) then PcPch else PcObj)) (a_dirty a) Rep)
          else None
      | _ => None
      end
  | AStop => match a_phase a with Rest _ => Some (AS (a_st a) false Out) | _ => None end
  end.

Fixpoint aexec (e : tenv) (a : astate) (evs : list aevent) : option astate :=
  match evs with
  | [] => Some a
  | ev :: r => match astep e a ev with Some a' => aexec e a' r | None => None end
  end.

Definition ainit (d : disk) : astate := AS (init d) false Out.
