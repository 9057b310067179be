(** Reg::Run called several times in one process that has a generator.

    Build() has loaded the state file once (lib/target/src/custom_generator/
    custom_generator.cpp:235-238); a repeated run executes the generate task
    (custom_generator.cpp:261-317) again on the same object: the loaded state is that
    of the process's beginning, [dirty_] is computed anew, the file is written by
    every run that was dirty. *)
From Verif Require Import Prelude Model_Json Model_Schema Model_Command Model_Target Model_Gen Model_Again.

(** [b_phase] as in Model_Again. *)
Record bstate := BS { b_st : gstate; b_phase : phase }.
Inductive bevent :=
| BOnce (ev : gevent)    (* any event of Model_Gen; GStart: a new process *)
| BAgain                 (* the process calls Reg::Run again *)
| BStop.                 (* the process ends between two runs *)

(** lib/args/src/register.cpp:101-108, lib/args/src/tasks.cpp:33-41 *)
Definition bstep (u8 : string -> N) (b : bstate) (ev : bevent) : option bstate :=
  match ev with
  | BOnce x =>
      match gstep u8 (b_st b) x with
      | Some st =>
          match x with
          | GStart _ => match b_phase b with Out => Some (BS st First) | _ => None end
          | GCrash | GCrashFinish _ => Some (BS st Out)
          | GFinish _ =>
              Some (BS st (if g_ok st then Rest (match b_phase b with Rep => true | _ => false end) else Out))
          | GSetup => Some (BS st (match g_pc st with GIdle => Out | _ => b_phase b end))
          | _ => Some (BS st (b_phase b))
          end
      | None => None
      end
  | BAgain =>
      match b_phase b with
      | Rest _ =>
          let st := b_st b in
          if g_ok st then Some (BS (GST (g_disk st) GBuilt (g_cfg st) (g_load st) false [] true (g_log st)) Rep) else None
      | _ => None
      end
  | BStop => match b_phase b with Rest _ => Some (BS (b_st b) Out) | _ => None end
  end.
Fixpoint bexec (u8 : string -> N) (b : bstate) (evs : list bevent) : option bstate :=
  match evs with
  | [] => Some b
  | ev :: r => match bstep u8 b ev with Some b' => bexec u8 b' r | None => None end
  end.
Definition binit (m : times) : bstate := BS (ginit m) Out.
