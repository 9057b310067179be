(** Several processes building the same target in one build directory.

    Nothing in the code locks the build directory or the state file
    (lib/target/src/target/tasks.cpp:47-172, schema/include/schema/interface/serialization_interface.h:37-58
    and lib/env/include/env/util.h:50-100 open, read and write plain files), so processes
    started at the same time share the disk and nothing else. *)
From Verif Require Import Prelude Model_Json Model_Schema Model_Command Model_ToolchainConfig Model_Target.

(** The disk, and each process with its own memory: its own Target object with
    user_ and dirty_ (lib/target/include/target/interface/builder_interface.h:34-45),
    store_ (schema/include/schema/target_serialization.h:40-51) and its own
    env::get_task_state() (lib/env/src/task_state.cpp:21-39). *)
Record shared := SH { sh_disk : disk; sh_proc : nat -> tstate }.

(** Process [i] makes one step of Model_Target on the disk as it is now; the other
    processes see what it has written.  Simplified: a command, and reading or
    writing the state file, is one step; two processes do not interleave within it. *)
Definition sh_step (e : tenv) (s : shared) (i : nat) (ev : event) : option shared :=
  match step e (with_disk (sh_proc s i) (sh_disk s)) ev with
  | Some st => Some (SH (s_disk st) (fun j => if Nat.eqb j i then st else sh_proc s j))
  | None => None
  end.
Fixpoint sh_exec (e : tenv) (s : shared) (l : list (nat * event)) : option shared :=
  match l with
  | [] => Some s
  | (i, ev) :: r => match sh_step e s i ev with Some s' => sh_exec e s' r | None => None end
  end.

(** No process is running; the disk is what it is. *)
Definition sh_start (d : disk) : shared := SH d (fun _ => init d).
