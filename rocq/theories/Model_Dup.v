(** Target::Build() called more than once on one target before the run.

    Nothing in lib/target/src/target/build.cpp:54-127 looks at whether it was called
    before: the commands are put together again from the same values
    (lib/env/src/command.cpp:34-37 keeps the default arguments of the first call),
    the state file is read again, and
    lib/target/src/target/tasks.cpp:47-172 adds the tasks of the target to [tf_] again.
    The taskflow then has one chain of tasks for each call; the chains share the
    Target object, and taskflow orders the tasks within a chain only. *)
From Verif Require Import Prelude Model_Json Model_Schema Model_Command Model_ToolchainConfig Model_Target.

(** [du_st]: the target, with one [user_], [dirty_], [store_] for all chains
    (lib/target/include/target/interface/builder_interface.h:34-45,
    schema/include/schema/target_serialization.h:40-51); [du_pc]: where each
    chain is; [du_n]: how many there are. *)
Record dup := DU { du_st : tstate; du_n : nat; du_pc : nat -> pcount }.

Definition is_idle (p : pcount) : bool := match p with Idle => true | _ => false end.
Definition all_idle (s : dup) : bool := forallb (fun i => is_idle (du_pc s i)) (seq 0 (du_n s)).

Inductive duevent :=
| DuStart (n : nat) (c : cfg) (ord : list string)   (* a new process that calls Build() [n] times *)
| DuTask (i : nat) (ev : event).                    (* chain [i], or anything else that happens *)

(** build.cpp:54-127, tasks.cpp:47-172.  Simplified: the accesses of two chains to
    the shared members are not interleaved within one step of Model_Target (in the
    code that is a data race); [dirty_] lasts as long as the process. *)
Definition du_step (e : tenv) (s : dup) (x : duevent) : option dup :=
  match x with
  | DuStart n c ord =>
      if all_idle s then
        match start e (with_pc (du_st s) Idle) c ord with
        | Some st => Some (DU st n (fun i => if Nat.ltb i n then s_pc st else Idle))
        | None => None
        end
      else None
  | DuTask i ev =>
      match step e (with_pc (du_st s) (du_pc s i)) ev with
      | Some st =>
          match ev with
          | EvStart _ _ => None
          | EvCrash | EvCrashEnd _ => Some (DU st 0 (fun _ => Idle))
          | EvEnd _ => Some (DU (with_dirty st (s_dirty (du_st s))) (du_n s) (fun j => if Nat.eqb j i then Idle else du_pc s j))
          | _ => Some (DU st (du_n s) (fun j => if Nat.eqb j i then s_pc st else du_pc s j))
          end
      | None => None
      end
  end.
Fixpoint du_exec (e : tenv) (s : dup) (l : list duevent) : option dup :=
  match l with
  | [] => Some s
  | x :: r => match du_step e s x with Some s' => du_exec e s' r | None => None end
  end.

(** No process is running. *)
Definition du_begin (st : tstate) : dup := DU st 0 (fun _ => Idle).
