(** CustomGenerator::Build() called more than once on one generator before the run.

    lib/target/src/custom_generator/custom_generator.cpp:235-238 does not look at
    whether it was called before: the state file is read again, and 261-317 adds the
    generate task to [tf_] again.  The taskflow then has one generate task for each
    call, and nothing orders them.  The derived generators refuse a second call
    (Model_GenLate). *)
From Verif Require Import Prelude Model_Json Model_Schema Model_Command Model_Target Model_Gen.

(** [gu_st]: the generator, with one [user_], [dirty_] and one loaded state for all
    generate tasks (custom_generator.h:130-133, interface/builder_interface.h:41); [gu_pc], [gu_tasks]: where each
    generate task is and its [states] (custom_generator.cpp:269, a local variable);
    [gu_n]: how many there are.  The [g_pc] and [g_tasks] of [gu_st] mean nothing. *)
Record gdup := GDU { gu_st : gstate; gu_n : nat; gu_pc : nat -> gpc; gu_tasks : nat -> list (string * gtask) }.

Definition gis_idle (p : gpc) : bool := match p with GIdle => true | _ => false end.
Definition gall_idle (s : gdup) : bool := forallb (fun i => gis_idle (gu_pc s i)) (seq 0 (gu_n s)).

(** The generator as generate task [i] sees it. *)
Definition gwith_chain (st : gstate) (p : gpc) (ts : list (string * gtask)) : gstate :=
  GST (g_disk st) p (g_cfg st) (g_load st) (g_dirty st) ts (g_ok st) (g_log st).
Definition gview (s : gdup) (i : nat) : gstate := gwith_chain (gu_st s) (gu_pc s i) (gu_tasks s i).
Definition gwith_dirty (st : gstate) (b : bool) : gstate :=
  GST (g_disk st) (g_pc st) (g_cfg st) (g_load st) b (g_tasks st) (g_ok st) (g_log st).

Inductive guevent :=
| GuStart (n : nat) (o : gobj)        (* a new process that calls Build() [n] times *)
| GuTask (i : nat) (ev : gevent).     (* generate task [i], or anything else that happens *)

(** [dirty_] after a step of one generate task: custom_generator.cpp:262-268 assigns
    it unless the process has failed, 295-296 adds to it. *)
Definition gdirty_after (st st' : gstate) (ev : gevent) : bool :=
  match ev with
  | GSetup => if g_ok st then g_dirty st' else g_dirty st
  | GFinish _ => gdirty st
  | _ => g_dirty st'
  end.

(** custom_generator.cpp:235-238, 261-317.  Simplified: the accesses of two generate
    tasks to the shared members are not interleaved within one step of Model_Gen (in
    the code that is a data race). *)
Definition gu_step (u8 : string -> N) (s : gdup) (x : guevent) : option gdup :=
  match x with
  | GuStart n o =>
      if gall_idle s then
        match gstart u8 (gwith_chain (gu_st s) GIdle []) o with
        | Some st => Some (GDU st n (fun i => if Nat.ltb i n then GBuilt else GIdle) (fun _ => []))
        | None => None
        end
      else None
  | GuTask i ev =>
      match gstep u8 (gview s i) ev with
      | Some st =>
          match ev with
          | GStart _ => None
          | GCrash | GCrashFinish _ => Some (GDU st 0 (fun _ => GIdle) (fun _ => []))
          | _ => Some (GDU (gwith_dirty st (gdirty_after (gview s i) st ev)) (gu_n s)
                           (fun j => if Nat.eqb j i then g_pc st else gu_pc s j)
                           (fun j => if Nat.eqb j i then g_tasks st else gu_tasks s j))
          end
      | None => None
      end
  end.
Fixpoint gu_exec (u8 : string -> N) (s : gdup) (l : list guevent) : option gdup :=
  match l with
  | [] => Some s
  | x :: r => match gu_step u8 s x with Some s' => gu_exec u8 s' r | None => None end
  end.

(** No process is running. *)
Definition gu_begin (st : gstate) : gdup := GDU st 0 (fun _ => GIdle) (fun _ => []).
