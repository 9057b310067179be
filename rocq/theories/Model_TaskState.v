(** The global task state. lib/env/src/task_state.cpp.
    Threads interleave at the level of the single reads, writes and lock
    operations of set_task_state. (In the source the read in get_task_state is
    not protected by the mutex: a data race for the C++ standard; here reads and
    writes of the enum are atomic.) *)
From Verif Require Import Prelude.

Inductive task_state := SUCCESS | FAILURE.
Definition ts_eqb (a b : task_state) : bool :=
  match a, b with SUCCESS, SUCCESS | FAILURE, FAILURE => true | _, _ => false end.

(** Where a thread is inside set_task_state(s) (task_state.cpp:30-37): before
    the comparison, waiting for the lock, holding it, about to release it. *)
Inductive tpc := TIdle | TLock (s : task_state) | TWrite (s : task_state) | TUnlock.
(** [th_todo]: the arguments of the calls still to be made; [th_returned]: how
    many calls have returned. *)
Record thread := TH { th_pc : tpc; th_todo : list task_state; th_returned : nat }.

Record gstate := GS {
  g_cur : task_state;            (* current_state, initially SUCCESS (task_state.cpp:24) *)
  g_lock : option nat;           (* current_state_mutex *)
  g_threads : list thread }.
Definition g_init (calls : list (list task_state)) : gstate :=
  GS SUCCESS None (map (fun l => TH TIdle l 0) calls).

Definition set_nth {A} (i : nat) (x : A) (l : list A) : list A := firstn i l ++ x :: skipn (S i) l.

(** One step of thread [i]. *)
Definition tstep (g : gstate) (i : nat) : option gstate :=
  match nth_error (g_threads g) i with
  | None => None
  | Some t =>
      let put cur lock t' := Some (GS cur lock (set_nth i t' (g_threads g))) in
      match th_pc t with
      | TIdle =>
          match th_todo t with
          | [] => None
          | s :: r =>
              if ts_eqb s (g_cur g)
              then put (g_cur g) (g_lock g) (TH TIdle r (S (th_returned t)))
              else put (g_cur g) (g_lock g) (TH (TLock s) r (th_returned t))
          end
      | TLock s =>
          match g_lock g with
          | None => put (g_cur g) (Some i) (TH (TWrite s) (th_todo t) (th_returned t))
          | Some _ => None
          end
      | TWrite s => put s (g_lock g) (TH TUnlock (th_todo t) (th_returned t))
      | TUnlock => put (g_cur g) None (TH TIdle (th_todo t) (S (th_returned t)))
      end
  end.

Fixpoint trun (g : gstate) (sched : list nat) : option gstate :=
  match sched with
  | [] => Some g
  | i :: r => match tstep g i with Some g' => trun g' r | None => None end
  end.
