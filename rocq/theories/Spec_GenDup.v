(** What may happen while a generator runs that called Build() several times. *)
From Verif Require Import Prelude Model_Json Model_Schema Model_Command Model_Target Spec_Target Model_Gen Spec_Gen Model_GenDup.

(** A step of a generate task of [o], with any result of the callbacks, which leave
    all inputs alone; writing the state file may be refused; another task may fail. *)
Definition gen_step (o : gobj) (ev : gevent) : Prop :=
  match ev with
  | GSetup => True
  | GFinish w => w = WOk \/ w = WKeep
  | _ => subtask o ev
  end.
Definition gen_task (o : gobj) (x : guevent) : Prop :=
  match x with GuTask _ ev => gen_step o ev | GuStart _ _ => False end.
(** A step of a generate task, with any result; one in which nothing fails. *)
Definition gen_move (x : guevent) : Prop :=
  match x with GuTask _ (GSetup | GEnter _ | GCall _ _ _ | GFinish _) => True | _ => False end.
Definition gen_good (ev : gevent) : Prop :=
  match ev with GSetup | GEnter _ | GCall _ true [] | GFinish WOk => True | _ => False end.
(** Every generate task has come to its end. *)
Definition gall_ended (s : gdup) : Prop := forall i, gu_pc s i = GIdle.
(** How often the callback of an id was invoked. *)
Definition invoked (id : string) (l : list gcall) : nat := length (filter (fun c => String.eqb (gc_id c) id) l).
(** The generator is left alone between two processes. *)
Definition gafter (s : gdup) : gstate := gwith_dirty (gwith_chain (gu_st s) GIdle []) false.
(** Anything within one process. *)
Definition within (x : guevent) : Prop := match x with GuTask _ _ => True | GuStart _ _ => False end.

(** One process after the other; in each of them Build() is called any number of
    times, and it is killed at some point at which nothing has failed, or comes to
    its end. *)
Inductive gprocesses (u8 : string -> N) (o : gobj) : gdup -> gdup -> Prop :=
| gp_none s : gprocesses u8 o s s
| gp_killed s s0 n l s1 i s2 :
    gprocesses u8 o s s0 -> Forall (gen_task o) l -> gu_exec u8 s0 (GuStart n o :: l) = Some s1 -> g_ok (gu_st s1) = true ->
    gu_step u8 s1 (GuTask i GCrash) = Some s2 -> gprocesses u8 o s s2
| gp_ended s s0 n l s1 :
    gprocesses u8 o s s0 -> Forall (gen_task o) l -> gu_exec u8 s0 (GuStart n o :: l) = Some s1 -> g_ok (gu_st s1) = true ->
    gall_ended s1 -> gprocesses u8 o s s1.
