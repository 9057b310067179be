(** What may happen while a target is built that called Build() several times. *)
From Verif Require Import Prelude Model_Json Model_Schema Model_Command Model_ToolchainConfig Model_Target Spec_Target Model_Dup.

(** A step of a task; commands succeed; writing the state file may be refused. *)
Definition smooth (x : duevent) : Prop :=
  match x with
  | DuTask _ ev =>
      match ev with
      | EvPchCheck | EvObjCheck | EvLinkCheck => True
      | EvPchExec r => r = XOk
      | EvCompile _ r => r = XOk
      | EvLinkExec r => r = XOk
      | EvEnd w => w = WOk \/ w = WKeep
      | _ => False
      end
  | DuStart _ _ _ => False
  end.
(** Every chain has come to its end. *)
Definition all_ended (s : dup) : Prop := forall i, du_pc s i = Idle.
(** How often a command was executed. *)
Definition executed (x : string) (l : list xcmd) : nat :=
  length (filter (fun y => match y with XPch k => String.eqb k x | XObj _ k => String.eqb k x | XLink k => String.eqb k x end) l).
(** A step of a task, with any result. *)
Definition own_task (x : duevent) : Prop := match x with DuTask _ ev => own ev | DuStart _ _ _ => False end.
(** How often the PCH was compiled, the target linked, a source compiled; how often
    a path is in a list. *)
Definition pch_runs (l : list xcmd) : nat := length (filter (fun y => match y with XPch _ => true | _ => false end) l).
Definition link_runs (l : list xcmd) : nat := length (filter (fun y => match y with XLink _ => true | _ => false end) l).
Definition source_runs (p : string) (l : list xcmd) : nat :=
  length (filter (fun y => match y with XObj q _ => String.eqb q p | _ => false end) l).
Definition times_in (p : string) (l : list string) : nat := length (filter (fun q => String.eqb q p) l).

(** A file gets a new time; it still exists. *)
Definition new_time (x : event) : Prop := match x with EvEdit _ (Some _) => True | _ => False end.

(** One process after the other, files being edited in between; in each of them
    Build() is called any number of times, all commands succeed, and the process
    reports success. *)
Inductive processes (e : tenv) (c : cfg) : tstate -> tstate -> Prop :=
| ps_first st n ord l s :
    n <> 0 -> ~ In (FOk "") (all_commands e c ord) -> Forall smooth l ->
    du_exec e (du_begin st) (DuStart n c ord :: l) = Some s -> all_ended s -> s_ok (du_st s) = true ->
    processes e c st (with_pc (du_st s) Idle)
| ps_next st st1 edits st2 n ord l s :
    processes e c st st1 -> exec e st1 edits = Some st2 -> Forall new_time edits ->
    n <> 0 -> ~ In (FOk "") (all_commands e c ord) -> Forall smooth l ->
    du_exec e (du_begin st2) (DuStart n c ord :: l) = Some s -> all_ended s -> s_ok (du_st s) = true ->
    processes e c st (with_pc (du_st s) Idle).
