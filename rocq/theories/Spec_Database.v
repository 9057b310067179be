(** What the theorems about the compilation database over several runs talk about. *)
From Verif Require Import Prelude Model_Schema Model_Command Model_ToolchainConfig Model_Target Model_Reg Model_Project
  Model_CompileCommands Model_Database.

(** The file lists the targets in the order in which they were added, and for each
    of them exactly the sources it has in this process (in some order), each with
    the command that compiles it now. *)
Definition database_current (build : string) (added : list string) (p : project) (db : option string) : Prop :=
  exists ts, db = Some (cc_text build ts) /\
    Forall2 (fun id t => exists e st c, In (id, (e, st)) (p_targets p) /\ In (id, c) (p_built p) /\
      (forall s, In s (cc_sources t) <-> In s (sources c)) /\
      (forall s, In s (sources c) -> compile_command e c s = FOk (cc_command t s))) added ts.

(** The state file of the target does not speak of a finished build: it is missing,
    unreadable or says that the target has not been linked. *)
Definition unfinished (st : tstate) : Prop :=
  forall l, stored (s_disk st) = Some l -> ts_target_linked l = false.

(** What is considered:
    - every target of the database is built by the run that calls Generate;
    - a target that has used a PCH goes on to use one ([used]);
    - a process that has finished the build of a target of the database goes on to
      call Generate, which succeeds in writing the file; or, when the process ends,
      some target of the database is unfinished;
    - the state files are deleted only between the runs, the database is left alone.
    All else may happen at any moment: edits, other options, failures, kills. *)
Definition wadmissible (added used : list string) (w : wstate) (ev : wevent) (w' : wstate) : Prop :=
  match ev with
  | WRun (PForget _) => p_built (w_p w) = []
  | WRun (PBuild i c _) => In i used -> pchs c <> []
  | WRun (PStop _) =>
      w_stage w = WDone \/ (forall i, In i added -> ~ In i (w_built w)) \/
      exists i e st, In i added /\ In (i, (e, st)) (p_targets (w_p w')) /\ unfinished st
  | WRun _ => True
  | WGenerate r =>
      (forall n, r <> CWShort n) /\
      forall i, In i added -> In i (map fst (p_built (w_p w))) /\
        exists k r x, p_run (w_p w) = Some (k, r, x) /\ In i (rg_built r)
  | WTouch _ => False
  end.
Definition wtrack (used : list string) (ev : wevent) : list string :=
  match ev with WRun (PBuild i c _) => if contains_pch c then i :: used else used | _ => used end.

Inductive whistory (build : string) (added : list string) (l : list (string * (tenv * disk)))
  (gens : list (string * list string)) (db : option string) : list wevent -> list string -> wstate -> Prop :=
| whistory_nil : whistory build added l gens db [] [] (winit l gens db)
| whistory_snoc evs used w ev w' :
    whistory build added l gens db evs used w -> wstep build added w ev = Some w' ->
    wadmissible added used w ev w' -> whistory build added l gens db (evs ++ [ev]) (wtrack used ev) w'.

(** In this process (since the last [PStop]) the end task of the target ran, the
    target had been found dirty, its state file was written and the write was
    reported as a success. *)
Definition stored_here (build : string) (added : list string) (w0 : wstate) (evs : list wevent) (id : string) : Prop :=
  exists evs1 r t evs2 w1 e st text, evs = evs1 ++ WRun (PStep id (EvEnd r) t) :: evs2 /\
    (forall l, ~ In (WRun (PStop l)) evs2) /\ wexec build added w0 evs1 = Some w1 /\
    assoc id (p_targets (w_p w1)) = Some (e, st) /\ s_dirty st = true /\
    store_text (update_store (s_buf st) (s_user st)) = Some text /\ (r = WOk \/ exists n, r = WShort n true).
