(** The compilation database of a program over any number of its runs: Generate is
    called with the program's targets after Reg::Run has returned (as in
    /repo/example/hybrid/single/build.cpp:35-40 and the other examples).
    plugins/src/clang_compile_commands.cpp:44-91, lib/target/src/target/tasks.cpp:150-164,
    lib/target/src/api/target_getter.cpp:79-83, lib/args/src/register.cpp:101-108.

    Simplifications: the file is in a directory of its own, nobody but Generate and
    the user writes it; a target whose Build() was not called in the process has no
    sources. *)
From Verif Require Import Prelude Model_Path Model_Json Model_Schema Model_Command Model_ToolchainConfig Model_Target Model_Reg Model_Project
  Model_CompileCommands.

(** Before Generate; Generate has returned; Generate has ended the process. *)
Inductive wstage := WBefore | WDone | WDead.

Record wstate := WS {
  w_p : project;
  w_db : option string;        (* compile_commands.json *)
  w_built : list string;       (* targets with IsBuilt() in this process *)
  w_stage : wstage }.

(** How writing the file goes: fine; reported failure with anything left behind;
    reported success with only the first [n] bytes written (lib/env/include/env/util.h:50-67). *)
Inductive cwrite := CWOk | CWFail (kept : option string) | CWShort (n : nat).
Inductive wevent :=
| WRun (ev : pevent)           (* anything but Generate *)
| WGenerate (r : cwrite)
| WTouch (t : option string).  (* the user changes or deletes the file *)

(** tasks.cpp:152-157: the end task of a dirty target whose store is reported to
    have been written calls BuildCompleted. *)
Definition completes (st : tstate) (w : wres) : bool :=
  s_dirty st &&
  match store_text (update_store (s_buf st) (s_user st)), w with
  | Some _, WOk | Some _, WShort _ true => true
  | _, _ => false
  end.
Definition built_after (p : project) (built : list string) (ev : pevent) : list string :=
  match ev with
  | PStep i (EvEnd r) _ =>
      match assoc i (p_targets p) with
      | Some (_, st) => if completes st r then i :: built else built
      | None => built
      end
  | PStop _ => []
  | _ => built
  end.

(** clang_compile_commands.cpp:61-70: what Generate asks of target [id];
    compile_object.cpp:42-64, 74-82: the command cached by Build(). *)
Definition cc_of (p : project) (built : list string) (id : string) : cc_target :=
  match assoc id (p_targets p), assoc id (p_built p) with
  | Some (e, _), Some c =>
      CCT (mem_str id built) (sources c)
          (fun s => match compile_command e c s with FOk t => t | _ => "" end)
  | _, _ => CCT false [] (fun _ => "")
  end.

(** register.cpp:101-108: Run has returned: every registered builder's task is over
    and the task state is SUCCESS (the tests are not part of this model; a failing
    one ends the process, [PStop]). *)
Definition run_returned (p : project) : bool :=
  match p_run p with
  | Some (_, r, x) =>
      p_ok p && is_nil (x_running x) &&
      forallb (fun i => existsb (fun ev => match ev with XFinish j _ => String.eqb i j | _ => false end) (x_log x)) (rg_built r)
  | None => false
  end.

(** What can still happen when Generate has been called. *)
Definition after_generate (ev : pevent) : bool :=
  match ev with PEdit _ _ | PForget _ | PStop _ => true | _ => false end.

(** [added]: the targets given to AddTarget. *)
Definition wstep (build : string) (added : list string) (w : wstate) (ev : wevent) : option wstate :=
  match ev with
  | WRun pe =>
      if match w_stage w with WBefore => true | _ => after_generate pe end then
        match pstep (w_p w) pe with
        | Some p' =>
            Some (WS p' (w_db w) (built_after (w_p w) (w_built w) pe)
                     (match pe with PStop _ => WBefore | _ => w_stage w end))
        | None => None
        end
      else None
  | WGenerate r =>
      match w_stage w with
      | WBefore =>
          if run_returned (w_p w) then
            match cc_generate build (map (cc_of (w_p w) (w_built w)) added)
                    (match r with CWFail _ => false | _ => true end), r with
            | CCKeep, CWOk => Some (WS (w_p w) (w_db w) (w_built w) WDone)
            | CCWrite t, CWOk => Some (WS (w_p w) (Some t) (w_built w) WDone)
            | CCWrite t, CWShort n =>
                match short n t with Some t' => Some (WS (w_p w) (Some t') (w_built w) WDone) | None => None end
            | CCFatal, CWFail kept => Some (WS (w_p w) kept (w_built w) WDead)
            | _, _ => None
            end
          else None
      | _ => None
      end
  | WTouch t => Some (WS (w_p w) t (w_built w) (w_stage w))
  end.

Fixpoint wexec (build : string) (added : list string) (w : wstate) (evs : list wevent) : option wstate :=
  match evs with
  | [] => Some w
  | ev :: r => match wstep build added w ev with Some w' => wexec build added w' r | None => None end
  end.

(** At first: no state files (pinit), any file of that name. *)
Definition winit (l : list (string * (tenv * disk))) (gens : list (string * list string)) (db : option string) : wstate :=
  WS (pinit l gens) db [] WBefore.
