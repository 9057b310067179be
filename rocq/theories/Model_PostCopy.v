(** A program that, after Reg::Run, puts a copy of a shared library beside the
    executable that uses it:
    /repo/example/hybrid/generic/build.cpp:102-131 (post_build_cb) and
    /repo/example/mingw/DynamicLib/build.cpp:50-57, which remove the copy first;
    /repo/example/gcc/DynamicLib/build.cpp:51-56 and
    /repo/example/msvc/DynamicLib/build.cpp:48-52, which do not;
    lib/target/src/api/target_getter.cpp:29-32 (IsBuilt), lib/target/src/target/tasks.cpp:150-164.

    Simplifications: the copy is one file (for MSVC the ".dll"), which nobody but
    this code and the user writes and no target tracks; the programs without Reg
    are treated like those with it (they do not look at the task state). *)
From Verif Require Import Prelude Model_Path Model_Schema Model_Command Model_ToolchainConfig Model_Target Model_Reg Model_Project
  Model_Database.

(** Before the copying; after it; it has thrown (which ends the process). *)
Inductive cstage := CBefore | CDone | CDead.

Record cstate := CS {
  c_p : project;
  c_built : list string;           (* targets with IsBuilt() in this process *)
  c_copy : option tgt_art;         (* the copy of the library *)
  c_stage : cstage }.

Inductive cevent :=
| CRun (ev : pevent)               (* anything but the copying *)
| CCopy (ok : bool) (kept : option tgt_art)
    (* the code after the run; [ok = false]: removing or copying fails for a reason
       of its own, or the process is killed meanwhile, [kept] is left *)
| CTouch (t : option tgt_art).     (* the user changes or deletes the copy *)

(** [removes]: does the program remove the copy before it copies?  fs::copy throws
    if its source is missing or its destination exists. *)
Definition cstep (removes : bool) (exe lib : string) (s : cstate) (ev : cevent) : option cstate :=
  match ev with
  | CRun pe =>
      if match c_stage s with CBefore => true | _ => after_generate pe end then
        match pstep (c_p s) pe with
        | Some p' =>
            Some (CS p' (built_after (c_p s) (c_built s) pe) (c_copy s)
                     (match pe with PStop _ => CBefore | _ => c_stage s end))
        | None => None
        end
      else None
  | CCopy ok kept =>
      match c_stage s with
      | CBefore =>
          if run_returned (c_p s) then
            if mem_str exe (c_built s) then
              let there := if removes then None else c_copy s in
              match outputs (c_p s) lib, there with
              | Some k, None =>
                  if ok then Some (CS (c_p s) (c_built s) (Some k) CDone)
                  else Some (CS (c_p s) (c_built s) kept CDead)
              | _, _ => Some (CS (c_p s) (c_built s) there CDead)
              end
            else Some (CS (c_p s) (c_built s) (c_copy s) CDone)
          else None
      | _ => None
      end
  | CTouch t => Some (CS (c_p s) (c_built s) t (c_stage s))
  end.

Fixpoint cexec (removes : bool) (exe lib : string) (s : cstate) (evs : list cevent) : option cstate :=
  match evs with
  | [] => Some s
  | ev :: r => match cstep removes exe lib s ev with Some s' => cexec removes exe lib s' r | None => None end
  end.

(** At first: no state files (pinit), any file in place of the copy. *)
Definition cinit (l : list (string * (tenv * disk))) (gens : list (string * list string)) (copy : option tgt_art) : cstate :=
  CS (pinit l gens) [] copy CBefore.
