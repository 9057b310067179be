(** What the theorems about copies of libraries talk about. *)
From Verif Require Import Prelude Model_Path Model_Schema Model_Command Model_ToolchainConfig Model_Target Spec_Target Model_Reg Spec_Reg
  Model_Project Spec_Project Model_Database Spec_Database Model_PostCopy.

(** The copy is the library that is on disk. *)
Definition copy_current (lib : string) (p : project) (copy : option tgt_art) : Prop :=
  exists e st, In (lib, (e, st)) (p_targets p) /\ copy = d_tgt (s_disk st).

(** What is considered, beside the histories of Spec_Project.v:
    - the executable always uses the library as a library dependency;
    - it is built by the runs after which the program copies;
    - a process that has finished the build of the executable goes on to copy, with
      success; or, when the process ends, the build of the executable is unfinished;
    - the state files are deleted only between the runs, the copy is left alone. *)
Definition cadmissible (rg : regime) (exe lib : string) (h : phist) (s : cstate) (ev : cevent) (s' : cstate) : Prop :=
  match ev with
  | CRun pe =>
      padmissible rg (c_p s) h pe /\
      match pe with
      | PForget _ => p_built (c_p s) = []
      | PBuild i c _ => i = exe -> forall e st, In (lib, (e, st)) (p_targets (c_p s)) -> In (out_file e) (libs c)
      | PStop _ =>
          c_stage s = CDone \/ ~ In exe (c_built s) \/
          exists e st, In (exe, (e, st)) (p_targets (c_p s')) /\ unfinished st
      | _ => True
      end
  | CCopy _ _ =>
      In exe (map fst (p_built (c_p s))) /\ exists k r x, p_run (c_p s) = Some (k, r, x) /\ In exe (rg_built r)
  | CTouch _ => False
  end.

Inductive chistory (rg : regime) (removes : bool) (exe lib : string) (l : list (string * (tenv * disk)))
  (gens : list (string * list string)) (copy : option tgt_art) : list cevent -> list pevent -> phist -> cstate -> Prop :=
| chistory_nil :
    chistory rg removes exe lib l gens copy [] []
      (fun id => match assoc id l with Some (_, d) => hist0 d | None => HS (fun _ => 0%N) None None false end) (cinit l gens copy)
| chistory_run evs pevs h s pe s' :
    chistory rg removes exe lib l gens copy evs pevs h s -> cstep removes exe lib s (CRun pe) = Some s' ->
    cadmissible rg exe lib h s (CRun pe) s' ->
    chistory rg removes exe lib l gens copy (evs ++ [CRun pe]) (pevs ++ [pe]) (ptrack (c_p s) h pe) s'
| chistory_copy evs pevs h s ok kept s' :
    chistory rg removes exe lib l gens copy evs pevs h s -> cstep removes exe lib s (CCopy ok kept) = Some s' ->
    cadmissible rg exe lib h s (CCopy ok kept) s' ->
    chistory rg removes exe lib l gens copy (evs ++ [CCopy ok kept]) pevs h s'.
