(** A program with several builders: targets that use each other's outputs and
    generators that write files, registered with Reg and executed by Reg::Run, over
    any number of runs of the program.
    lib/args/src/register.cpp:101-108 (Run), lib/args/src/tasks.cpp:23-41 (BuildTask,
    RunBuild), lib/args/include/args/register.h:89-100 (Build),
    lib/env/src/task_state.cpp:22-39.

    Simplifications:
    - a target is the transition system of Model_Target.v; all targets see the same
      last-write times, the other artifacts (objects, PCH, state file) of different
      targets are different files (their directories differ, Model_Targets.v);
    - of the files written by the commands of a target only its output is an input
      of other targets;
    - a generator (or any other builder) is an actor that, while its task runs,
      writes some of the files in a given list, may fail at any moment, and ends
      (Model_Gen.v models its inside; Model_Full.v puts that in place of the actor). *)
From Verif Require Import Prelude Model_Path Model_Schema Model_Command Model_ToolchainConfig Model_Target Model_Reg.

(** The output as the other targets track it: ConstructOutputPath
    (lib/target/src/target/friend/link_target.cpp:52-58) and the conversion of
    path.h:162-165. *)
Definition out_file (e : tenv) : string := to_path_string (target_output_path (te_build e) (te_name e) (te_ext e)).

Record project := PJ {
  p_targets : list (string * (tenv * tstate));   (* by unique id *)
  p_gens : list (string * list string);          (* other builders, the files they may write *)
  p_built : list (string * cfg);                 (* targets whose Build() was called in this
                                                    process, with their options *)
  p_run : option (nat * reg * xstate);           (* Reg::Run: workers, registry, executor *)
  p_ok : bool;                                   (* env::get_task_state() == SUCCESS *)
  (* history: which output of the second target did the last successful link of
     the first one read? *)
  p_seen : string -> string -> option tgt_art }.

Inductive pevent :=
| PEdit (f : string) (t : option N)              (* the user changes a file *)
| PForget (id : string)                          (* ... deletes a state file *)
| PBuild (id : string) (c : cfg) (ord : list string)   (* Target::Build() during registration *)
| PRun (w : nat) (r : reg)                       (* Reg::Run: the executor starts *)
| PBegin (id : string)                           (* ... starts the task of a builder *)
| PStep (id : string) (ev : event) (t : option (option N))
                                                 (* a step of a running target; [Some t]: it is the
                                                    link, which gives the output the time [t] *)
| PWrite (id : string) (f : string) (t : option N)  (* a running generator writes a file *)
| PFail (id : string)                            (* ... sets the task state to FAILURE *)
| PEnd (id : string) (ok : bool)                 (* the task of a builder is over; a generator
                                                    counts as failed if the task state is
                                                    FAILURE then *)
| PStop (writing : list (string * nat)).         (* the process ends or is killed, the listed
                                                    targets while writing their state file *)

(** Steps of the taskflow of a target. *)
Definition in_taskflow (ev : event) : bool :=
  match ev with
  | EvPchCheck | EvPchExec _ | EvObjCheck | EvCompile _ _ | EvLinkCheck | EvLinkExec _ | EvEnd _ => true
  | _ => false
  end.
(** Does the step execute the link command? (execute.cpp:48: not an empty one.) *)
Definition link_runs (e : tenv) (st : tstate) (ev : event) : bool :=
  match ev with
  | EvLinkExec XNotRun => false
  | EvLinkExec _ =>
      match link_command e (s_cfg st) (s_ord st) with FOk cmd => negb (String.eqb cmd "") | _ => false end
  | _ => false
  end.
Definition links (e : tenv) (st : tstate) (ev : event) : bool :=
  match ev with EvLinkExec XOk => link_runs e st ev | _ => false end.

Definition running (st : tstate) : bool := match s_pc st with Idle => false | _ => true end.

(** What happens to target [id] (in state [st]) when [ev] happens. The task
    state is global: a failing builder makes it FAILURE for all
    (task_state.cpp:22-25); a target that is not running does not look at it. *)
Definition fail_others (failed : bool) (st : tstate) : list event :=
  if failed && running st then [EvFail] else [].
Definition delivered (p : project) (ev : pevent) (id : string) (st : tstate) : list event :=
  match ev with
  | PEdit f t => [EvEdit f t]
  | PForget i => if String.eqb i id then [EvDropStore] else []
  | PBuild i c ord => if String.eqb i id then [EvStart c ord] else []
  | PRun _ _ | PBegin _ => []
  | PStep i x t =>
      match assoc i (p_targets p) with
      | Some (e, sti) =>
          (if String.eqb i id then [x] else []) ++
          match t with Some t' => [EvEdit (out_file e) t'] | None => [] end ++
          (if String.eqb i id then []
           else fail_others (match step e sti x with Some s' => negb (s_ok s') | None => false end) st)
      | None => []
      end
  | PWrite _ f t => [EvEdit f t]
  | PFail _ => fail_others true st
  | PEnd i ok =>
      match assoc i (p_targets p) with
      | Some _ => []
      | None => fail_others (negb ok) st
      end
  | PStop l =>
      if running st then match assoc id l with Some n => [EvCrashEnd n] | None => [EvCrash] end else []
  end.

Fixpoint deliver (p : project) (ev : pevent) (l : list (string * (tenv * tstate)))
  : option (list (string * (tenv * tstate))) :=
  match l with
  | [] => Some []
  | (id, (e, st)) :: r =>
      match exec e st (delivered p ev id st), deliver p ev r with
      | Some st', Some r' => Some ((id, (e, st')) :: r')
      | _, _ => None
      end
  end.

(** The outputs on disk. *)
Definition outputs (p : project) (id : string) : option tgt_art :=
  match assoc id (p_targets p) with Some (_, st) => d_tgt (s_disk st) | None => None end.

(** Can the event happen, and what becomes of the process (built targets,
    executor, task state)? [None]: it cannot. A Build() that is fatal is a
    [PStop]. *)
Definition process (p : project) (ev : pevent) : option (list (string * cfg) * option (nat * reg * xstate) * bool) :=
  let same := Some (p_built p, p_run p, p_ok p) in
  match ev with
  | PEdit _ _ => same
  | PForget i => if mem_str i (map fst (p_targets p)) then same else None
  | PBuild i c ord =>
      match p_run p, assoc i (p_targets p), assoc i (p_built p) with
      | None, Some (e, st), None =>
          if forallb is_fok (all_commands e c ord) then Some (p_built p ++ [(i, c)], None, p_ok p) else None
      | _, _, _ => None
      end
  | PRun w r =>
      match p_run p with None => Some (p_built p, Some (w, r, x_init (rg_edges r)), p_ok p) | Some _ => None end
  | PBegin i =>
      match p_run p with
      | Some (w, r, x) =>
          match xstep w (rg_built r) (rg_edges r) x (XStart i) with
          | Some x' => Some (p_built p, Some (w, r, x'), p_ok p)
          | None => None
          end
      | None => None
      end
  | PStep i ev t =>
      match p_run p, assoc i (p_targets p), assoc i (p_built p) with
      | Some (_, _, x), Some (e, st), Some _ =>
          if mem_str i (x_running x) && in_taskflow ev && match t with Some _ => link_runs e st ev | None => true end then
            match step e st ev with
            | Some st' => Some (p_built p, p_run p, p_ok p && s_ok st')
            | None => None
            end
          else None
      | _, _, _ => None
      end
  | PWrite i f _ =>
      match p_run p, assoc i (p_gens p) with
      | Some (_, _, x), Some fs => if mem_str i (x_running x) && mem_str f fs then same else None
      | _, _ => None
      end
  | PFail i =>
      match p_run p, assoc i (p_targets p), assoc i (p_gens p) with
      | Some (_, _, x), None, Some _ => if mem_str i (x_running x) then Some (p_built p, p_run p, false) else None
      | _, _, _ => None
      end
  | PEnd i ok =>
      match p_run p with
      | Some (w, r, x) =>
          match xstep w (rg_built r) (rg_edges r) x (XFinish i ok) with
          | None => None
          | Some x' =>
              match assoc i (p_targets p), assoc i (p_built p) with
              | Some (_, st), Some _ =>
                  if negb (running st) && Bool.eqb ok (s_ok st) then Some (p_built p, Some (w, r, x'), p_ok p) else None
              | Some _, None => if ok then Some (p_built p, Some (w, r, x'), p_ok p) else None  (* an empty taskflow *)
              | None, _ => if implb ok (p_ok p) then Some (p_built p, Some (w, r, x'), p_ok p && ok) else None
              end
          end
      | None => None
      end
  | PStop l => Some ([], None, true)
  end.

Definition pstep (p : project) (ev : pevent) : option project :=
  match process p ev, deliver p ev (p_targets p) with
  | Some (built, run, ok), Some ts =>
      let seen :=
        match ev with
        | PStep i x _ =>
            match assoc i (p_targets p) with
            | Some (e, st) => if links e st x then upd (p_seen p) i (outputs p) else p_seen p
            | None => p_seen p
            end
        | _ => p_seen p
        end in
      Some (PJ ts (p_gens p) built run ok seen)
  | _, _ => None
  end.

Fixpoint pexec (p : project) (evs : list pevent) : option project :=
  match evs with
  | [] => Some p
  | ev :: r => match pstep p ev with Some p' => pexec p' r | None => None end
  end.

(** At first: no state files, the files [mt], and whatever objects, PCHs and
    outputs happen to lie around. *)
Definition pinit (l : list (string * (tenv * disk))) (gens : list (string * list string)) : project :=
  PJ (map (fun x => (fst x, (fst (snd x), init (snd (snd x))))) l) gens [] None true (fun _ _ => None).
