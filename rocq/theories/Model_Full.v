(** Whole programs: targets as in Model_Project.v together with custom generators as
    in Model_Gen.v, registered with Reg, executed by Reg::Run over any number of
    processes.
    lib/args/src/tasks.cpp:23-41 (BuildTask for targets and generators),
    lib/args/src/register.cpp:101-108 (Run), lib/env/src/task_state.cpp:22-39,
    lib/target/src/custom_generator/custom_generator.cpp:235-315.

    Simplifications:
    - those of Model_Project.v for targets and of Model_Gen.v for generators; all
      see the same last-write times;
    - a callback reads and writes at one moment (Model_Gen.v), and writes files of
      the list given for its generator;
    - state files of generators and targets are different files, and nobody's
      input. *)
From Verif Require Import Prelude Model_Path Model_Schema Model_Command Model_ToolchainConfig Model_Target Model_Gen
  Model_Reg Model_Project.

Record full := FJ {
  f_proj : project;                    (* targets, registry, executor, task state *)
  f_gens : list (string * gstate);     (* generators by unique id *)
  f_objs : list (string * gobj) }.     (* those whose Build() was called in this process *)

Inductive fevent :=
| FP (ev : pevent)                     (* as in Model_Project.v *)
| FForget (id : string)                (* the user deletes the state file of a generator *)
| FBuild (id : string) (o : gobj)      (* CustomGenerator::Build() during registration *)
| FStep (id : string) (x : gevent).    (* a step of a running generator *)

(** Steps of the generate task (custom_generator.cpp:261-315). *)
Definition in_generate (x : gevent) : bool :=
  match x with GSetup | GEnter _ | GCall _ _ _ | GFinish _ => true | _ => false end.
Definition writes_of (x : gevent) : list (string * option N) :=
  match x with GCall _ _ w => w | _ => [] end.
Definition grunning (g : gstate) : bool := match g_pc g with GIdle => false | _ => true end.
(** The step of generator [i] leaves the task state FAILURE
    (custom_generator.cpp:148-150, 310-312). *)
Definition gfails (u8 : string -> N) (F : full) (i : string) (x : gevent) : bool :=
  match assoc i (f_gens F) with
  | Some g => match gstep u8 g x with Some g' => negb (g_ok g') | None => false end
  | None => false
  end.

(** What the rest of the program sees of a step of a generator. *)
Definition pdelivered (u8 : string -> N) (F : full) (ev : fevent) : list pevent :=
  match ev with
  | FP ev => [ev]
  | FForget _ | FBuild _ _ => []
  | FStep i x => map (fun w => PWrite i (fst w) (snd w)) (writes_of x) ++ (if gfails u8 F i x then [PFail i] else [])
  end.

(** What happens to generator [j]. *)
Definition gfail_others (failed : bool) (g : gstate) : list gevent :=
  if failed && grunning g then [GFail] else [].
Definition gdelivered (u8 : string -> N) (F : full) (ev : fevent) (j : string) (g : gstate) : list gevent :=
  match ev with
  | FP (PEdit f t) | FP (PWrite _ f t) => [GEdit f t]
  | FP (PStep i x t) =>
      match assoc i (p_targets (f_proj F)) with
      | Some (e, st) =>
          match t with Some t' => [GEdit (out_file e) t'] | None => [] end ++
          gfail_others (match step e st x with Some s' => negb (s_ok s') | None => false end) g
      | None => []
      end
  | FP (PFail _) => gfail_others true g
  | FP (PEnd i ok) =>
      match assoc i (p_targets (f_proj F)) with
      | Some _ => []
      | None => gfail_others (negb ok) g
      end
  | FP (PStop l) =>
      if grunning g then match assoc j l with Some n => [GCrashFinish n] | None => [GCrash] end else []
  | FP _ => []
  | FForget i => if String.eqb i j then [GDropStore] else []
  | FBuild i o => if String.eqb i j then [GStart o] else []
  | FStep i x =>
      if String.eqb i j then [x]
      else map (fun w => GEdit (fst w) (snd w)) (writes_of x) ++ gfail_others (gfails u8 F i x) g
  end.
Fixpoint gdeliver (u8 : string -> N) (F : full) (ev : fevent) (l : list (string * gstate))
  : option (list (string * gstate)) :=
  match l with
  | [] => Some []
  | (j, g) :: r =>
      match gexec u8 g (gdelivered u8 F ev j g), gdeliver u8 F ev r with
      | Some g', Some r' => Some ((j, g') :: r')
      | _, _ => None
      end
  end.

(** Can the event happen, as far as generators are concerned? The task of a
    generator ends with its taskflow (tasks.cpp:32-35; an empty one if Build() was
    not called) and counts as failed if the task state is FAILURE. *)
Definition fallowed (F : full) (ev : fevent) : bool :=
  match ev with
  | FP (PWrite i _ _) | FP (PFail i) => match assoc i (f_gens F) with Some _ => false | None => true end
  | FP (PEnd i ok) =>
      match assoc i (f_gens F) with
      | Some g => negb (grunning g) && Bool.eqb ok (p_ok (f_proj F))
      | None => true
      end
  | FP _ => true
  | FForget i => match assoc i (f_gens F) with Some _ => true | None => false end
  | FBuild i o =>
      match p_run (f_proj F), assoc i (f_gens F), assoc i (f_objs F) with None, Some _, None => true | _, _, _ => false end
  | FStep i x =>
      match p_run (f_proj F), assoc i (f_gens F), assoc i (f_objs F) with
      | Some (_, _, ex), Some _, Some _ => mem_str i (x_running ex) && in_generate x
      | _, _, _ => false
      end
  end.
Definition objs_after (F : full) (ev : fevent) : list (string * gobj) :=
  match ev with
  | FBuild i o => f_objs F ++ [(i, o)]
  | FP (PStop _) => []
  | _ => f_objs F
  end.

Definition fstep (u8 : string -> N) (F : full) (ev : fevent) : option full :=
  if fallowed F ev then
    match pexec (f_proj F) (pdelivered u8 F ev), gdeliver u8 F ev (f_gens F) with
    | Some p, Some gs => Some (FJ p gs (objs_after F ev))
    | _, _ => None
    end
  else None.
Fixpoint fexec (u8 : string -> N) (F : full) (evs : list fevent) : option full :=
  match evs with
  | [] => Some F
  | ev :: r => match fstep u8 F ev with Some F' => fexec u8 F' r | None => None end
  end.

(** At first: as for the project; generators without state files. [files]: what
    the callbacks of each generator (and other builders) may write. *)
Definition finit (mt0 : times) (l : list (string * (tenv * disk))) (files : list (string * list string))
    (gids : list string) : full :=
  FJ (pinit l files) (map (fun j => (j, ginit mt0)) gids) [].
