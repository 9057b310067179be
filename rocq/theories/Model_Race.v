(** The memory that the tasks of a build share, at the level of single reads,
    writes and lock operations: which task touches which piece of the library's
    own state, and when.  lib/target/src/target/tasks.cpp and friend/*.cpp,
    lib/target/src/custom_generator/custom_generator.cpp, lib/env/src/task_state.cpp,
    schema/src/target_serialization.cpp.
    The values of the data are left out: every branch may go either way, every
    loop may run any number of times and everything that can throw may throw.
    Left out: the user's own data in callbacks and blob handlers, the memory of
    taskflow, spdlog and the standard library, and Build(), which the main
    thread runs before it starts the executor and then waits for it
    (lib/args/src/tasks.cpp:33-41). *)
From Verif Require Import Prelude.

(** The parts of a target's state (lib/target/include/target/target.h:98-113,
    builder_interface.h:41-44, schema/include/schema/target_schema.h) and of a
    generator's (custom_generator.h:137-147 and the locals of GenerateTask,
    custom_generator.cpp:269-274). *)
Inductive field :=
(* user_ *)
| U_headers | U_pchs | U_sources | U_compile_deps | U_libs | U_link_deps | U_rest
(* serialization_: load_, loaded_ and the parts of store_ *)
| F_load | F_loaded
| S_pchs | S_pch_compiled | S_sources | S_linked | S_rest
(* dirty_, state_, compile_object_'s object_files_, the cached commands *)
| F_dirty | F_built | F_objects | F_commands
(* generators: the map user_.ids, the comparator and the map of task states *)
| G_ids | G_comparator | G_states | G_store.

(** One id of a generator: its UserIdInfo and its TaskState
    (custom_generator.h:42-52, custom_generator.cpp:113-116). *)
Inductive id_field := I_inputs | I_outputs | I_blob | I_callback | I_should_run | I_success.

Inductive loc :=
| TaskStateVar                              (* current_state, task_state.cpp:24 *)
| ProjectVar                                (* the directories of Project *)
| Part (b : nat) (f : field)                (* of the builder number b *)
| IdPart (b i : nat) (f : id_field).        (* of id i of generator b *)

(** current_state_mutex (task_state.cpp:23) and the add_source_mutex of each
    target (target_serialization.h:51). *)
Inductive mutex := StateMutex | SourceMutex (b : nat).

Inductive act := Read (l : loc) | Write (l : loc) | Acquire (m : mutex) | Release (m : mutex).

(** What a piece of code does to the shared memory. *)
Inductive cmd :=
| Skip
| Do_read (l : loc)
| Do_write (l : loc)
| May_throw
| Seq (c d : cmd)
| Either (c d : cmd)
| Many (c : cmd)
| Pick (f : nat -> cmd)                     (* for some number, e.g. of an id *)
| Locked (m : mutex) (c : cmd)              (* std::lock_guard / std::scoped_lock *)
| Try (c handler : cmd).                    (* try { c } catch (...) { handler } *)
Notation "c ;; d" := (Seq c d) (at level 60, right associativity).
Definition Maybe (c : cmd) : cmd := Either Skip c.
Fixpoint reads (l : list loc) : cmd :=
  match l with [] => Skip | x :: r => Do_read x ;; reads r end.
Fixpoint writes (l : list loc) : cmd :=
  match l with [] => Skip | x :: r => Do_write x ;; writes r end.

(** The traces of a piece of code; [false]: it ended with an exception.  A lock
    is released by the guard's destructor either way. *)
Inductive trace : cmd -> list act -> bool -> Prop :=
| t_skip : trace Skip [] true
| t_read l : trace (Do_read l) [Read l] true
| t_write l : trace (Do_write l) [Write l] true
| t_fine : trace May_throw [] true
| t_throw : trace May_throw [] false
| t_seq c d t u e : trace c t true -> trace d u e -> trace (Seq c d) (t ++ u) e
| t_seq_throw c d t : trace c t false -> trace (Seq c d) t false
| t_left c d t e : trace c t e -> trace (Either c d) t e
| t_right c d t e : trace d t e -> trace (Either c d) t e
| t_pick f i t e : trace (f i) t e -> trace (Pick f) t e
| t_none c : trace (Many c) [] true
| t_more c t u e : trace c t true -> trace (Many c) u e -> trace (Many c) (t ++ u) e
| t_more_throw c t : trace c t false -> trace (Many c) t false
| t_locked m c t e : trace c t e -> trace (Locked m c) (Acquire m :: t ++ [Release m]) e
| t_try c h t : trace c t true -> trace (Try c h) t true
| t_catch c h t u e : trace c t false -> trace h u e -> trace (Try c h) (t ++ u) e.

(** env::get_task_state (task_state.cpp:39): no lock. *)
Definition get_state : cmd := Do_read TaskStateVar.
(** env::set_task_state (task_state.cpp:30-37): compares without the lock, then
    writes with it. *)
Definition set_state : cmd := get_state ;; Maybe (Locked StateMutex (Do_write TaskStateVar)).
(** if (env::get_task_state() != SUCCESS) return; (tasks.cpp:49, 82, 134,
    custom_generator.cpp:127, 263). *)
Definition unless_failed (c : cmd) : cmd := get_state ;; Maybe c.

(** PathInfoList::ComputeHashForAll (schema/include/schema/path.h:150-154); a
    missing file throws. *)
Definition compute_hashes (l : loc) : cmd := Many (Do_read l ;; May_throw ;; Do_write l).

(** TargetSerialization::AddSource (target_serialization.cpp:28-32): emplace_back
    reads and writes the vector. *)
Definition add_source (b : nat) : cmd :=
  Locked (SourceMutex b) (Do_read (Part b S_sources) ;; Do_write (Part b S_sources)).
(** UpdatePchCompiled (target_serialization.cpp:22-25). *)
Definition update_pch_compiled (b : nat) : cmd :=
  Do_read (Part b U_pchs) ;; Do_write (Part b S_pchs) ;; Do_write (Part b S_pch_compiled).
(** UpdateTargetCompiled (target_serialization.cpp:34-36). *)
Definition update_target_compiled (b : nat) : cmd := Do_write (Part b S_linked).
Definition whole_user (b : nat) : list loc :=
  map (Part b) [U_headers; U_pchs; U_sources; U_compile_deps; U_libs; U_link_deps; U_rest].
Definition whole_store (b : nat) : list loc :=
  map (Part b) [S_pchs; S_pch_compiled; S_sources; S_linked; S_rest].
(** UpdateStore (target_serialization.cpp:38-45): copies user_, takes four parts
    over from store_, and moves the result into store_. *)
Definition update_store (b : nat) : cmd :=
  reads (whole_user b) ;;
  reads (map (Part b) [S_pchs; S_pch_compiled; S_sources; S_linked]) ;;
  writes (whole_store b).
(** StoreToFile (serialization_interface.h:61, target_serialization.cpp:69-74)
    and the assert_fatal on it (tasks.cpp:155). *)
Definition store_to_file (b : nat) : cmd := reads (whole_store b) ;; May_throw.

(** CompilePch::BuildCompile (friend/compile_pch.cpp:73-121, with PreCompile,
    167-173). *)
Definition build_pch (b : nat) : cmd :=
  compute_hashes (Part b U_headers) ;; compute_hashes (Part b U_pchs) ;;
  Do_read (Part b F_loaded) ;;
  Either (Do_write (Part b F_dirty))
         (Do_read (Part b F_load) ;; reads (map (Part b) [U_rest; U_headers; U_pchs]) ;;
          Maybe (Do_write (Part b F_dirty))) ;;
  Do_read (Part b F_dirty) ;;
  Maybe (Do_read (Part b U_pchs) ;; May_throw ;; Do_read (Part b F_commands) ;; May_throw).

(** CompileObject::BuildObjectCompile with PreObjectCompile, CompileSources and
    RecompileSources (friend/compile_object.cpp:166-273). *)
Definition build_objects (b : nat) : cmd :=
  compute_hashes (Part b U_sources) ;; compute_hashes (Part b U_headers) ;;
  compute_hashes (Part b U_compile_deps) ;;
  Do_read (Part b F_loaded) ;;
  Either (Do_write (Part b F_dirty))
         (Do_read (Part b F_dirty) ;;
          Maybe (Do_read (Part b F_load) ;;
                 reads (map (Part b) [U_rest; U_headers; U_compile_deps]) ;;
                 Maybe (Do_write (Part b F_dirty)))) ;;
  Do_read (Part b F_dirty) ;;
  Either (Do_read (Part b U_sources))
         (Do_read (Part b F_load) ;;
          Many (Do_read (Part b U_sources) ;; Maybe (Do_write (Part b F_dirty))) ;;
          Maybe (Do_write (Part b F_dirty))).

(** LinkTarget::BuildLink with PreLink (friend/link_target.cpp:60-109). *)
Definition build_link (b : nat) : cmd :=
  compute_hashes (Part b U_libs) ;; compute_hashes (Part b U_link_deps) ;;
  Do_read (Part b F_loaded) ;;
  Either (Do_write (Part b F_dirty))
         (Do_read (Part b F_dirty) ;;
          Maybe (Do_read (Part b F_load) ;;
                 reads (map (Part b) [U_rest; U_link_deps; U_libs]) ;;
                 Maybe (Do_write (Part b F_dirty)))) ;;
  Do_read (Part b F_dirty) ;;
  Maybe (Do_read (Part b F_commands) ;; May_throw ;; update_target_compiled b).

(** The tasks of a run.  A subflow's tasks start when the callable that made
    them returns or joins; what GenerateTask does after its join is [K_store]. *)
Inductive task :=
| K_pch (b : nat)        (* CompilePch::Task *)
| K_obj (b : nat)        (* CompileObject::Task *)
| K_src (b i : nat)      (* its subflow: one selected source *)
| K_link (b : nat)       (* LinkTarget::Task *)
| K_end (b : nat)        (* Target::EndTask *)
| K_gen (b : nat)        (* GenerateTask, up to subflow.join() *)
| K_id (b i : nat)       (* TaskFunctor::operator() *)
| K_store (b : nat).     (* GenerateTask, after the join *)

(** tasks.cpp:47-67, 80-125, 132-145, 150-164; custom_generator.cpp:126-151,
    261-310. *)
Definition code (k : task) : cmd :=
  match k with
  | K_pch b =>
      unless_failed (Try (build_pch b ;; update_pch_compiled b) set_state ;;
                     Do_read (Part b U_pchs) ;; Do_read ProjectVar)
  | K_obj b =>
      unless_failed (Try (build_objects b ;; Many (add_source b) ;; Do_read ProjectVar) set_state)
  | K_src b i =>
      (* only for the sources that were selected *)
      Maybe (Try (Do_read (Part b F_objects) ;; May_throw ;; add_source b) set_state)
  | K_link b => unless_failed (Try (build_link b) set_state)
  | K_end b =>
      Do_read (Part b F_dirty) ;;
      Maybe (Try (update_store b ;; store_to_file b ;; Do_write (Part b F_built)) set_state)
  | K_gen b =>
      unless_failed
        (Do_write (Part b G_comparator) ;; Do_read (Part b F_loaded) ;;
         Maybe (Do_read (Part b F_load)) ;; Do_read (Part b G_ids) ;;
         Do_write (Part b G_comparator) ;; Do_write (Part b F_dirty) ;;
         Many (Do_write (Part b G_states) ;; Do_read (Part b G_ids) ;;
               Pick (fun i => writes (map (IdPart b i) [I_should_run; I_success]))))
  | K_id b i =>
      Maybe (unless_failed
        (Try (compute_hashes (IdPart b i I_inputs) ;; May_throw ;; Do_write (IdPart b i I_blob) ;;
              Do_read (Part b G_comparator) ;;
              Maybe (Do_read (Part b F_load) ;; Do_read (Part b G_ids) ;;
                     reads (map (IdPart b i) [I_inputs; I_outputs; I_blob]) ;; May_throw) ;;
              Do_write (IdPart b i I_should_run) ;;
              Maybe (Do_read (Part b F_commands) ;;
                     reads (map (IdPart b i) [I_inputs; I_outputs; I_blob; I_callback]) ;;
                     May_throw) ;;
              Do_write (IdPart b i I_success)) set_state))
  | K_store b =>
      Maybe (Try (Many (Do_read (Part b G_states) ;; Do_read (Part b F_dirty) ;;
                        Do_write (Part b F_dirty) ;; Do_read (Part b G_ids) ;;
                        Pick (fun i => reads (map (IdPart b i)
                          [I_should_run; I_success; I_inputs; I_outputs; I_blob; I_callback]))) ;;
                  Do_read (Part b F_dirty) ;;
                  Maybe (May_throw ;; Do_write (Part b G_store) ;; Do_read (Part b G_store) ;;
                         May_throw)) set_state)
  end.

(** A program: its builders, and which must be built before which
    (lib/args/src/register.cpp, Reg::CallbackInstance::Dep: taskflow's precede
    between the builders' modules).  A target has a precompiled header or not and
    some number of sources; a generator has some number of ids. *)
Inductive builder := A_target (pch : bool) (sources : nat) | A_generator (ids : nat).
Record program := Prog { pr_builders : list builder; pr_deps : list (nat * nat) }.
Definition of_builder (k : task) : nat :=
  match k with
  | K_pch b | K_obj b | K_src b _ | K_link b | K_end b | K_gen b | K_id b _ | K_store b => b
  end.
Definition exists_task (p : program) (k : task) : Prop :=
  match nth_error (pr_builders p) (of_builder k), k with
  | Some (A_target pch n), K_pch _ => pch = true
  | Some (A_target _ n), K_src _ i => i < n
  | Some (A_target _ _), (K_obj _ | K_link _ | K_end _) => True
  | Some (A_generator n), K_id _ i => i < n
  | Some (A_generator _), (K_gen _ | K_store _) => True
  | _, _ => False
  end.

(** Target::TaskDeps (tasks.cpp:166-172), the subflows, and the order between
    builders. *)
Inductive precedes (p : program) : task -> task -> Prop :=
| pr_pch b : precedes p (K_pch b) (K_obj b)
| pr_spawn b i : precedes p (K_obj b) (K_src b i)
| pr_obj b : precedes p (K_obj b) (K_link b)
| pr_src b i : precedes p (K_src b i) (K_link b)
| pr_link b : precedes p (K_link b) (K_end b)
| pr_ids b i : precedes p (K_gen b) (K_id b i)
| pr_gen b : precedes p (K_gen b) (K_store b)
| pr_join b i : precedes p (K_id b i) (K_store b)
| pr_dep k l : In (of_builder k, of_builder l) (pr_deps p) -> precedes p k l.

(** An execution: tasks start when what precedes them has ended, and then take
    their steps one at a time, in any interleaving; a task that wants a lock
    waits until it is free. *)
Inductive status := Waiting | Running (rest : list act) | Ended.
Record mstate := MS { ms_task : task -> status; ms_holder : mutex -> option task }.
Definition m_init : mstate := MS (fun _ => Waiting) (fun _ => None).
Definition task_eq_dec (a b : task) : {a = b} + {a <> b}.
Proof. decide equality; apply Nat.eq_dec. Defined.
Definition mutex_eq_dec (a b : mutex) : {a = b} + {a <> b}.
Proof. decide equality; apply Nat.eq_dec. Defined.
Definition set_task (s : mstate) (k : task) (x : status) : mstate :=
  MS (fun l => if task_eq_dec k l then x else ms_task s l) (ms_holder s).
Definition set_holder (s : mstate) (m : mutex) (x : option task) : mstate :=
  MS (ms_task s) (fun n => if mutex_eq_dec m n then x else ms_holder s n).
Definition after_act (s : mstate) (k : task) (a : act) : option mstate :=
  match a with
  | Read _ | Write _ => Some s
  | Acquire m => match ms_holder s m with None => Some (set_holder s m (Some k)) | Some _ => None end
  | Release m => Some (set_holder s m None)
  end.
Inductive mstep (p : program) : mstate -> list (task * act) -> mstate -> Prop :=
| m_start s k t e :
    exists_task p k -> ms_task s k = Waiting ->
    (forall l, exists_task p l -> precedes p l k -> ms_task s l = Ended) ->
    trace (code k) t e ->
    mstep p s [] (set_task s k (Running t))
| m_act s k a r s' :
    ms_task s k = Running (a :: r) -> after_act s k a = Some s' ->
    mstep p s [(k, a)] (set_task s' k (Running r))
| m_end s k :
    ms_task s k = Running [] -> mstep p s [] (set_task s k Ended).
(** [mexec p log s]: after the accesses [log], in this order, the state is [s]. *)
Inductive mexec (p : program) : list (task * act) -> mstate -> Prop :=
| m_nil : mexec p [] m_init
| m_snoc log s l s' : mexec p log s -> mstep p s l s' -> mexec p (log ++ l) s'.
