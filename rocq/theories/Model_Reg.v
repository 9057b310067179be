(** Registration of builders, dependencies and tests, and the execution of the
    registered graph.
    lib/args/src/register.cpp, lib/args/src/tasks.cpp,
    lib/args/include/args/register.h.
    A builder stands for its unique id (BuilderInterface::GetUniqueId); the name
    of its task in the graph is that id (tasks.cpp:26-35). *)
From Verif Require Import Prelude Model_Command.

(** ** The dependency graph *)

(** Edges (dependency, target), oldest first: [target.succeed(dependency)]
    (register.cpp:164) appends [target] to the successors of [dependency] and
    [dependency] to the dependents of [target]. *)
Definition edges := list (string * string).
(** tf::Task::for_each_successor: in insertion order. *)
Definition succs (g : edges) (x : string) : list string :=
  map snd (filter (fun e => String.eqb (fst e) x) g).
(** tf::Task::for_each_dependent. *)
Definition preds (g : edges) (x : string) : list string :=
  map fst (filter (fun e => String.eqb (snd e) x) g).

(** register.cpp:37-44 DepDetectDuplicate: [true] = fatal. *)
Definition dep_duplicate (g : edges) (target dep : string) : bool := mem_str dep (preds g target).

(** register.cpp:46-63 DepDetectCyclicDependency, the while loop over the queue.
    There is no set of visited tasks.  [Some true] = fatal, [Some false] = the
    queue ran empty, [None] = not finished after [n] rounds. Within one round
    the code pushes a successor before it compares its name; as a match ends the
    process, comparing first makes no difference. *)
Fixpoint dep_search (n : nat) (g : edges) (queue : list string) (m : string) : option bool :=
  match n with
  | 0 => None
  | S n' =>
      match queue with
      | [] => Some false
      | cur :: q =>
          if mem_str m (succs g cur) then Some true
          else dep_search n' g (q ++ succs g cur) m
      end
  end.

(** ** Registration *)

(** Reg::Instance (register.h:150-160). [rg_built]: the keys of build_ and the
    tasks of build_tf_; [rg_tests]: tests_ (id, command, TestConfig arguments). *)
Record reg := REG {
  rg_built : list string;
  rg_edges : edges;
  rg_tests : list (string * (string * list (string * string))) }.
Definition reg_empty : reg := REG [] [] [].

(** instance_ (register.cpp:69) and a log of the user callbacks invoked. *)
Record rstate := RS { rs_inst : option reg; rs_calls : list string }.
Definition rs_init : rstate := RS None [].

(** [RFatal]: env::assert_fatal on the main thread, the process exits.
    [RFuel]: the cycle search has not returned after the given rounds. *)
Inductive rres := RDone (s : rstate) | RFatal (s : rstate) | RFuel.

Definition rbind (r : rres) (f : rstate -> rres) : rres :=
  match r with RDone s => f s | _ => r end.

(** The two handles: Reg::Call(condition) and Reg::Toolchain({build, test}). *)
Inductive handle := ViaCall (condition : bool) | ViaToolchain (build test : bool).
(** CallbackInstance::condition_ (register.h:167, 173);
    ToolchainInstance uses condition_.build (register.h:188, 193). *)
Definition enabled (h : handle) : bool :=
  match h with ViaCall c => c | ViaToolchain b _ => b end.

(** A program registering builders. Callbacks ([name]) may register more
    ([body]). BuildPackage (register.h:199-201) is [AFunc] with the package's
    Setup as callback. Chained calls on one handle are separate calls here. *)
Inductive api :=
| AInit (parsed : bool)
| ADeinit
| AFunc (h : handle) (name : string) (body : list api)
| ABuild (h : handle) (id name : string) (body : list api)
| ADep (build test : bool) (target dep : string)
| ATest (build test : bool) (target cmd : string) (args : list (string * string)).

Definition log_call (s : rstate) (n : string) : rstate := RS (rs_inst s) (rs_calls s ++ [n]).

(** register.cpp:110-113 Reg::Ref, and the same check in Reg::Toolchain (118)
    and Reg::Call (145). *)
Definition with_inst (s : rstate) (f : reg -> rres) : rres :=
  match rs_inst s with Some r => f r | None => RFatal s end.

(** register.cpp:183-189 BuildStoreTask, after BuildTask (tasks.cpp:26-35). *)
Definition build_store (s : rstate) (id : string) : rres :=
  with_inst s (fun r =>
    if mem_str id (rg_built r) then RFatal s
    else RDone (RS (Some (REG (rg_built r ++ [id]) (rg_edges r) (rg_tests r))) (rs_calls s))).

(** register.cpp:151-165 Instance::Dep. *)
Definition instance_dep (n : nat) (s : rstate) (target dep : string) : rres :=
  with_inst s (fun r =>
    if negb (mem_str target (rg_built r) && mem_str dep (rg_built r)) then RFatal s
    else if dep_duplicate (rg_edges r) target dep then RFatal s
    else match dep_search n (rg_edges r) [target] dep with
         | None => RFuel
         | Some true => RFatal s
         | Some false => RDone (RS (Some (REG (rg_built r) (rg_edges r ++ [(dep, target)]) (rg_tests r))) (rs_calls s))
         end).

(** register.cpp:167-179 Instance::Test. *)
Definition instance_test (s : rstate) (target cmd : string) (args : list (string * string)) : rres :=
  with_inst s (fun r =>
    if negb (mem_str target (rg_built r)) then RFatal s
    else if mem_str target (map fst (rg_tests r)) then RFatal s
    else RDone (RS (Some (REG (rg_built r) (rg_edges r) (rg_tests r ++ [(target, (cmd, args))]))) (rs_calls s))).

Fixpoint run_api (n : nat) (a : api) (s : rstate) {struct a} : rres :=
  let fix run_body (l : list api) (s : rstate) {struct l} : rres :=
    match l with
    | [] => RDone s
    | a :: r => rbind (run_api n a s) (run_body r)
    end in
  match a with
  | AInit parsed =>                                           (* register.cpp:85-94 *)
      match rs_inst s with
      | Some _ => RDone s
      | None => if parsed then RDone (RS (Some reg_empty) (rs_calls s)) else RFatal s
      end
  | ADeinit => RDone (RS None (rs_calls s))                   (* register.cpp:96-99 *)
  | AFunc h name body =>                                      (* register.h:165-168, 185-190 *)
      with_inst s (fun _ =>
        if enabled h then run_body body (log_call s name) else RDone s)
  | ABuild h id name body =>                                  (* register.h:89-100, 171-176, 192-197 *)
      with_inst s (fun _ =>
        if enabled h then rbind (run_body body (log_call s name)) (fun s' => build_store s' id) else RDone s)
  | ADep build _ target dep =>                                (* register.cpp:122-131 *)
      with_inst s (fun _ => if build then instance_dep n s target dep else RDone s)
  | ATest build test target cmd args =>                       (* register.cpp:133-140 *)
      with_inst s (fun _ => if build && test then instance_test s target cmd args else RDone s)
  end.

Fixpoint run_apis (n : nat) (l : list api) (s : rstate) : rres :=
  match l with
  | [] => RDone s
  | a :: r => rbind (run_api n a s) (run_apis n r)
  end.

(** ** Execution of the graph (tasks.cpp:33-41 RunBuild)

    tf::Executor is a library outside the repository.  It is modelled by its
    documented contract: every task has a counter of its not yet finished
    dependents (one per edge); a task whose counter is zero is started, once, by
    one of [w] workers; when it finishes, the counter of each successor is
    decremented. A builder's task is its whole taskflow (composed_of). *)
Inductive xev := XStart (id : string) | XFinish (id : string) (ok : bool).

Record xstate := XS {
  x_count : string -> nat;
  x_running : list string;
  x_log : list xev }.

Definition x_init (g : edges) : xstate := XS (fun id => length (preds g id)) [] [].

Definition count_str (x : string) (l : list string) : nat := length (filter (String.eqb x) l).
Definition started (l : list xev) (id : string) : bool :=
  existsb (fun ev => match ev with XStart i => String.eqb i id | _ => false end) l.

Fixpoint remove_one (x : string) (l : list string) : list string :=
  match l with
  | [] => []
  | y :: r => if String.eqb x y then r else y :: remove_one x r
  end.

Definition xstep (w : nat) (built : list string) (g : edges) (s : xstate) (ev : xev) : option xstate :=
  match ev with
  | XStart id =>
      if mem_str id built && Nat.eqb (x_count s id) 0 && negb (started (x_log s) id) && Nat.ltb (length (x_running s)) w
      then Some (XS (x_count s) (id :: x_running s) (x_log s ++ [ev])) else None
  | XFinish id ok =>
      if mem_str id (x_running s)
      then Some (XS (fun x => x_count s x - count_str x (succs g id)) (remove_one id (x_running s)) (x_log s ++ [ev])) else None
  end.

Fixpoint xexec (w : nat) (built : list string) (g : edges) (s : xstate) (evs : list xev) : option xstate :=
  match evs with
  | [] => Some s
  | ev :: r => match xstep w built g s ev with Some s' => xexec w built g s' r | None => None end
  end.

(** The executor returns from wait_for_all when nothing runs and nothing can be
    started. *)
Definition x_over (w : nat) (built : list string) (g : edges) (s : xstate) : Prop :=
  forall ev, xstep w built g s ev = None.

(** The global task state after the build (set to FAILURE by a failing builder,
    see Model_TaskState.v). *)
Definition build_succeeded (l : list xev) : bool :=
  forallb (fun ev => match ev with XFinish _ ok => ok | _ => true end) l.

(** ** Reg::Run (register.cpp:101-108, tasks.cpp:33-52, register.cpp:193-264) *)

(** What Run did after the build. A test that cannot be run or fails is fatal
    (register.cpp:243-244; on a worker thread the exception ends the process). *)
Inductive run_end :=
| RunFatalBuild
| RunDone (tests : list string)
| RunFatalTest (tests : list string).

(** The command of a test: register.cpp:196-201; [exe] is the target path. *)
Definition test_command (exe cmd : string) (args : list (string * string)) : fres :=
  construct (add_default_arguments command_init [("executable", exe)]) cmd args.
(** [other]: what fmt makes of patterns the model does not interpret (None: an
    exception, which is fatal). *)
Definition test_text (other : string -> option string) (id exe cmd : string) (args : list (string * string)) : option string :=
  match test_command exe cmd args with FOk c => Some c | FErr => None | FOther => other id end.

(** The tests, in the order in which they are executed (tests_ is an
    unordered_map, handed to parallel workers). [res]: does running the command
    succeed. *)
Fixpoint run_tests (other : string -> option string) (exe : string -> string) (res : string -> bool)
    (l : list (string * (string * list (string * string)))) (done : list string) : run_end :=
  match l with
  | [] => RunDone done
  | (id, (cmd, args)) :: r =>
      match test_text other id (exe id) cmd args with
      | Some c => if negb (String.eqb c "") && res c then run_tests other exe res r (done ++ [id]) else RunFatalTest (done ++ [id])
      | None => RunFatalTest (done ++ [id])
      end
  end.

Definition reg_run (other : string -> option string) (log : list xev) (exe : string -> string) (res : string -> bool)
    (ord : list (string * (string * list (string * string)))) : run_end :=
  if build_succeeded log then run_tests other exe res ord [] else RunFatalBuild.
