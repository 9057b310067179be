(** Reg::Run after the build: the user's callback and the tests with their
    commands, working directories and output. *)
From Verif Require Import Prelude Model_Path Model_Command Model_Target Model_Args Model_Reg.

(** lib/args/include/args/register/test_info.h:32-39 TestOutput::Type *)
Inductive out_type := DefaultBehaviour | PrintOnStderr | PrintOnStdout | PrintOnBoth | UserRedirect.
(** test_info.h:31-63 TestOutput; the user's vectors are numbered, None: nullptr. *)
Record test_output := OUT { o_type : out_type; o_stdout : option nat; o_stderr : option nat }.
Definition default_output : test_output := OUT PrintOnBoth None None.

(** test_info.h:65-109 TestInfo with its TestConfig: the target's unique id and path
    (as fmt prints it), command, arguments (in iteration order), working directory,
    output. *)
Record test := TEST {
  t_id : string; t_exe : string; t_cmd : string; t_args : list (string * string);
  t_dir : option string; t_out : test_output }.

(** What happens to a stream of the process. tpl::Process leaves a stream for which
    it gets no function to the process (lib/env/src/execute.cpp:51-63). *)
Inductive sink := Inherited | Kept | ToUser (v : nat).
Definition user_sink (o : option nat) : sink := match o with Some v => ToUser v | None => Inherited end.
(** lib/args/src/register.cpp:203-238; [err]: standard error *)
Definition sink_of (o : test_output) (err : bool) : sink :=
  match o_type o with
  | DefaultBehaviour => Inherited
  | PrintOnStderr => if err then Kept else Inherited
  | PrintOnStdout => if err then Inherited else Kept
  | PrintOnBoth => Kept
  | UserRedirect => user_sink (if err then o_stderr o else o_stdout o)
  end.

(** What is seen on the console: what a process writes itself, and the lines of
    env::log without the prefix of the log pattern. *)
Inductive shown := Direct (err : bool) (s : string) | Line (s : string).
(** lib/env/include/env/logging.h:25-33 *)
Definition level_number (l : log_level) : nat :=
  match l with Trace => 0 | Debug => 1 | Info => 2 | Warning => 3 | Critical => 5 end.
(** lib/env/src/logging.cpp:27-33 with the level set by set_log_level. *)
Definition log_line (lv l : log_level) (tag message : string) : list shown :=
  if Nat.leb (level_number lv) (level_number l) then [Line ("[" +++ tag +++ "]: " +++ message)] else [].

(** register.cpp:247-264 *)
Definition report (lv : log_level) (t : test) (out err : list string) : list shown :=
  let on_stdout := log_line lv Info ("STDOUT: " +++ t_id t) (aggregate out) in
  let on_stderr := log_line lv Info ("STDERR: " +++ t_id t) (aggregate err) in
  match o_type (t_out t) with
  | PrintOnStderr => on_stderr
  | PrintOnStdout => on_stdout
  | PrintOnBoth => on_stdout ++ on_stderr
  | DefaultBehaviour | UserRedirect => []
  end.

(** The tests that have not been started, those that run with what was kept of
    their output, the user's vectors, the console (with the test a part is about),
    the processes started (test, command, directory), whether the program has ended. *)
Record qstate := Q {
  q_waiting : list test;
  q_running : list (test * (list string * list string));
  q_users : nat -> list string;
  q_console : list (string * shown);
  q_started : list (string * (string * option string));
  q_done : list string;
  q_ended : bool }.
Definition q_init (tests : list test) (users : nat -> list string) : qstate := Q tests [] users [] [] [] false.

Inductive qevent :=
| QStart (id : string)                          (* a worker takes the test *)
| QWrite (id : string) (err : bool) (s : string) (* its process writes; the pieces in which it is read *)
| QExit (id : string) (ok : bool).              (* its process has ended: with status 0? *)

Fixpoint take_test (id : string) (l : list test) : option (test * list test) :=
  match l with
  | [] => None
  | t :: r =>
      if String.eqb (t_id t) id then Some (t, r)
      else match take_test id r with Some (x, r') => Some (x, t :: r') | None => None end
  end.
Fixpoint take_running (id : string) (l : list (test * (list string * list string)))
  : option (test * (list string * list string) * list (test * (list string * list string))) :=
  match l with
  | [] => None
  | (t, k) :: r =>
      if String.eqb (t_id t) id then Some (t, k, r)
      else match take_running id r with Some (x, r') => Some (x, (t, k) :: r') | None => None end
  end.

Definition about (t : test) (l : list shown) : list (string * shown) := map (fun x => (t_id t, x)) l.
Definition append_user (u : nat -> list string) (v : nat) (s : string) : nat -> list string :=
  fun n => if Nat.eqb n v then u n ++ [s] else u n.

(** register.cpp:193-264 TestRunner, in the parallel loop of lib/args/src/tasks.cpp:43-52
    with [w] workers. A fatal error throws on a worker thread, which ends the program
    (lib/env/src/assert_fatal.cpp:36-42). Appending to a user's vector is one step;
    if tests that run at the same time are given the same vector, the code has a data
    race. The text of fmt's exception is left out. *)
Definition qstep (w : nat) (lv : log_level) (other : string -> option string) (s : qstate) (ev : qevent) : option qstate :=
  if q_ended s then None
  else
    match ev with
    | QStart id =>
        if Nat.ltb (length (q_running s)) w then
          match take_test id (q_waiting s) with
          | None => None
          | Some (t, r) =>
              let said := log_line lv Info "TestRunner" ("Testing '" +++ t_id t +++ "'") in
              match test_text other (t_id t) (t_exe t) (t_cmd t) (t_args t) with
              | None =>
                  Some (Q r (q_running s) (q_users s)
                          (q_console s ++ about t (said ++ log_line lv Critical "assert" "Construct command failed: ")) (q_started s) (q_done s) true)
              | Some cmd =>
                  if String.eqb cmd "" then
                    Some (Q r (q_running s) (q_users s)
                            (q_console s ++ about t (said ++ log_line lv Critical "assert" "Empty command")) (q_started s) (q_done s) true)
                  else
                    Some (Q r ((t, ([], [])) :: q_running s) (q_users s)
                            (q_console s ++ about t (said ++ log_line lv Debug "system" cmd))
                            (q_started s ++ [(t_id t, (cmd, t_dir t))]) (q_done s) false)
              end
          end
        else None
    | QWrite id err x =>
        if String.eqb x "" then None
        else
          match take_running id (q_running s) with
          | None => None
          | Some (t, (o, e), r) =>
              match sink_of (t_out t) err with
              | Inherited => Some (Q (q_waiting s) (q_running s) (q_users s) (q_console s ++ about t [Direct err x]) (q_started s) (q_done s) false)
              | Kept =>
                  Some (Q (q_waiting s) ((t, if err then (o, e ++ [x]) else (o ++ [x], e)) :: r) (q_users s) (q_console s) (q_started s) (q_done s) false)
              | ToUser v => Some (Q (q_waiting s) (q_running s) (append_user (q_users s) v x) (q_console s) (q_started s) (q_done s) false)
              end
          end
    | QExit id ok =>
        match take_running id (q_running s) with
        | None => None
        | Some (t, (o, e), r) =>
            if ok then
              Some (Q (q_waiting s) r (q_users s) (q_console s ++ about t (report lv t o e)) (q_started s) (q_done s ++ [t_id t]) false)
            else
              Some (Q (q_waiting s) r (q_users s)
                      (q_console s ++ about t (log_line lv Critical "assert" ("Could not run " +++ t_id t))) (q_started s) (q_done s) true)
        end
    end.
Fixpoint qexec (w : nat) (lv : log_level) (other : string -> option string) (s : qstate) (evs : list qevent) : option qstate :=
  match evs with
  | [] => Some s
  | ev :: r => match qstep w lv other s ev with Some s' => qexec w lv other s' r | None => None end
  end.

(** register.cpp:101-108 Reg::Run with tasks.cpp:33-41. *)
Inductive phase := InBuild | InCallback | InTests | Returned | Ended.
Inductive vevent :=
| VBuilt (ok : bool)       (* the executor is done; is the task state SUCCESS? *)
| VCallback                (* the user's callback is called and returns *)
| VTest (ev : qevent)
| VReturn.
Record vstate := V { v_phase : phase; v_tests : qstate }.
Definition vstep (w : nat) (lv : log_level) (other : string -> option string) (callback : bool) (s : vstate) (ev : vevent) : option vstate :=
  match v_phase s, ev with
  | InBuild, VBuilt true => Some (V (if callback then InCallback else InTests) (v_tests s))
  | InBuild, VBuilt false => Some (V Ended (v_tests s))
  | InCallback, VCallback => Some (V InTests (v_tests s))
  | InTests, VTest e =>
      match qstep w lv other (v_tests s) e with
      | Some q => Some (V (if q_ended q then Ended else InTests) q)
      | None => None
      end
  | InTests, VReturn =>
      match q_waiting (v_tests s), q_running (v_tests s) with
      | [], [] => Some (V Returned (v_tests s))
      | _, _ => None
      end
  | _, _ => None
  end.
Fixpoint vexec (w : nat) (lv : log_level) (other : string -> option string) (callback : bool) (s : vstate) (evs : list vevent) : option vstate :=
  match evs with
  | [] => Some s
  | ev :: r => match vstep w lv other callback s ev with Some s' => vexec w lv other callback s' r | None => None end
  end.
(** [tests]: tests_ in some order (an unordered_map). *)
Definition reg_run_tests (w : nat) (lv : log_level) (other : string -> option string) (callback : bool)
  (tests : list test) (users : nat -> list string) (evs : list vevent) : option vstate :=
  vexec w lv other callback (V InBuild (q_init tests users)) evs.

(** register.cpp:167-179: the tests a registry holds (Model_Reg.v), with the parts of
    TestInfo that are not in it. *)
Definition tests_of (r : reg) (exe : string -> string) (dir : string -> option string) (out : string -> test_output) : list test :=
  map (fun x => TEST (fst x) (exe (fst x)) (fst (snd x)) (snd (snd x)) (dir (fst x)) (out (fst x))) (rg_tests r).
