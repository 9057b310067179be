(** C34 - C38, C54: registration and execution of the dependency graph. *)
From Verif Require Import Prelude Model_Command Spec_Command Proof_Command Model_Reg Proof_RegText Spec_Reg Proof_Reg Proof_RegRun Proof_RegFail.

(** A program with two toolchains, nested callbacks and a package. *)
Definition prog0 : list api :=
  [AInit true;
   AFunc (ViaToolchain true false) "setup"
     [ABuild (ViaToolchain true false) "lib" "lib_cb" [];
      ABuild (ViaToolchain true false) "gen" "gen_cb" []];
   ABuild (ViaCall true) "app" "app_cb" [ABuild (ViaToolchain true true) "sub" "sub_cb" []];
   ABuild (ViaToolchain false true) "off" "off_cb" [];
   ADep true false "app" "lib"; ADep true true "lib" "gen"; ADep true true "app" "gen"; ADep false true "gen" "app";
   ATest true true "app" "{executable} {x}" [("x", "-v")]; ATest true false "lib" "" []].
Definition reg0 : reg :=
  REG ["lib"; "gen"; "sub"; "app"] [("lib", "app"); ("gen", "lib"); ("gen", "app")] [("app", ("{executable} {x}", [("x", "-v")]))].
Example registers0 : registers 20 prog0 reg0.
Proof. exists ["setup"; "lib_cb"; "gen_cb"; "app_cb"; "sub_cb"]. vm_compute. reflexivity. Qed.
Example no_loop0 : forall x, ~ In (x, x) (rg_edges reg0).
Proof. intros x [H|[H|[H|[]]]]; congruence. Qed.

(** C34: distinct builders never depend on each other mutually ... *)
Theorem C34_acyclic : forall n prog r, registers n prog r ->
  forall x y, x <> y -> before (rg_edges r) x y -> before (rg_edges r) y x -> False.
Proof. exact reg_acyclic. Qed.
Print Assumptions C34_acyclic.

(** ... and the graph connects registered builders, each edge once. *)
Theorem C34_graph_well_formed : forall n prog r, registers n prog r ->
  NoDup (rg_built r) /\ NoDup (rg_edges r) /\ (forall d t, In (d, t) (rg_edges r) -> In d (rg_built r) /\ In t (rg_built r)) /\
  NoDup (map fst (rg_tests r)) /\ incl (map fst (rg_tests r)) (rg_built r).
Proof. exact reg_ends. Qed.
Print Assumptions C34_graph_well_formed.

Example C34_case : registers 20 prog0 reg0 /\ before (rg_edges reg0) "gen" "app" /\ before (rg_edges reg0) "gen" "lib".
Proof.
  split; [exact registers0|]. split; [apply (before_step _ _ "lib"); [|apply before_edge]|apply before_edge]; cbn; auto.
Qed.

(** C35: Dep(t, d) is fatal iff it was added before or [t] is already a
    (transitive) dependency of [d]; otherwise exactly this edge is added.
    Either way the search ends. *)
Theorem C35_dep_decides : forall n prog r calls t d, registers n prog r -> (forall x, ~ In (x, x) (rg_edges r)) ->
  In t (rg_built r) -> In d (rg_built r) ->
  let s := RS (Some r) calls in
  exists N, forall k, N <= k ->
   (In (d, t) (rg_edges r) \/ before (rg_edges r) t d -> instance_dep k s t d = RFatal s) /\
   (~ In (d, t) (rg_edges r) -> ~ before (rg_edges r) t d ->
      instance_dep k s t d = RDone (RS (Some (REG (rg_built r) (rg_edges r ++ [(d, t)]) (rg_tests r))) calls)).
Proof. exact dep_decides. Qed.
Print Assumptions C35_dep_decides.

Example C35_case : registers 20 prog0 reg0 /\ (forall x, ~ In (x, x) (rg_edges reg0)) /\
  instance_dep 20 (RS (Some reg0) []) "gen" "app" = RFatal (RS (Some reg0) []) /\
  instance_dep 20 (RS (Some reg0) []) "lib" "gen" = RFatal (RS (Some reg0) []) /\
  instance_dep 20 (RS (Some reg0) []) "lib" "sub" =
    RDone (RS (Some (REG (rg_built reg0) (rg_edges reg0 ++ [("sub", "lib")]) (rg_tests reg0))) []).
Proof. split; [exact registers0|]. split; [exact no_loop0|]. vm_compute. auto. Qed.

(** C36 is false: Dep(t, t) is accepted ... *)
Theorem C36_self_dependency_refuted : forall n prog r calls t, registers n prog r -> In t (rg_built r) ->
  ~ before (rg_edges r) t t -> (forall x, ~ In (x, x) (rg_edges r)) ->
  exists N, forall k, N <= k -> instance_dep k (RS (Some r) calls) t t =
    RDone (RS (Some (REG (rg_built r) (rg_edges r ++ [(t, t)]) (rg_tests r))) calls).
Proof. exact self_dep_accepted. Qed.
Print Assumptions C36_self_dependency_refuted.

(** ... a later Dep(t, d) then searches forever ... *)
Theorem C36_self_dependency_hangs_refuted : forall r calls t d,
  In (t, t) (rg_edges r) -> In t (rg_built r) -> In d (rg_built r) ->
  ~ In (d, t) (rg_edges r) -> ~ before (rg_edges r) t d ->
  forall k, instance_dep k (RS (Some r) calls) t d = RFuel.
Proof. exact self_dep_hangs. Qed.
Print Assumptions C36_self_dependency_hangs_refuted.

(** ... and the builder is never executed. *)
Theorem C36_self_dependency_not_executed_refuted : forall w r log s t, In (t, t) (rg_edges r) ->
  xexec w (rg_built r) (rg_edges r) (x_init (rg_edges r)) log = Some s -> ~ In t (starts log).
Proof. exact self_dep_not_executed. Qed.
Print Assumptions C36_self_dependency_not_executed_refuted.

(** A program that depends on itself; Run succeeds without building it. *)
Definition prog1 : list api :=
  [AInit true; ABuild (ViaCall true) "a" "cb" []; ABuild (ViaCall true) "b" "cb" []; ADep true true "a" "a"].
Definition reg1 : reg := REG ["a"; "b"] [("a", "a")] [].
Example C36_case : registers 5 prog1 reg1 /\
  (exists s, xexec 4 (rg_built reg1) (rg_edges reg1) (x_init (rg_edges reg1)) [XStart "b"; XFinish "b" true] = Some s) /\
  reg_run (fun _ => None) [XStart "b"; XFinish "b" true] (fun x => x) (fun _ => true) [] = RunDone [] /\
  (forall k, instance_dep k (RS (Some reg1) []) "a" "b" = RFuel).
Proof.
  split; [eexists; vm_compute; reflexivity|]. split; [eexists; vm_compute; reflexivity|]. split; [reflexivity|].
  apply self_dep_hangs; cbn; auto; [intros [H|[]]; congruence|].
  intros H. assert (G : forall x y, before (rg_edges reg1) x y -> y = "a").
  { intros x y B. induction B as [? ? E|]; [destruct E as [E|[]]; congruence|assumption]. }
  apply G in H. discriminate.
Qed.

(** C37: with any number of workers and any schedule, all transitive
    dependencies of a builder have finished when it starts ... *)
Theorem C37_dependencies_first : forall w built g log s,
  xexec w built g (x_init g) log = Some s ->
  forall l1 t l2, log = l1 ++ XStart t :: l2 -> forall d, before g d t -> In d (finishes l1).
Proof. exact dependencies_first. Qed.
Print Assumptions C37_dependencies_first.

(** ... nothing is executed twice ... *)
Theorem C37_executed_once : forall w built g log s,
  xexec w built g (x_init g) log = Some s ->
  NoDup (starts log) /\ NoDup (finishes log) /\ incl (starts log) built.
Proof. exact executed_once. Qed.
Print Assumptions C37_executed_once.

(** ... and when the executor returns every registered builder has been executed. *)
Theorem C37_everything_executed : forall n prog r w log, registers n prog r -> (forall x, ~ In (x, x) (rg_edges r)) -> 0 < w ->
  executes w r log -> Permutation (finishes log) (rg_built r) /\ Permutation (starts log) (rg_built r).
Proof. exact everything_executed. Qed.
Print Assumptions C37_everything_executed.

(** Every partial execution can be completed; none is longer than two events
    per builder. *)
Theorem C37_execution_completes : forall w r log s,
  xexec w (rg_built r) (rg_edges r) (x_init (rg_edges r)) log = Some s -> exists more, executes w r (log ++ more).
Proof. exact execution_completes. Qed.
Print Assumptions C37_execution_completes.
Theorem C37_execution_bounded : forall w built g log s,
  xexec w built g (x_init g) log = Some s -> length log <= 2 * length built.
Proof. exact execution_bounded. Qed.
Print Assumptions C37_execution_bounded.

Definition log0 : list xev :=
  [XStart "gen"; XStart "sub"; XFinish "gen" true; XStart "lib"; XFinish "sub" true; XFinish "lib" true; XStart "app"; XFinish "app" true].
Example C37_case : registers 20 prog0 reg0 /\ executes 2 reg0 log0.
Proof.
  split; [exact registers0|]. eexists. split; [vm_compute; reflexivity|].
  intros [id|id ok]; cbn [xstep]; [|vm_compute; reflexivity].
  destruct (mem_str id (rg_built reg0)) eqn:M; [|reflexivity]. cbn in M.
  repeat (apply orb_true_iff in M as [M|M]); try discriminate; apply String.eqb_eq in M; subst id; vm_compute; reflexivity.
Qed.

(** C38: exactly what the conditions allow is registered and called. *)
Theorem C38_registered_exactly : forall n prog s,
  forallb stays_up prog = true -> run_apis n (AInit true :: prog) rs_init = RDone s ->
  s = RS (Some (REG (flat_map asked_builds prog) (flat_map asked_deps prog) (flat_map asked_tests prog)))
         (flat_map asked_calls prog).
Proof. exact registered_exactly. Qed.
Print Assumptions C38_registered_exactly.

Theorem C38_toolchain_off : forall n t s r, rs_inst s = Some r ->
  (forall name body, run_api n (AFunc (ViaToolchain false t) name body) s = RDone s) /\
  (forall id name body, run_api n (ABuild (ViaToolchain false t) id name body) s = RDone s) /\
  (forall x y, run_api n (ADep false t x y) s = RDone s) /\
  (forall x c a, run_api n (ATest false t x c a) s = RDone s) /\
  (forall x c a, run_api n (ATest t false x c a) s = RDone s).
Proof. exact toolchain_off. Qed.
Print Assumptions C38_toolchain_off.

Theorem C38_test_decides : forall n s r x c a, rs_inst s = Some r ->
  (In x (rg_built r) /\ ~ In x (map fst (rg_tests r)) ->
     run_api n (ATest true true x c a) s = RDone (RS (Some (REG (rg_built r) (rg_edges r) (rg_tests r ++ [(x, (c, a))]))) (rs_calls s))) /\
  (~ In x (rg_built r) \/ In x (map fst (rg_tests r)) -> run_api n (ATest true true x c a) s = RFatal s).
Proof. exact test_decides. Qed.
Print Assumptions C38_test_decides.

Theorem C38_unregistered_fatal : forall n s r x y, rs_inst s = Some r -> ~ (In x (rg_built r) /\ In y (rg_built r)) ->
  forall t, run_api n (ADep true t x y) s = RFatal s.
Proof. exact unregistered_fatal. Qed.
Print Assumptions C38_unregistered_fatal.

Theorem C38_duplicate_build_fatal : forall n s r h id name, rs_inst s = Some r -> enabled h = true -> In id (rg_built r) ->
  run_api n (ABuild h id name []) s = RFatal (log_call s name).
Proof. exact duplicate_build_fatal. Qed.
Print Assumptions C38_duplicate_build_fatal.

Theorem C38_uninitialised_fatal : forall n s a, rs_inst s = None ->
  (match a with AInit _ | ADeinit => False | _ => True end) -> run_api n a s = RFatal s.
Proof. exact uninitialised_fatal. Qed.
Print Assumptions C38_uninitialised_fatal.

Example C38_case : exists s, run_apis 20 prog0 rs_init = RDone s /\ forallb stays_up prog0 = true /\
  rs_inst s = Some reg0 /\ run_api 20 (ATest true true "lib" "x" []) s <> RFatal s /\
  run_api 20 (ADep true true "off" "app") s = RFatal s /\
  run_api 20 (ABuild (ViaCall true) "app" "again" []) s = RFatal (log_call s "again").
Proof.
  eexists. split; [vm_compute; reflexivity|]. split; [vm_compute; reflexivity|]. split; [vm_compute; reflexivity|].
  split; [|split; vm_compute; reflexivity]. vm_compute. discriminate.
Qed.

(** C54: Reg::Run reports success only if every registered builder finished
    successfully, and then every registered test has been executed once and succeeded;
    it stops before the tests iff a builder failed. *)
Theorem C54_run_reports : forall n prog r w other log exe res ord, registers n prog r -> (forall x, ~ In (x, x) (rg_edges r)) -> 0 < w ->
  executes w r log -> Permutation ord (rg_tests r) ->
  (forall tests, reg_run other log exe res ord = RunDone tests ->
     Permutation tests (map fst (rg_tests r)) /\ (forall id, In id (rg_built r) -> In (XFinish id true) log) /\
     (forall id cmd args, In (id, (cmd, args)) (rg_tests r) ->
        exists c, test_text other id (exe id) cmd args = Some c /\ c <> "" /\ res c = true)) /\
  (reg_run other log exe res ord = RunFatalBuild <-> exists id, In (XFinish id false) log).
Proof. exact run_reports. Qed.
Print Assumptions C54_run_reports.

Example C54_case : reg_run (fun _ => None) log0 (fun x => "/out/" +++ x) (String.eqb "/out/app -v") (rg_tests reg0) = RunDone ["app"] /\
  reg_run (fun _ => None) log0 (fun x => "/out/" +++ x) (fun _ => false) (rg_tests reg0) = RunFatalTest ["app"] /\
  reg_run (fun _ => None) [XStart "gen"; XFinish "gen" false] (fun x => x) (fun _ => true) (rg_tests reg0) = RunFatalBuild.
Proof. vm_compute. auto. Qed.

(** It fails at the first test that does not succeed: those before it were executed
    and succeeded, those after it are not executed. *)
Theorem C54_first_failing_test : forall other log exe res ord tests, reg_run other log exe res ord = RunFatalTest tests ->
  exists pre id cmd args post, ord = pre ++ (id, (cmd, args)) :: post /\ tests = map fst pre ++ [id] /\
    (forall i c a, In (i, (c, a)) pre -> exists t, test_text other i (exe i) c a = Some t /\ t <> "" /\ res t = true) /\
    ~ (exists t, test_text other id (exe id) cmd args = Some t /\ t <> "" /\ res t = true).
Proof. exact first_failing. Qed.
Print Assumptions C54_first_failing_test.
Example C54_case_failing : reg_run (fun _ => None) log0 (fun x => "/out/" +++ x) (String.eqb "/out/a -v")
    [("a", ("{executable} -v", [])); ("b", ("{executable}", [])); ("c", ("{executable}", []))] = RunFatalTest ["a"; "b"] /\
  reg_run (fun _ => None) log0 (fun x => "/out/" +++ x) (fun _ => true) [("a", ("{executable}", [])); ("b", ("{unknown}", []))] = RunFatalTest ["a"; "b"].
Proof. split; vm_compute; reflexivity. Qed.

(** The command of a test is its text with "{executable}", the path of the target,
    and the arguments given with the test; an unknown name is an exception. *)
Theorem C54_command_text : forall other id exe l args, Forall token_ok l ->
  test_text other id exe (render l) args = expand (fun k => first_value k (("executable", exe) :: args)) l.
Proof. exact test_text_exact. Qed.
Print Assumptions C54_command_text.
Example C54_case_text : Forall token_ok [Field "executable"; Lit " "; Field "x"] /\ render [Field "executable"; Lit " "; Field "x"] = "{executable} {x}" /\
  expand (fun k => first_value k [("executable", "/out/app"); ("x", "-v"); ("executable", "y")]) [Field "executable"; Lit " "; Field "x"] = Some "/out/app -v".
Proof. split; [apply tokens_okb_sound; reflexivity|]. split; reflexivity. Qed.
