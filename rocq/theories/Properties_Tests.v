(** C109 - C112: the callback and the tests of Reg::Run. *)
From Coq Require Import Permutation Lia.
From Verif Require Import Prelude Model_Command Model_Target Model_Args Model_Reg Model_Tests Spec_Tests Spec_Reg Proof_Tests2.

(** Two tests: what they print is kept by the runner, or goes to a vector. *)
Definition prog1 : list api :=
  [AInit true; ABuild (ViaCall true) "app" "a" []; ABuild (ViaCall true) "lib" "l" []; ADep true true "app" "lib";
   ATest true true "app" "{executable} {x}" [("x", "-v")]; ATest true true "lib" "{executable}" []].
Definition reg1 : reg := REG ["app"; "lib"] [("lib", "app")] [("app", ("{executable} {x}", [("x", "-v")])); ("lib", ("{executable}", []))].
Definition exe1 (id : string) : string := "/out/" +++ id.
Definition dir1 (id : string) : option string := if String.eqb id "app" then Some "/data" else None.
Definition out1 (id : string) : test_output := if String.eqb id "app" then default_output else OUT UserRedirect (Some 0) None.
Definition none (_ : string) : option string := None.
Definition empty (_ : nat) : list string := [].
Definition go1 : list vevent :=
  [VBuilt true; VCallback; VTest (QStart "lib"); VTest (QStart "app"); VTest (QWrite "app" false "1 passed"); VTest (QWrite "lib" false "x");
   VTest (QWrite "lib" true "warn"); VTest (QExit "app" true); VTest (QExit "lib" true); VReturn].
Definition tests1 : list test := rev (tests_of reg1 exe1 dir1 out1).
Example registers1 : registers 20 prog1 reg1.
Proof. exists ["a"; "l"]. vm_compute. reflexivity. Qed.
Example any_order1 : Permutation tests1 (tests_of reg1 exe1 dir1 out1).
Proof. apply Permutation_sym, Permutation_rev. Qed.

(** C109: no test is started, and the callback is not called, unless everything was
    built; the callback comes before all tests and is called once. *)
Theorem C109_after_the_build : forall n prog r exe dir out tests, registers n prog r -> Permutation tests (tests_of r exe dir out) ->
  forall w lv other cb users evs s, reg_run_tests w lv other cb tests users evs = Some s ->
  (forall a e b, evs = a ++ VTest e :: b -> In (VBuilt true) a /\ (cb = true -> In VCallback a)) /\
  (forall a b, evs = a ++ VCallback :: b -> cb = true /\ a = [VBuilt true]).
Proof. intros n prog r exe dir out tests _ _. exact (reg_tests_after tests). Qed.
Print Assumptions C109_after_the_build.

(** No test has two processes, and nothing else is executed. *)
Theorem C109_at_most_once : forall n prog r exe dir out tests, registers n prog r -> Permutation tests (tests_of r exe dir out) ->
  forall w lv other cb users evs s, reg_run_tests w lv other cb tests users evs = Some s ->
  forall id, length (processes id s) <= 1 /\ (processes id s <> [] -> In id (map fst (rg_tests r))).
Proof.
  intros n prog r exe dir out tests R P w lv other cb users evs s H id.
  exact (conj (processes_once n prog r exe dir out tests R P w lv other cb users evs s H id) (processes_only n prog r exe dir out tests R P w lv other cb users evs s H id)).
Qed.
Print Assumptions C109_at_most_once.

(** When Run returns, everything was built and every registered test was executed
    once, with the command it was registered with and in its directory, and succeeded. *)
Theorem C109_returns : forall n prog r exe dir out tests, registers n prog r -> Permutation tests (tests_of r exe dir out) ->
  forall w lv other cb users evs s, reg_run_tests w lv other cb tests users evs = Some s -> v_phase s = Returned ->
  In (VBuilt true) evs /\
  forall id cmd args, In (id, (cmd, args)) (rg_tests r) ->
    exists c, test_text other id (exe id) cmd args = Some c /\ c <> "" /\ processes id s = [(c, dir id)] /\
      In (VTest (QExit id true)) evs /\ ~ In (VTest (QExit id false)) evs.
Proof. exact reg_returned. Qed.
Print Assumptions C109_returns.

(** The program is ended by a failed build, a failed test, or a test without a
    command, and by nothing else. *)
Theorem C109_ends : forall n prog r exe dir out tests, registers n prog r -> Permutation tests (tests_of r exe dir out) ->
  forall w lv other cb users evs s, reg_run_tests w lv other cb tests users evs = Some s ->
  (v_phase s = Ended <->
   In (VBuilt false) evs \/ exists id cmd args, In (id, (cmd, args)) (rg_tests r) /\
     (In (VTest (QExit id false)) evs \/
      In (VTest (QStart id)) evs /\ (test_text other id (exe id) cmd args = None \/ test_text other id (exe id) cmd args = Some ""))).
Proof. exact reg_ended. Qed.
Print Assumptions C109_ends.

(** No more tests run at once than there are workers. *)
Theorem C109_workers : forall w lv other cb tests users evs s,
  reg_run_tests w lv other cb tests users evs = Some s -> v_phase s <> Ended -> begun evs <= over evs + w.
Proof. exact run_workers. Qed.
Print Assumptions C109_workers.

(** Until then the run can go on. *)
Theorem C109_goes_on : forall n prog r exe dir out tests, registers n prog r -> Permutation tests (tests_of r exe dir out) ->
  forall w lv other cb users evs s, reg_run_tests w lv other cb tests users evs = Some s ->
  0 < w -> v_phase s <> Returned -> v_phase s <> Ended ->
  exists ev s', reg_run_tests w lv other cb tests users (evs ++ [ev]) = Some s'.
Proof. exact reg_progress. Qed.
Print Assumptions C109_goes_on.

Example C109_case : exists s, reg_run_tests 2 Info none true tests1 empty go1 = Some s /\ v_phase s = Returned /\
  processes "app" s = [("/out/app -v", Some "/data")] /\ processes "lib" s = [("/out/lib", None)] /\
  seen "app" s = [Line "[TestRunner]: Testing 'app'"; Line "[STDOUT: app]: 1 passed"; Line "[STDERR: app]: "] /\
  seen "lib" s = [Line "[TestRunner]: Testing 'lib'"; Direct true "warn"] /\ q_users (v_tests s) 0 = ["x"].
Proof. eexists. split; [vm_compute; reflexivity|]. vm_compute. auto 10. Qed.
(** With one worker the second test waits; a failure ends the program. *)
Example C109_case_failure :
  reg_run_tests 1 Info none false tests1 empty [VBuilt true; VTest (QStart "lib"); VTest (QStart "app")] = None /\
  exists s, reg_run_tests 1 Info none false tests1 empty [VBuilt true; VTest (QStart "lib"); VTest (QExit "lib" false)] = Some s /\ v_phase s = Ended /\
    processes "app" s = [].
Proof. split; [reflexivity|]. eexists. split; [vm_compute; reflexivity|]. vm_compute. auto. Qed.

(** C110: what is seen of a test that succeeds: the announcement, what it writes to
    streams that are left to it, and then, unless the log level hides it, the kept
    output - the pieces in which it arrived, with blanks in between. *)
Theorem C110_seen : forall n prog r exe dir out tests, registers n prog r -> Permutation tests (tests_of r exe dir out) ->
  forall w lv other cb users evs s, reg_run_tests w lv other cb tests users evs = Some s ->
  forall id cmd args, In (id, (cmd, args)) (rg_tests r) -> In (VTest (QExit id true)) evs ->
  exists c, test_text other id (exe id) cmd args = Some c /\
    seen id s = announced lv id c ++ wrote_directly (out id) id evs ++
      when (info_shown lv) (logged (o_type (out id)) id (join " " (wrote id false evs)) (join " " (wrote id true evs))).
Proof. exact reg_seen. Qed.
Print Assumptions C110_seen.

(** So it is the text the test wrote if each kept stream arrives in one piece. Missing
    for the full property: output in several pieces, log levels above Info. *)
Theorem C110_text_partial : forall n prog r exe dir out tests, registers n prog r -> Permutation tests (tests_of r exe dir out) ->
  forall w lv other cb users evs s, reg_run_tests w lv other cb tests users evs = Some s ->
  forall id cmd args, In (id, (cmd, args)) (rg_tests r) -> In (VTest (QExit id true)) evs -> info_shown lv = true ->
  (forall err, is_kept (o_type (out id)) err = true -> length (wrote id err evs) <= 1) ->
  exists c, test_text other id (exe id) cmd args = Some c /\
    seen id s = announced lv id c ++ wrote_directly (out id) id evs ++
      map Line (logged (o_type (out id)) id (text (wrote id false evs)) (text (wrote id true evs))).
Proof. exact reg_seen_text. Qed.
Print Assumptions C110_text_partial.

Example C110_case : exists s, reg_run_tests 2 Info none true tests1 empty go1 = Some s /\ In (VTest (QExit "app" true)) go1 /\
  wrote "app" false go1 = ["1 passed"] /\ wrote "app" true go1 = [] /\ is_kept (o_type (out1 "app")) false = true.
Proof. eexists. split; [vm_compute; reflexivity|]. split; [cbn; tauto|]. vm_compute. auto. Qed.

(** A test prints "12 passed"; it arrives as "1" and "2 passed" and is shown as
    "1 2 passed". *)
Theorem C110_pieces_refuted : exists evs s, reg_run_tests 2 Info none false tests1 empty evs = Some s /\ v_phase s = Returned /\
  text (wrote "app" false evs) = "12 passed" /\
  In (Line "[STDOUT: app]: 1 2 passed") (seen "app" s) /\ ~ In (Line "[STDOUT: app]: 12 passed") (seen "app" s).
Proof.
  exists [VBuilt true; VTest (QStart "lib"); VTest (QStart "app"); VTest (QWrite "app" false "1"); VTest (QWrite "app" false "2 passed");
          VTest (QExit "app" true); VTest (QExit "lib" true); VReturn].
  eexists. split; [vm_compute; reflexivity|]. split; [reflexivity|]. split; [reflexivity|]. split; [vm_compute; auto|].
  vm_compute. intros [H|[H|[H|[]]]]; discriminate H.
Qed.
Print Assumptions C110_pieces_refuted.
(** With the log level Warning nothing of a kept output is shown, whatever the test writes. *)
Theorem C110_hidden_refuted : forall n prog r exe dir out tests, registers n prog r -> Permutation tests (tests_of r exe dir out) ->
  forall w other cb users evs s, reg_run_tests w Warning other cb tests users evs = Some s ->
  forall id cmd args, In (id, (cmd, args)) (rg_tests r) -> In (VTest (QExit id true)) evs -> out id = default_output ->
  seen id s = [].
Proof. exact reg_hidden. Qed.
Print Assumptions C110_hidden_refuted.
Example C110_hidden_case : exists s, reg_run_tests 2 Warning none true tests1 empty go1 = Some s /\ In (VTest (QExit "app" true)) go1 /\
  out1 "app" = default_output /\ wrote "app" false go1 = ["1 passed"].
Proof. eexists. split; [vm_compute; reflexivity|]. split; [cbn; tauto|]. vm_compute. auto. Qed.

(** C111: what is seen of a test that fails: nothing that was kept. *)
Theorem C111_seen : forall n prog r exe dir out tests, registers n prog r -> Permutation tests (tests_of r exe dir out) ->
  forall w lv other cb users evs s, reg_run_tests w lv other cb tests users evs = Some s ->
  forall id cmd args, In (id, (cmd, args)) (rg_tests r) -> In (VTest (QExit id false)) evs ->
  exists c, test_text other id (exe id) cmd args = Some c /\
    seen id s = announced lv id c ++ wrote_directly (out id) id evs ++ [Line ("[assert]: Could not run " +++ id)].
Proof. exact reg_failed. Qed.
Print Assumptions C111_seen.

(** It is all shown if no stream is redirected. Missing for the full property: the
    other kinds of output, among them the default of TestConfig. *)
Theorem C111_not_redirected_partial : forall n prog r exe dir out tests, registers n prog r -> Permutation tests (tests_of r exe dir out) ->
  forall w lv other cb users evs s, reg_run_tests w lv other cb tests users evs = Some s ->
  forall id cmd args, In (id, (cmd, args)) (rg_tests r) -> In (VTest (QExit id false)) evs -> o_type (out id) = DefaultBehaviour ->
  forall err x, In x (wrote id err evs) -> In (Direct err x) (seen id s).
Proof. exact reg_failed_default. Qed.
Print Assumptions C111_not_redirected_partial.

Definition fail1 : list vevent :=
  [VBuilt true; VTest (QStart "app"); VTest (QWrite "app" false "expected 1"); VTest (QWrite "app" true "got 2"); VTest (QExit "app" false)].
Example C111_case : exists s, reg_run_tests 2 Info none false (tests_of reg1 exe1 dir1 (fun _ => OUT DefaultBehaviour None None)) empty fail1 = Some s /\
  seen "app" s = [Line "[TestRunner]: Testing 'app'"; Direct false "expected 1"; Direct true "got 2"; Line "[assert]: Could not run app"].
Proof. eexists. split; vm_compute; reflexivity. Qed.

(** With the default output, what a failing test wrote is never shown. *)
Theorem C111_failures_silent_refuted : exists evs s, reg_run_tests 2 Trace none false tests1 empty evs = Some s /\
  out1 "app" = default_output /\ In (VTest (QExit "app" false)) evs /\ wrote "app" false evs = ["expected 1"] /\ wrote "app" true evs = ["got 2"] /\
  seen "app" s = [Line "[TestRunner]: Testing 'app'"; Line "[system]: /out/app -v"; Line "[assert]: Could not run app"].
Proof.
  exists fail1. eexists. split; [vm_compute; reflexivity|]. split; [reflexivity|]. split; [cbn; tauto|]. vm_compute. auto.
Qed.
Print Assumptions C111_failures_silent_refuted.

(** C112: a vector that is given to one stream of one test gets exactly what the test
    writes there, after what it held ... *)
Theorem C112_own_vector_partial : forall n prog r exe dir out tests, registers n prog r -> Permutation tests (tests_of r exe dir out) ->
  forall w lv other cb users evs s, reg_run_tests w lv other cb tests users evs = Some s ->
  forall id cmd args (err : bool) v, In (id, (cmd, args)) (rg_tests r) ->
  o_type (out id) = UserRedirect /\ (if err then o_stderr (out id) else o_stdout (out id)) = Some v ->
  (forall (id' : string) (err' : bool), In id' (map fst (rg_tests r)) -> o_type (out id') = UserRedirect ->
     (if err' then o_stderr (out id') else o_stdout (out id')) = Some v -> id' = id /\ err' = err) ->
  q_users (v_tests s) v = users v ++ wrote id err evs.
Proof. exact reg_users. Qed.
Print Assumptions C112_own_vector_partial.

(** ... and other vectors are left alone. *)
Theorem C112_other_vectors : forall n prog r exe dir out tests, registers n prog r -> Permutation tests (tests_of r exe dir out) ->
  forall w lv other cb users evs s, reg_run_tests w lv other cb tests users evs = Some s ->
  forall v, (forall (id : string) (err : bool), In id (map fst (rg_tests r)) -> o_type (out id) = UserRedirect ->
     (if err then o_stderr (out id) else o_stdout (out id)) <> Some v) ->
  q_users (v_tests s) v = users v.
Proof. exact reg_users_kept. Qed.
Print Assumptions C112_other_vectors.

Example C112_case : (forall (id : string) (err : bool), In id (map fst (rg_tests reg1)) -> o_type (out1 id) = UserRedirect ->
    (if err then o_stderr (out1 id) else o_stdout (out1 id)) = Some 0 -> id = "lib" /\ err = false) /\
  exists s, reg_run_tests 2 Info none true tests1 (fun _ => ["old"]) go1 = Some s /\ q_users (v_tests s) 0 = ["old"; "x"] /\ q_users (v_tests s) 1 = ["old"].
Proof.
  split.
  - intros id err [<-|[<-|[]]] A B; [discriminate A|]. destruct err; [discriminate B|]. auto.
  - eexists. split; [vm_compute; reflexivity|]. vm_compute. auto.
Qed.

(** One vector for two tests: their output is mixed. *)
Theorem C112_shared_vector_refuted : exists evs s,
  reg_run_tests 2 Info none false (tests_of reg1 exe1 dir1 (fun _ => OUT UserRedirect (Some 0) None)) empty evs = Some s /\ v_phase s = Returned /\
  wrote "app" false evs = ["a1"; "a2"] /\ q_users (v_tests s) 0 = ["a1"; "l"; "a2"].
Proof.
  exists [VBuilt true; VTest (QStart "lib"); VTest (QStart "app"); VTest (QWrite "app" false "a1"); VTest (QWrite "lib" false "l");
          VTest (QWrite "app" false "a2"); VTest (QExit "app" true); VTest (QExit "lib" true); VReturn].
  eexists. split; [vm_compute; reflexivity|]. vm_compute. auto.
Qed.
Print Assumptions C112_shared_vector_refuted.
