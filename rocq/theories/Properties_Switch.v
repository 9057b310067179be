(** C08: the part that holds when the options change around a crash. *)
From Verif Require Import Prelude Model_Path Model_Json Model_Schema Model_Command Spec_Command Model_ToolchainConfig
  Model_Target Spec_Target Proof_TargetCase Spec_Switch Proof_Switch.

(** From any state of the disk, left by any runs, crashes and tools whatsoever: if
    the options of a successful run are not the recorded ones, or nothing is
    recorded, everything is current afterwards. *)
Theorem C08_changed_options_partial : forall e st0 c ord run w st,
  templates_ok e -> NoDup (map (obj_of e) (sources c)) -> Forall own run ->
  (forall l, stored (s_disk st0) = Some l -> recorded_otherwise l c) ->
  exec e st0 (EvStart c ord :: run ++ [EvEnd w]) = Some st -> s_ok st = true ->
  all_current e c (s_disk st).
Proof. exact changed_options. Qed.
Print Assumptions C08_changed_options_partial.

(** Built with -O1, killed in a build with -O2 after one object and in one with a
    PCH after another, an object truncated by a failing compiler; then a complete
    build with -O2. *)
Example C08_partial_case : exists st0 l st,
  exec e0 (init disk0)
    (full_run cA ordA ordA ++
     [EvStart cB ordA; EvObjCheck; EvCompile "/p/a.cpp" XOk; EvCrash] ++
     [EvStart cP ordA; EvPchCheck; EvPchExec XOk; EvObjCheck; EvCompile "/p/b.cpp" XOk;
      EvCompile "/p/a.cpp" (XFail None); EvCrash]) = Some st0 /\
  stored (s_disk st0) = Some l /\ recorded_otherwise l cB /\
  exec e0 st0 (full_run cB ordA ordA) = Some st /\ s_ok st = true.
Proof.
  eexists. eexists. eexists. split; [vm_compute; reflexivity|]. split; [vm_compute; reflexivity|].
  split; [right; left; cbn; discriminate|]. split; [vm_compute; reflexivity|]. reflexivity.
Qed.
