(** C92 - C95: programs with several targets and generators. *)
From Verif Require Import Prelude Proof_Prelude Model_Path Model_Schema Model_Command Model_Target Spec_Target Model_Reg Spec_Reg
  Model_Project Spec_Project Proof_Project4 Proof_Project5 Proof_TargetCase Proof_ProjectCase.

(** C92: a program whose registered dependencies cover all files that one builder
    writes and another one tracks: after a successful Reg::Run, whatever happened
    before it and however the executor interleaved the builders, everything every
    registered target asked for is current, and each target was linked with
    exactly those outputs of other targets that are on disk now. *)
Theorem C92_whole_program_current : forall rg mt0 l gens pre w r run h p x n prog,
  fresh_project mt0 l -> phistory rg l gens (pre ++ PRun w r :: run) h p -> Forall undisturbed_run run ->
  registers n prog r -> (forall i, ~ In (i, i) (rg_edges r)) -> 0 < w ->
  p_run p = Some (w, r, x) -> x_over w (rg_built r) (rg_edges r) x -> p_ok p = true ->
  forall id e st c, In (id, (e, st)) (p_targets p) -> In (id, c) (p_built p) -> In id (rg_built r) ->
    all_current e c (s_disk st) /\
    forall b eb sb, In (b, (eb, sb)) (p_targets p) -> In (out_file eb) (libs c ++ link_deps c) ->
      p_seen p id b = d_tgt (s_disk sb).
Proof. exact whole_run_current. Qed.
Print Assumptions C92_whole_program_current.

(** A library, an application linked with it, a generated header: built, the
    library's source edited, built again by two workers. The second link of the
    application is the third command executed for it. *)
Example C92_case : exists h p,
  phistory Forward proj gens1 ((registration ++ PRun 2 reg1 :: first_run ++ edit_lib) ++ PRun 2 reg1 :: second_run) h p /\
  fresh_project files1 proj /\ Forall undisturbed_run second_run /\
  registers 20 (prog1 [ADep true true "app" "lib"; ADep true true "app" "gen"]) reg1 /\
  (forall i, ~ In (i, i) (rg_edges reg1)) /\
  (exists w r x, p_run p = Some (w, r, x) /\ x_over w (rg_built r) (rg_edges r) x) /\ p_ok p = true /\
  map (fun y => length (s_log (snd (snd y)))) (p_targets p) = [4; 3] /\ In (out_file eL) (libs cApp).
Proof.
  destruct (pfollow_case Forward proj gens1 ((registration ++ PRun 2 reg1 :: first_run ++ edit_lib) ++ PRun 2 reg1 :: second_run)
    (fun p => overb p && p_ok p && match map (fun y => length (s_log (snd (snd y)))) (p_targets p) with [4; 3] => true | _ => false end))
    as (h & p & H & P).
  { vm_compute. reflexivity. }
  apply andb_true_iff in P as [P P3]. apply andb_true_iff in P as [P1 P2]. exists h, p. split; [exact H|]. split; [exact proj_fresh|].
  split; [repeat constructor|]. split; [exact reg1_registers|]. split; [exact reg1_no_loop|].
  split; [exact (overb_sound p P1)|]. split; [exact P2|]. split; [|vm_compute; left; reflexivity].
  destruct (map _ (p_targets p)) as [|[|[|[|[|[|]]]]] [|[|[|[|[|]]]] [|]]]; try discriminate; reflexivity.
Qed.

(** Without the dependency it is false: the same program without the call
    [Dep(app, lib)] (all else as before). In the run after the edit of the library
    the executor happens to take the application first; the run succeeds and the
    application remains linked with the previous library. *)
Theorem C92_dependency_needed_refuted : forall rg, exists h0 p0 p x e st eb sb,
  fresh_project files1 proj /\ registers 20 (prog1 [ADep true true "app" "gen"]) reg2 /\
  phistory rg proj gens1 (registration ++ PRun 2 reg1 :: first_run ++ edit_lib) h0 p0 /\
  pexec p0 (PRun 2 reg2 :: gen_idle ++ idle_steps "app" ++ build_steps "lib" "/p/l.cpp" true 6) = Some p /\
  p_run p = Some (2, reg2, x) /\ x_over 2 (rg_built reg2) (rg_edges reg2) x /\ p_ok p = true /\
  In ("app", (e, st)) (p_targets p) /\ In ("app", cApp) (p_built p) /\ In ("lib", (eb, sb)) (p_targets p) /\
  In (out_file eb) (libs cApp) /\ d_tgt (s_disk sb) <> None /\ p_seen p "app" "lib" <> d_tgt (s_disk sb).
Proof. exact unwired_stale. Qed.
Print Assumptions C92_dependency_needed_refuted.

(** C93: what Reg::Run looks at when the graph has been executed (the global task
    state) is SUCCESS exactly if every builder's task reported success. *)
Theorem C93_verdict : forall rg mt0 l gens evs h p w r x,
  fresh_project mt0 l -> phistory rg l gens evs h p ->
  p_run p = Some (w, r, x) -> x_over w (rg_built r) (rg_edges r) x ->
  p_ok p = build_succeeded (x_log x).
Proof. exact verdict. Qed.
Print Assumptions C93_verdict.

(** C94: after such a run any number of further runs of the same program (with
    any numbers of workers and any interleaving, also runs that are killed)
    executes no command for any target and leaves all state files and artifacts
    as they are, as long as no tracked file changes and no state file is
    deleted. *)
Theorem C94_nothing_to_do : forall rg mt0 l gens pre w r run h p x n prog evs p2,
  fresh_project mt0 l -> phistory rg l gens (pre ++ PRun w r :: run) h p ->
  Forall undisturbed_run run -> Forall full_writes run ->
  registers n prog r -> (forall i, ~ In (i, i) (rg_edges r)) -> 0 < w ->
  p_run p = Some (w, r, x) -> x_over w (rg_built r) (rg_edges r) x -> p_ok p = true ->
  incl (map fst (p_built p)) (rg_built r) ->
  Forall (again (p_built p)) evs -> pexec p evs = Some p2 ->
  forall id e st2 c, In (id, (e, st2)) (p_targets p2) -> In (id, c) (p_built p) ->
    exists st, In (id, (e, st)) (p_targets p) /\ s_log st2 = s_log st /\ same_outputs (s_disk st) (s_disk st2).
Proof. exact nothing_to_do. Qed.
Print Assumptions C94_nothing_to_do.

Definition idle_program : list pevent :=
  PStop [] :: registration ++ PRun 3 reg1 :: gen_idle ++ idle_steps "lib" ++ idle_steps "app".
Example C94_case : exists h p p2,
  phistory Quiet proj gens1 (registration ++ PRun 2 reg1 :: first_run) h p /\ Forall undisturbed_run first_run /\
  Forall full_writes first_run /\ (overb p && p_ok p = true) /\ map fst (p_built p) = ["lib"; "app"] /\
  pexec p idle_program = Some p2 /\ Forall (again (p_built p)) idle_program /\ overb p2 && p_ok p2 = true.
Proof.
  destruct (pfollow_case Quiet proj gens1 (registration ++ PRun 2 reg1 :: first_run)
    (fun p => overb p && p_ok p && match p_built p with [("lib", c1); ("app", c2)] => cfg_eqb c1 cLib && cfg_eqb c2 cApp | _ => false end &&
       match pexec p idle_program with Some p2 => overb p2 && p_ok p2 | None => false end)) as (h & p & H & P).
  { vm_compute. reflexivity. }
  apply andb_true_iff in P as [P P3]. apply andb_true_iff in P as [P1 P2]. apply pexec_case in P3 as (p2 & P3 & P4).
  assert (B : p_built p = [("lib", cLib); ("app", cApp)]).
  { destruct (p_built p) as [|[i c1] [|[j c2] [|]]]; cbn in P2; repeat match type of P2 with context [match ?s with EmptyString => _ | _ => _ end] => destruct s; try discriminate
      | context [if ?b then _ else _] => is_var b; destruct b; try discriminate | context [match ?a with Ascii.Ascii _ _ _ _ _ _ _ _ => _ end] => destruct a end; try discriminate.
    all: apply andb_true_iff in P2 as [Q1 Q2]; apply cfg_eqb_sound in Q1, Q2; subst; reflexivity. }
  exists h, p, p2. split; [exact H|]. split; [repeat constructor|].
  split; [repeat (constructor; [intros ? ? ?; discriminate|]); constructor|]. split; [exact P1|]. split; [rewrite B; reflexivity|].
  split; [exact P3|]. split; [|exact P4]. rewrite B. repeat (constructor; [first [exact Logic.I|cbn; tauto]|]). constructor.
Qed.

(** C95: once a builder has failed, a target whose task has not begun executes no
    command, leaves its state file and artifacts alone and does not report
    success. *)
Theorem C95_failure_stops : forall rg mt0 l gens evs h p w r x rest p2 id e st c,
  fresh_project mt0 l -> phistory rg l gens evs h p -> p_run p = Some (w, r, x) -> p_ok p = false ->
  In (id, (e, st)) (p_targets p) -> In (id, c) (p_built p) -> ~ In id (starts (x_log x)) ->
  Forall undisturbed_run rest -> pexec p rest = Some p2 ->
  forall st2, In (id, (e, st2)) (p_targets p2) ->
    s_ok st2 = false /\ s_log st2 = s_log st /\ same_outputs (s_disk st) (s_disk st2).
Proof. exact failure_stops. Qed.
Print Assumptions C95_failure_stops.

(** The library does not compile; the application's turn comes afterwards. *)
Definition failing_run : list pevent :=
  gen_steps 2 ++ [PBegin "lib"; PStep "lib" EvObjCheck None; PStep "lib" (EvCompile "/p/l.cpp" (XFail None)) None].
Definition remaining_run : list pevent :=
  [PStep "lib" EvLinkCheck None; PStep "lib" (EvEnd WOk) None; PEnd "lib" false;
   PBegin "app"; PStep "app" EvObjCheck None; PStep "app" EvLinkCheck None; PStep "app" (EvEnd WOk) None; PEnd "app" false].
Example C95_case : exists h p p2,
  phistory Quiet proj gens1 (registration ++ PRun 2 reg1 :: failing_run) h p /\ p_ok p = false /\
  pexec p remaining_run = Some p2 /\ Forall undisturbed_run remaining_run /\ overb p2 = true /\ p_ok p2 = false /\
  match p_run p2 with Some (_, _, x) => build_succeeded (x_log x) | None => true end = false.
Proof.
  destruct (pfollow_case Quiet proj gens1 (registration ++ PRun 2 reg1 :: failing_run)
    (fun p => negb (p_ok p) && match pexec p remaining_run with
       | Some p2 => overb p2 && negb (p_ok p2) && negb (match p_run p2 with Some (_, _, x) => build_succeeded (x_log x) | None => true end)
       | None => false end)) as (h & p & H & P).
  { vm_compute. reflexivity. }
  apply andb_true_iff in P as [P1 P2]. apply pexec_case in P2 as (p2 & P2 & P3). apply andb_true_iff in P3 as [P3 P5].
  apply andb_true_iff in P3 as [P3 P4]. apply negb_true_iff in P1, P4, P5. exists h, p, p2.
  split; [exact H|]. split; [exact P1|]. split; [exact P2|]. split; [repeat constructor|]. auto.
Qed.
