(** C98 - C100: programs with targets and generators. *)
From Verif Require Import Prelude Proof_Prelude Model_Path Model_Schema Model_Command Model_Target Spec_Target Model_Gen Spec_Gen Proof_GenCase
  Model_Reg Spec_Reg Model_Project Spec_Project Proof_TargetCase Proof_ProjectCase
  Model_Full Spec_Full Proof_Full3 Proof_Full4 Proof_Full5 Proof_FullCase.

(** C98: a program of targets and generators whose registered dependencies cover
    all files that one builder writes and another one reads: after a successful
    Reg::Run, whatever happened before it and however the executor interleaved the
    steps of all builders, everything every registered target asked for is current
    and linked with the outputs of other targets on disk now, and the last callback
    of every id of every registered generator succeeded and was given the present
    inputs in their present versions, outputs and blob. *)
Theorem C98_program_with_generators_current : forall rg bd u8 mt0 l files gids pre w r run h F x n prog,
  (forall j, lawful (bd j)) -> fresh_full mt0 l gids ->
  fhistory rg bd u8 mt0 l files gids (pre ++ FP (PRun w r) :: run) h F -> Forall fundisturbed run ->
  registers n prog r -> (forall i, ~ In (i, i) (rg_edges r)) -> 0 < w ->
  p_run (f_proj F) = Some (w, r, x) -> x_over w (rg_built r) (rg_edges r) x -> p_ok (f_proj F) = true ->
  (forall id e st c, In (id, (e, st)) (p_targets (f_proj F)) -> In (id, c) (p_built (f_proj F)) -> In id (rg_built r) ->
     all_current e c (s_disk st) /\
     forall b eb sb, In (b, (eb, sb)) (p_targets (f_proj F)) -> In (out_file eb) (libs c ++ link_deps c) ->
       p_seen (f_proj F) id b = d_tgt (s_disk sb)) /\
  (forall j g o, In (j, g) (f_gens F) -> In (j, o) (f_objs F) -> In j (rg_built r) ->
     forall k gi, In (k, gi) (go_ids o) -> id_current (bd j) (gd_mt (g_disk g)) (g_disk g) k gi) /\
  one_time F.
Proof. exact full_run_current. Qed.
Print Assumptions C98_program_with_generators_current.

(** A generated header, a library, an application that uses both and a generator
    that packs the library: everything is made, a source of the library and the
    input of the header are edited, everything is made again by two workers. *)
Example C98_case : forall rg, exists h F,
  fhistory rg (fun _ => no_blobs) u80 files2 projF filesF gidsF
    ((registrationF ++ FP (PRun 2 regF) :: first_runF ++ editF) ++ FP (PRun 2 regF) :: second_runF) h F /\
  (forall j : string, lawful no_blobs) /\ fresh_full files2 projF gidsF /\ Forall fundisturbed second_runF /\
  registers 20 progF regF /\ (forall i, ~ In (i, i) (rg_edges regF)) /\
  (exists w r x, p_run (f_proj F) = Some (w, r, x) /\ x_over w (rg_built r) (rg_edges r) x) /\ p_ok (f_proj F) = true /\
  tlogs F = [4; 4] /\ glogs F = [2; 2].
Proof.
  intros rg.
  destruct (ffollow_case rg u80 files2 projF filesF gidsF
    ((registrationF ++ FP (PRun 2 regF) :: first_runF ++ editF) ++ FP (PRun 2 regF) :: second_runF)
    (fun F => overb (f_proj F) && p_ok (f_proj F) && nats_eqb (tlogs F) [4; 4] && nats_eqb (glogs F) [2; 2])) as (h & F & H & P).
  { vm_compute. reflexivity. }
  { destruct rg; vm_compute; reflexivity. }
  apply andb_true_iff in P as [P P4]. apply andb_true_iff in P as [P P3]. apply andb_true_iff in P as [P1 P2].
  apply nats_eqb_sound in P3, P4. exists h, F. split; [exact H|]. split; [intros _; exact no_blobs_lawful|]. split; [exact projF_fresh|].
  split; [repeat constructor|]. split; [exact regF_registers|]. split; [exact regF_no_loop|].
  split; [exact (overb_sound _ P1)|]. auto.
Qed.

(** The verdict of Reg::Run (C93) with generators. *)
Theorem C93_verdict_generators : forall rg bd u8 mt0 l files gids evs h F w r x,
  fresh_full mt0 l gids -> fhistory rg bd u8 mt0 l files gids evs h F ->
  p_run (f_proj F) = Some (w, r, x) -> x_over w (rg_built r) (rg_edges r) x ->
  p_ok (f_proj F) = build_succeeded (x_log x).
Proof. exact full_verdict. Qed.
Print Assumptions C93_verdict_generators.

(** C99: after such a run any number of further runs of the same program (with any
    numbers of workers and any interleaving, also runs that are killed) executes no
    command, invokes no callback and leaves all state files and artifacts as they
    are, as long as the user changes no tracked file and no input and deletes no
    state file. *)
Theorem C99_nothing_to_do_with_generators : forall rg bd u8 mt0 l files gids pre w r run h F x n prog evs F2,
  (forall j, lawful (bd j)) -> fresh_full mt0 l gids ->
  fhistory rg bd u8 mt0 l files gids (pre ++ FP (PRun w r) :: run) h F -> Forall fundisturbed run -> Forall ffull_writes run ->
  registers n prog r -> (forall i, ~ In (i, i) (rg_edges r)) -> 0 < w ->
  p_run (f_proj F) = Some (w, r, x) -> x_over w (rg_built r) (rg_edges r) x -> p_ok (f_proj F) = true ->
  incl (map fst (p_built (f_proj F))) (rg_built r) -> incl (map fst (f_objs F)) (rg_built r) ->
  (forall j o, In (j, o) (f_objs F) -> sane_handlers o) ->
  Forall (fagain (p_built (f_proj F)) (f_objs F)) evs -> fexec u8 F evs = Some F2 ->
  (forall id e st2 c, In (id, (e, st2)) (p_targets (f_proj F2)) -> In (id, c) (p_built (f_proj F)) ->
     exists st, In (id, (e, st)) (p_targets (f_proj F)) /\ s_log st2 = s_log st /\ same_outputs (s_disk st) (s_disk st2)) /\
  (forall j g2 o, In (j, g2) (f_gens F2) -> In (j, o) (f_objs F) ->
     exists g, In (j, g) (f_gens F) /\ g_log g2 = g_log g /\ gd_store (g_disk g2) = gd_store (g_disk g) /\ gd_made (g_disk g2) = gd_made (g_disk g)).
Proof. exact full_nothing_to_do. Qed.
Print Assumptions C99_nothing_to_do_with_generators.

Example C99_case : exists h F F2,
  fhistory Quiet (fun _ => no_blobs) u80 files2 projF filesF gidsF (registrationF ++ FP (PRun 2 regF) :: first_runF) h F /\
  Forall fundisturbed first_runF /\ Forall ffull_writes first_runF /\ (overb (f_proj F) && p_ok (f_proj F) = true) /\
  map fst (p_built (f_proj F)) = ["lib"; "app"] /\ f_objs F = [("gen", oGen); ("pack", oPack)] /\
  (forall j o, In (j, o) (f_objs F) -> sane_handlers o) /\
  fexec u80 F idleF = Some F2 /\ Forall (fagain (p_built (f_proj F)) (f_objs F)) idleF /\ overb (f_proj F2) && p_ok (f_proj F2) = true.
Proof.
  destruct (ffollow_case Quiet u80 files2 projF filesF gidsF (registrationF ++ FP (PRun 2 regF) :: first_runF)
    (fun F => overb (f_proj F) && p_ok (f_proj F) && built_eqb (p_built (f_proj F)) [("lib", cLib); ("app", cApp)] &&
       objs_eqb (f_objs F) [("gen", oGen); ("pack", oPack)] &&
       match fexec u80 F idleF with Some F2 => overb (f_proj F2) && p_ok (f_proj F2) | None => false end)) as (h & F & H & P).
  { vm_compute. reflexivity. }
  { vm_compute. reflexivity. }
  apply andb_true_iff in P as [P P4]. apply andb_true_iff in P as [P P3]. apply andb_true_iff in P as [P1 P2].
  apply fexec_case in P4 as (F2 & P4 & P5). apply built_eqb_sound in P2. apply objs_eqb_sound in P3. exists h, F, F2.
  split; [exact H|]. split; [repeat constructor|].
  split; [repeat (constructor; [cbn [ffull_writes]; first [exact Logic.I|intros ? ? ?; discriminate|intros ?; discriminate]|]); constructor|].
  split; [exact P1|]. split; [rewrite P2; reflexivity|]. split; [exact P3|]. split.
  { rewrite P3. intros j o [[= <- <-]|[[= <- <-]|[]]] k g hh [[= <- <-]|[]]; discriminate. }
  split; [exact P4|]. split; [|exact P5]. rewrite P2, P3.
  repeat (constructor; [cbn [fagain again]; first [exact Logic.I|split; [exact Logic.I|exact Logic.I]|split; [cbn; tauto|exact Logic.I]|cbn; tauto]|]). constructor.
Qed.

(** C100: once a builder has failed, a target or generator whose task has not begun
    executes no command, invokes no callback, leaves its state file and artifacts
    alone and does not report success. *)
Theorem C100_failure_stops_generators : forall rg bd u8 mt0 l files gids evs h F w r x rest F2,
  (forall j, lawful (bd j)) -> fresh_full mt0 l gids -> fhistory rg bd u8 mt0 l files gids evs h F ->
  p_run (f_proj F) = Some (w, r, x) -> p_ok (f_proj F) = false -> Forall fundisturbed rest -> fexec u8 F rest = Some F2 ->
  (forall id e st c st2, In (id, (e, st)) (p_targets (f_proj F)) -> In (id, c) (p_built (f_proj F)) -> ~ In id (starts (x_log x)) ->
     In (id, (e, st2)) (p_targets (f_proj F2)) -> s_ok st2 = false /\ s_log st2 = s_log st /\ same_outputs (s_disk st) (s_disk st2)) /\
  (forall j g o g2, In (j, g) (f_gens F) -> In (j, o) (f_objs F) -> ~ In j (starts (x_log x)) -> In (j, g2) (f_gens F2) ->
     g_ok g2 = false /\ g_log g2 = g_log g /\ gd_store (g_disk g2) = gd_store (g_disk g) /\ gd_made (g_disk g2) = gd_made (g_disk g)).
Proof. exact full_failure_stops. Qed.
Print Assumptions C100_failure_stops_generators.

(** The callback of the header fails; the packing and the application have not begun. *)
Example C100_case : exists h F F2,
  fhistory Quiet (fun _ => no_blobs) u80 files2 projF filesF gidsF (registrationF ++ FP (PRun 2 regF) :: failing_runF) h F /\
  p_ok (f_proj F) = false /\ Forall fundisturbed remaining_runF /\ fexec u80 F remaining_runF = Some F2 /\
  overb (f_proj F2) = true /\ p_ok (f_proj F2) = false /\ tlogs F2 = [0; 0] /\ glogs F2 = [1; 0] /\
  match p_run (f_proj F) with Some (_, _, x) => starts (x_log x) | None => [] end = ["gen"; "lib"].
Proof.
  destruct (ffollow_case Quiet u80 files2 projF filesF gidsF (registrationF ++ FP (PRun 2 regF) :: failing_runF)
    (fun F => negb (p_ok (f_proj F)) && str_list_eqb match p_run (f_proj F) with Some (_, _, x) => starts (x_log x) | None => [] end ["gen"; "lib"] &&
       match fexec u80 F remaining_runF with
       | Some F2 => overb (f_proj F2) && negb (p_ok (f_proj F2)) && nats_eqb (tlogs F2) [0; 0] && nats_eqb (glogs F2) [1; 0]
       | None => false end)) as (h & F & H & P).
  { vm_compute. reflexivity. }
  { vm_compute. reflexivity. }
  apply andb_true_iff in P as [P P3]. apply andb_true_iff in P as [P1 P2]. apply negb_true_iff in P1. apply str_list_eqb_eq in P2.
  apply fexec_case in P3 as (F2 & X & P3). apply andb_true_iff in P3 as [P3 P6]. apply andb_true_iff in P3 as [P3 P5].
  apply andb_true_iff in P3 as [P3 P4]. apply negb_true_iff in P4. apply nats_eqb_sound in P5, P6. exists h, F, F2.
  split; [exact H|]. split; [exact P1|]. split; [repeat constructor|]. split; [exact X|]. split; [exact P3|]. split; [exact P4|].
  split; [exact P5|]. split; [exact P6|exact P2].
Qed.
