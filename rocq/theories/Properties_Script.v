(** C104, C105: build scripts. *)
From Verif Require Import Prelude Proof_Prelude Model_Path Model_Schema Model_Command Model_Target Spec_Target Model_Gen Spec_Gen Proof_GenCase
  Model_Sync Spec_Sync Model_Api Spec_Api Model_Reg Spec_Reg Model_Project Spec_Project Proof_TargetCase Proof_ProjectCase
  Model_Full Spec_Full Proof_Full3 Proof_Full4 Proof_FullCase Model_Script Spec_Script Proof_Script Proof_ScriptCase.

(** C104: a built target tracks a file only if the script told it so: by a call on
    the target itself, or by a call on an object from which the option was copied
    or inserted, directly or through others. *)
Theorem C104_only_what_was_told : forall objects s st i u f,
  new_objects objects -> script_run (SS objects []) s = SOk st -> In (i, u) (ss_built st) -> In f (tracked (cfg_of u)) ->
  exists x, file_option x = true /\ told objects s i x f.
Proof. exact only_told. Qed.
Print Assumptions C104_only_what_was_told.

(** The application gets a header from a TargetInfo. *)
Example C104_case : exists st u, new_objects objectsS /\ script_run (SS objectsS []) scriptS = SOk st /\ In ("app", u) (ss_built st) /\
  tracked (cfg_of u) = ["/p/a.cpp"; "/p/g.h"; "/p/_b/l/l.a"].
Proof. do 2 eexists. split; [exact newS|]. split; [vm_compute; reflexivity|]. split; [right; left; reflexivity|]. vm_compute. reflexivity. Qed.

(** C105: if every file that a target is told or a generator reads and that another
    registered builder writes is covered by a registered dependency, then after
    every successful Reg::Run of the script, whatever happened before it, all
    registered targets and generators are current (as in C98). Nothing is assumed
    about what the targets hold: that follows from the calls of the script. *)
Theorem C105_covered_script_current : forall rg bd u8 mt0 l files gids objects (sessions : session -> Prop) pre w r run h F x n prog,
  (forall j, lawful (bd j)) -> fresh_full mt0 l gids -> new_objects objects -> (forall se, sessions se -> covered objects l files se) ->
  shistory rg bd u8 mt0 l files gids objects sessions (pre ++ FP (PRun w r) :: run) h F -> Forall fundisturbed run ->
  registers n prog r -> (forall i, ~ In (i, i) (rg_edges r)) -> 0 < w ->
  p_run (f_proj F) = Some (w, r, x) -> x_over w (rg_built r) (rg_edges r) x -> p_ok (f_proj F) = true ->
  (forall id e st c, In (id, (e, st)) (p_targets (f_proj F)) -> In (id, c) (p_built (f_proj F)) -> In id (rg_built r) ->
     all_current e c (s_disk st) /\
     forall b eb sb, In (b, (eb, sb)) (p_targets (f_proj F)) -> In (out_file eb) (libs c ++ link_deps c) ->
       p_seen (f_proj F) id b = d_tgt (s_disk sb)) /\
  (forall j g o, In (j, g) (f_gens F) -> In (j, o) (f_objs F) -> In j (rg_built r) ->
     forall k gi, In (k, gi) (go_ids o) -> id_current (bd j) (gd_mt (g_disk g)) (g_disk g) k gi) /\
  one_time F.
Proof.
  intros rg bd u8 mt0 l files gids objects sessions pre w r run h F x n prog L Fr N C H.
  exact (full_run_current rg bd u8 mt0 l files gids pre w r run h F x n prog L Fr (script_history rg bd u8 mt0 l files gids objects sessions N C _ _ _ H)).
Qed.
Print Assumptions C105_covered_script_current.

(** ... and until a tracked file, an input or a state file changes, further runs of
    the script do nothing (as in C99). *)
Theorem C105_covered_script_idle : forall rg bd u8 mt0 l files gids objects (sessions : session -> Prop) pre w r run h F x n prog evs F2,
  (forall j, lawful (bd j)) -> fresh_full mt0 l gids -> new_objects objects -> (forall se, sessions se -> covered objects l files se) ->
  shistory rg bd u8 mt0 l files gids objects sessions (pre ++ FP (PRun w r) :: run) h F -> Forall fundisturbed run -> Forall ffull_writes run ->
  registers n prog r -> (forall i, ~ In (i, i) (rg_edges r)) -> 0 < w ->
  p_run (f_proj F) = Some (w, r, x) -> x_over w (rg_built r) (rg_edges r) x -> p_ok (f_proj F) = true ->
  incl (map fst (p_built (f_proj F))) (rg_built r) -> incl (map fst (f_objs F)) (rg_built r) ->
  (forall j o, In (j, o) (f_objs F) -> sane_handlers o) ->
  Forall (fagain (p_built (f_proj F)) (f_objs F)) evs -> fexec u8 F evs = Some F2 ->
  (forall id e st2 c, In (id, (e, st2)) (p_targets (f_proj F2)) -> In (id, c) (p_built (f_proj F)) ->
     exists st, In (id, (e, st)) (p_targets (f_proj F)) /\ s_log st2 = s_log st /\ same_outputs (s_disk st) (s_disk st2)) /\
  (forall j g2 o, In (j, g2) (f_gens F2) -> In (j, o) (f_objs F) ->
     exists g, In (j, g) (f_gens F) /\ g_log g2 = g_log g /\ gd_store (g_disk g2) = gd_store (g_disk g) /\ gd_made (g_disk g2) = gd_made (g_disk g)).
Proof.
  intros rg bd u8 mt0 l files gids objects sessions pre w r run h F x n prog evs F2 L Fr N C H.
  exact (full_nothing_to_do rg bd u8 mt0 l files gids pre w r run h F x n prog evs F2 L Fr (script_history rg bd u8 mt0 l files gids objects sessions N C _ _ _ H)).
Qed.
Print Assumptions C105_covered_script_idle.

(** The rule can be followed call by call: whoever names a file that a registered
    builder writes depends on that builder, and whoever copies or inserts files of
    a registered target depends on that target. *)
Theorem C105_call_by_call : forall objects l files se, declared objects l files se -> covered objects l files se.
Proof. exact declared_covered. Qed.
Print Assumptions C105_call_by_call.

(** The program of C98_case as a script; the generated header is given to a
    TargetInfo that is not registered. *)
Example C105_case : forall rg, exists h F,
  shistory rg (fun _ => no_blobs) u80 files2 projF filesF gidsF objectsS (fun se => In se [sessionS; sessionS])
    ((registrationF ++ FP (PRun 2 regF) :: first_runF ++ editF) ++ FP (PRun 2 regF) :: second_runF) h F /\
  (forall j : string, lawful no_blobs) /\ fresh_full files2 projF gidsF /\ new_objects objectsS /\
  (forall se, In se [sessionS; sessionS] -> covered objectsS projF filesF se) /\
  Forall fundisturbed second_runF /\ registers 20 progF regF /\ (forall i, ~ In (i, i) (rg_edges regF)) /\
  (exists w r x, p_run (f_proj F) = Some (w, r, x) /\ x_over w (rg_built r) (rg_edges r) x) /\ p_ok (f_proj F) = true /\
  tlogs F = [4; 4] /\ glogs F = [2; 2].
Proof.
  intros rg.
  destruct (sfollow_case rg (fun _ => no_blobs) u80 objectsS [sessionS; sessionS] files2 projF filesF gidsF
    ((registrationF ++ FP (PRun 2 regF) :: first_runF ++ editF) ++ FP (PRun 2 regF) :: second_runF)
    (fun F => overb (f_proj F) && p_ok (f_proj F) && nats_eqb (tlogs F) [4; 4] && nats_eqb (glogs F) [2; 2])) as (h & F & H & P).
  { apply plain_follow_ok. vm_compute. reflexivity. }
  { destruct rg; vm_compute; reflexivity. }
  apply andb_true_iff in P as [P P4]. apply andb_true_iff in P as [P P3]. apply andb_true_iff in P as [P1 P2].
  apply nats_eqb_sound in P3, P4. exists h, F. split; [exact H|]. split; [intros _; exact no_blobs_lawful|]. split; [exact projF_fresh|].
  split; [exact newS|]. split; [intros se [<-|[<-|[]]]; exact coveredS|].
  split; [repeat constructor|]. split; [exact regF_registers|]. split; [exact regF_no_loop|].
  split; [exact (overb_sound _ P1)|]. auto.
Qed.
