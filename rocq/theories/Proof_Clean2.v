(** --clean: whole scripts. *)
From Verif Require Import Prelude Proof_Prelude Model_Path Spec_Path Proof_Path Proof_ObjectPath Model_Schema Model_Command Model_ToolchainConfig Model_Target Spec_Target Proof_TargetCase
  Model_Gen Spec_Gen Proof_GenInv Proof_GenCase Model_Reg Spec_Reg Proof_Reg Model_Project Spec_Project Proof_ProjectCase Model_Full Spec_Full Proof_FullCase
  Model_Toolchains Model_Targets Spec_Targets Proof_Targets Model_Args Spec_Args Model_Clean Spec_Clean Proof_Clean Proof_CleanCase.

Theorem script_recovers : forall rg bd u8 cwd a files mt l g p F0 pre w r run h F x n prog,
  ar_clean a = true -> start_script cwd a files l g = Ok (p, F0) -> in_build_dir (pr_build p) mt l g -> (forall j, lawful (bd j)) ->
  since rg bd u8 (clean_times (pr_build p) mt) (clean_targets (pr_build p) l) F0 (pre ++ FP (PRun w r) :: run) h F -> Forall fundisturbed run ->
  registers n prog r -> (forall i, ~ In (i, i) (rg_edges r)) -> 0 < w ->
  p_run (f_proj F) = Some (w, r, x) -> x_over w (rg_built r) (rg_edges r) x -> p_ok (f_proj F) = true ->
  (forall id e st c, In (id, (e, st)) (p_targets (f_proj F)) -> In (id, c) (p_built (f_proj F)) -> In id (rg_built r) ->
     all_current e c (s_disk st) /\
     forall b eb sb, In (b, (eb, sb)) (p_targets (f_proj F)) -> In (out_file eb) (libs c ++ link_deps c) ->
       p_seen (f_proj F) id b = d_tgt (s_disk sb)) /\
  (forall j gs o, In (j, gs) (f_gens F) -> In (j, o) (f_objs F) -> In j (rg_built r) ->
     forall k gi, In (k, gi) (go_ids o) -> id_current (bd j) (gd_mt (g_disk gs)) (g_disk gs) k gi).
Proof.
  intros rg bd u8 cwd a files mt l g p F0 pre w r run h F x n prog C S P L H U R NL W PR X OK.
  destruct (start_clean _ _ _ _ _ _ _ C S) as (_ & _ & ->). eapply clean_recovers; eassumption.
Qed.
Theorem script_as_new : forall cwd a files mt l g p F0,
  ar_clean a = true -> start_script cwd a files l g = Ok (p, F0) -> in_build_dir (pr_build p) mt l g ->
  F0 = finit (clean_times (pr_build p) mt) (clean_targets (pr_build p) l) files (map fst g) /\
  fresh_full (clean_times (pr_build p) mt) (clean_targets (pr_build p) l) (map fst g).
Proof.
  intros cwd a files mt l g p F0 C S P. destruct (start_clean _ _ _ _ _ _ _ C S) as (_ & _ & ->). exact (clean_start _ _ _ _ _ P).
Qed.
Lemma assoc_unique {A} (l : list (string * A)) i x y : NoDup (map fst l) -> In (i, x) l -> In (i, y) l -> x = y.
Proof.
  intros N H1 H2. apply (assoc_NoDup_In _ _ _ N) in H1, H2. congruence.
Qed.
Theorem script_exact : forall cwd a files l g p F0 id e st, NoDup (map fst l) ->
  ar_clean a = true -> start_script cwd a files l g = Ok (p, F0) -> In (id, (e, st)) (p_targets (f_proj F0)) ->
  pr_build p = path_div cwd (ar_build a) /\
  exists d, In (id, (e, d)) l /\
    (forall f, inside (pr_build p) f -> d_mt (s_disk st) f = None /\ d_obj (s_disk st) f = None) /\
    (forall f, ~ inside (pr_build p) f -> d_mt (s_disk st) f = d_mt d f /\ d_obj (s_disk st) f = d_obj d f) /\
    (inside (pr_build p) (out_file e) -> d_tgt (s_disk st) = None) /\ (~ inside (pr_build p) (out_file e) -> d_tgt (s_disk st) = d_tgt d) /\
    (inside (pr_build p) (target_state_file e) -> d_store (s_disk st) = None) /\ (~ inside (pr_build p) (target_state_file e) -> d_store (s_disk st) = d_store d).
Proof.
  intros cwd a files l g p F0 id e st N C S H. destruct (start_clean _ _ _ _ _ _ _ C S) as (B & _ & ->). split; [exact B|].
  unfold begin_process in H. cbn [f_proj p_targets] in H. apply in_map_iff in H as ([i [e1 d1]] & E & H). cbn [fst snd] in E.
  apply pair_equal_spec in E as [<- E]. apply pair_equal_spec in E as [<- <-]. unfold clean_targets in H.
  apply in_map_iff in H as ([i2 [e2 d2]] & E & H). cbn [fst snd] in E. apply pair_equal_spec in E as [<- E]. apply pair_equal_spec in E as [<- <-].
  exists d2. split; [exact H|]. destruct (clean_exact (pr_build p) e2 d2) as (C1 & C2 & C3 & C4 & C5 & C6 & C7 & C8 & _).
  unfold begin_target. cbn [s_disk]. split; [intros f K; split; [exact (C1 f K)|exact (C3 f K)]|].
  split; [intros f K; split; [exact (C2 f K)|exact (C4 f K)]|]. auto.
Qed.

Lemma leads_dot cwd : leads_to [] (path_div cwd ".") = leads_to [] cwd.
Proof. rewrite path_div_rel by reflexivity. rewrite leads_inner by reflexivity. reflexivity. Qed.
Lemma leads_empty cwd : leads_to [] (path_div cwd "") = leads_to [] cwd.
Proof. rewrite path_div_rel by reflexivity. rewrite leads_inner by reflexivity. reflexivity. Qed.
Theorem project_deleted : forall cwd files l g, exists a p F0,
  args_run args_start (session [] (line_clean true ".")) = Some a /\ start_script cwd a files l g = Ok (p, F0) /\
  forall s, plain_path s -> inside (pr_build p) (path_div (pr_root p) s).
Proof.
  intros cwd files l g. exists (args_clean true "."), (project_init (path_div cwd "") (path_div cwd ".")). eexists.
  split; [apply args_clean_run|]. split; [reflexivity|]. intros s I. apply plain_inner in I. cbn [project_init pr_build pr_root].
  exists (rev (filter (fun n => negb (String.eqb n ".")) (names s))). rewrite (leads_rel _ s I), leads_dot, leads_empty. reflexivity.
Qed.
Theorem sources_stay : forall cwd a files l g p F0 b s n rest,
  ar_clean a = true -> start_script cwd a files l g = Ok (p, F0) -> ar_root a = "" -> ar_build a = b -> simple b ->
  plain_path s -> proper_names s = n :: rest -> n <> b ->
  leads_to [] (path_div (pr_root p) s) = leads_to [] (path_div cwd s) /\ ~ inside (pr_build p) (path_div (pr_root p) s).
Proof.
  intros cwd a files l g p F0 b s n rest C S R B Sb I E D. apply plain_inner in I. destruct (start_clean _ _ _ _ _ _ _ C S) as (Pb & Pr & _).
  assert (K : leads_to [] (path_div (pr_root p) s) = leads_to [] (path_div cwd s)).
  { rewrite Pr, R, (leads_rel (path_div cwd "") s I), (leads_rel cwd s I), leads_empty. reflexivity. }
  split; [exact K|]. rewrite Pb, B. intros [m H]. rewrite K in H. apply (not_inside cwd b s n rest Sb I E D). exists m. exact H.
Qed.

Lemma cleaned : exists F0 h F x,
  args_run args_start (session [] (line_clean true "_b")) = Some (args_clean true "_b") /\ ar_clean (args_clean true "_b") = true /\
  start_script "/p" (args_clean true "_b") filesF left_targets left_gens = Ok (project_init "/p/" "/p/_b", F0) /\
  in_build_dir "/p/_b" left_times left_targets left_gens /\
  since Forward (fun _ => no_blobs) u80 (clean_times "/p/_b" left_times) (clean_targets "/p/_b" left_targets) F0
    (registrationF ++ FP (PRun 2 regF) :: clean_runF) h F /\ Forall fundisturbed clean_runF /\ registers 20 progF regF /\
  p_run (f_proj F) = Some (2, regF, x) /\ x_over 2 (rg_built regF) (rg_edges regF) x /\ p_ok (f_proj F) = true /\
  tlogs F = [2; 2] /\ glogs F = [1; 1].
Proof.
  destruct (since_case Forward u80 (clean_times "/p/_b" left_times) (clean_targets "/p/_b" left_targets)
    (begin_process filesF (clean_targets "/p/_b" left_targets) (clean_gens "/p/_b" left_gens)) (registrationF ++ FP (PRun 2 regF) :: clean_runF)
    (fun F => endedb F && nats_eqb (tlogs F) [2; 2] && nats_eqb (glogs F) [1; 1])) as (h & F & H & P).
  { vm_compute. reflexivity. }
  { vm_compute. reflexivity. }
  apply andb_true_iff in P as [P P3]. apply andb_true_iff in P as [P1 P2]. apply nats_eqb_sound in P2, P3. apply endedb_sound in P1 as (x & P1 & P4 & P5).
  exists (begin_process filesF (clean_targets "/p/_b" left_targets) (clean_gens "/p/_b" left_gens)), h, F, x.
  split; [apply args_clean_run|]. split; [reflexivity|]. split; [reflexivity|]. split; [exact left_in_build_dir|]. split; [exact H|].
  split; [repeat constructor|]. split; [exact regF_registers|]. auto.
Qed.
Lemma not_cleaned : exists F0 h F x e st c,
  ar_clean (args_clean false "_b") = false /\
  start_script "/p" (args_clean false "_b") filesF left_targets left_gens = Ok (project_init "/p/" "/p/_b", F0) /\
  in_build_dir "/p/_b" left_times left_targets left_gens /\
  since Forward (fun _ => no_blobs) u80 left_times left_targets F0 (registrationF ++ FP (PRun 2 regF) :: idle_runF) h F /\ Forall fundisturbed idle_runF /\
  p_run (f_proj F) = Some (2, regF, x) /\ x_over 2 (rg_built regF) (rg_edges regF) x /\ p_ok (f_proj F) = true /\
  In ("app", (e, st)) (p_targets (f_proj F)) /\ In ("app", c) (p_built (f_proj F)) /\ ~ all_current e c (s_disk st).
Proof.
  exists (begin_process filesF left_targets left_gens).
  destruct (not_rebuilt false "_b" left_times left_targets left_gens (begin_process filesF left_targets left_gens)) as (h & F & x & H & U & P & O & K & e & st & c & T).
  { left. reflexivity. }
  { reflexivity. }
  { reflexivity. }
  exists h, F, x, e, st, c. split; [reflexivity|]. split; [reflexivity|]. split; [exact left_in_build_dir|]. repeat (split; [assumption|]). exact T.
Qed.
Lemma cleaned_elsewhere : exists F0 h F x e st c,
  ar_clean (args_clean true "_c") = true /\
  start_script "/p" (args_clean true "_c") filesF left_targets left_gens = Ok (project_init "/p/" "/p/_c", F0) /\
  since Forward (fun _ => no_blobs) u80 (clean_times "/p/_c" left_times) (clean_targets "/p/_c" left_targets) F0
    (registrationF ++ FP (PRun 2 regF) :: idle_runF) h F /\ Forall fundisturbed idle_runF /\
  p_run (f_proj F) = Some (2, regF, x) /\ x_over 2 (rg_built regF) (rg_edges regF) x /\ p_ok (f_proj F) = true /\
  In ("app", (e, st)) (p_targets (f_proj F)) /\ In ("app", c) (p_built (f_proj F)) /\ ~ all_current e c (s_disk st).
Proof.
  set (F0 := begin_process filesF (clean_targets "/p/_c" left_targets) (clean_gens "/p/_c" left_gens)). exists F0.
  destruct (not_rebuilt true "_c" (clean_times "/p/_c" left_times) (clean_targets "/p/_c" left_targets) (clean_gens "/p/_c" left_gens) F0) as (h & F & x & H & U & P & O & K & e & st & c & T).
  { right. reflexivity. }
  { reflexivity. }
  { reflexivity. }
  exists h, F, x, e, st, c. split; [reflexivity|]. split; [reflexivity|]. repeat (split; [assumption|]). exact T.
Qed.

(** ** Where the state files are *)
Lemma state_files p name k tc rel t :
  (created p name k tc (env_relative p rel) t -> simple name -> simple (k_name tc) ->
     leads_to [] (g_binary t) = [name +++ ".bin"; name; k_name tc] ++ leads_to [] (pr_build p)) /\
  (simple name -> leads_to [] (generator_state_file (env_relative p rel) name) = [name +++ ".json"; name] ++ leads_to [] (pr_build p)).
Proof.
  split.
  - intros C N K. destruct (created_fields _ _ _ _ _ _ C) as (B & Nm & _ & _ & G & _). rewrite G. unfold build_dir, target_output_path.
    cbn [env_relative en_build]. rewrite leads_simple by (apply simple_ext; [exact N|reflexivity]).
    rewrite !leads_simple by assumption. reflexivity.
  - intros N. unfold generator_state_file. cbn [env_relative en_build]. rewrite leads_simple by (apply simple_ext; [exact N|reflexivity]).
    rewrite leads_simple by exact N. reflexivity.
Qed.
