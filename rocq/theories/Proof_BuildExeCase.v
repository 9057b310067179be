(** Concrete cases of buildexe. *)
From Verif Require Import Prelude Model_Path Model_Json Model_Schema Model_Command Model_ToolchainConfig Model_Target Model_Gcc
  Model_Find Model_Sync Model_Api Model_Toolchains Model_Targets Model_BuildExe
  Spec_Path Spec_Sync Spec_Shell Spec_Gcc Spec_Api Spec_Toolchains Spec_Targets Spec_Target Spec_BuildExe
  Proof_TargetCase Proof_BuildExe Proof_BuildExe2.

Lemma immediate_options p tc a ls :
  (forall t, user_target p tc a ls = Ok t -> k_config tc = usual_config (k_id tc) ->
     te_build (g_env t) = user_dir p tc a /\ te_name (g_env t) = xa_name a /\
     forall x, entries x (g_user t) = initial_entries tc (xa_type a) (user_dir p tc a) x ++
                                      command_line_entries (path_div (pr_root p) (xa_relative a)) a x) /\
  (user_target p tc a ls = Fatal <-> pr_init p = false \/ class_for (k_id tc) = None \/
     exists s, In s (xa_sources a) /\ is_valid_source (k_config tc) (path_div (path_div (pr_root p) (xa_relative a)) s) = false).
Proof.
  split; [|exact (user_fatal p tc a ls)]. intros t H K. apply user_facts in H as (A & _ & B & _ & C). auto.
Qed.
Lemma script_options p tc a b files ls t :
  script_target p tc a b files ls = Ok t -> k_config tc = usual_config (k_id tc) ->
  te_build (g_env t) = user_dir p tc a /\
  forall x, entries x (g_user t) = initial_entries tc (xa_type a) (user_dir p tc a) x ++
    command_line_entries (path_div (pr_root p) (xa_relative a)) a x ++ buildcc_entries tc b x ++
    generated_entries (k_config tc) (user_dir p tc a) ls x ++ library_entries (k_config tc) files x.
Proof. intros H K. apply script_facts in H as (A & _ & C). auto. Qed.

Lemma header_name_wrong : exists libs ents infos, lib_infos libs (Some ents) = Ok infos /\ libraries ents = ["my-lib"] /\ literal_text libs /\
  read_header (lib_dirs_text infos) = None.
Proof.
  exists "/h/libs", [("my-lib", true)], [("my-lib", "/h/libs/my-lib")]. split; [vm_compute; reflexivity|]. split; [reflexivity|].
  split; [repeat split|]. vm_compute. reflexivity.
Qed.
Lemma header_blank_wrong : exists libs ents infos, lib_infos libs (Some ents) = Ok infos /\ libraries ents = ["json"] /\ libs = "/my home/libs" /\
  read_header (lib_dirs_text infos) = None.
Proof.
  exists "/my home/libs", [("json", true)]. eexists. split; [vm_compute; reflexivity|]. split; [reflexivity|]. split; [reflexivity|]. vm_compute. reflexivity.
Qed.

Definition built_once (t : target) : list event := full_run (cfg_of (g_user t)) (sources (cfg_of (g_user t))) (sources (cfg_of (g_user t))).
Lemma ok_case r (P : target -> bool) : match r with Ok t => P t | Fatal => false end = true -> exists t, r = Ok t /\ P t = true.
Proof. destruct r as [t|]; [|discriminate]. intros H. exists t. auto. Qed.

Lemma script_again : exists t st1 st2 run1 run2,
  sample_script = Ok t /\ exec (g_env t) (init sample_disk) run1 = Some st1 /\ s_ok st1 = true /\ s_pc st1 = Idle /\
  run2 = full_run (cfg_of (g_user t)) (sources (cfg_of (g_user t))) (sources (cfg_of (g_user t))) /\
  exec (g_env t) st1 (EvEdit (to_path_string (lib_dirs_file t)) (Some 2%N) :: run2) = Some st2 /\ s_ok st2 = true /\
  length (s_log st2) = length (s_log st1) + 4.
Proof.
  destruct (ok_case sample_script (fun t =>
    match exec (g_env t) (init sample_disk) (built_once t) with
    | Some st1 => s_ok st1 && match s_pc st1 with Idle => true | _ => false end &&
        match exec (g_env t) st1 (EvEdit (to_path_string (lib_dirs_file t)) (Some 2%N) :: built_once t) with
        | Some st2 => s_ok st2 && Nat.eqb (length (s_log st2)) (length (s_log st1) + 4) | None => false end
    | None => false end)) as (t & E & H); [vm_compute; reflexivity|].
  destruct (exec (g_env t) (init sample_disk) (built_once t)) as [st1|] eqn:X1; [|discriminate].
  apply andb_true_iff in H as [H H3]. apply andb_true_iff in H as [H1 H2].
  destruct (exec (g_env t) st1 _) as [st2|] eqn:X2; [|discriminate]. apply andb_true_iff in H3 as [H3 H4]. apply Nat.eqb_eq in H4.
  exists t, st1, st2, (built_once t), (built_once t). repeat split; try assumption. destruct (s_pc st1); try discriminate H2; reflexivity.
Qed.

Lemma immediate_case : exists t h st, user_target sample_project (sample_toolchain Gcc "gcc") (sample_args false) sample_dirs = Ok t /\
  history Forward (g_env t) sample_disk (full_run (cfg_of (g_user t)) (sources (cfg_of (g_user t))) (sources (cfg_of (g_user t)))) h st /\
  s_ok st = true /\ h_edited h = false /\ s_cfg st = cfg_of (g_user t) /\ length (s_log st) = 3 /\
  ord_ok (sources (cfg_of (g_user t))) (sources (cfg_of (g_user t))) = true.
Proof.
  destruct (ok_case (user_target sample_project (sample_toolchain Gcc "gcc") (sample_args false) sample_dirs) (fun t =>
    match follow Forward (g_env t) (hist0 sample_disk) (init sample_disk) (built_once t) with
    | Some (h, st) => s_ok st && negb (h_edited h) && cfg_eqb (s_cfg st) (cfg_of (g_user t)) && Nat.eqb (length (s_log st)) 3
        && ord_ok (sources (cfg_of (g_user t))) (sources (cfg_of (g_user t)))
    | None => false end)) as (t & E & H); [vm_compute; reflexivity|].
  apply (follow_case Forward (g_env t) sample_disk (built_once t) (fun h st => s_ok st && negb (h_edited h) && cfg_eqb (s_cfg st) (cfg_of (g_user t)) && Nat.eqb (length (s_log st)) 3
        && ord_ok (sources (cfg_of (g_user t))) (sources (cfg_of (g_user t))))) in H as (h & st & X & H).
  repeat (apply andb_true_iff in H as [H ?]). exists t, h, st.
  repeat split; try assumption; [apply negb_true_iff; assumption|apply cfg_eqb_sound; assumption|apply Nat.eqb_eq; assumption].
Qed.
Lemma script_case : exists t h st, sample_script = Ok t /\
  history Forward (g_env t) sample_disk (full_run (cfg_of (g_user t)) (sources (cfg_of (g_user t))) (sources (cfg_of (g_user t)))) h st /\
  s_ok st = true /\ h_edited h = false /\ s_cfg st = cfg_of (g_user t) /\ d_mt (s_disk st) (to_path_string (lib_dirs_file t)) <> Some 2%N /\
  exists st2, exec (g_env t) st (EvEdit (to_path_string (lib_dirs_file t)) (Some 2%N) :: EvStart (cfg_of (g_user t)) (sources (cfg_of (g_user t))) ::
    EvObjCheck :: compiles (map (fun s => (s, XOk)) (sources (cfg_of (g_user t)))) ++ [EvLinkCheck]) = Some st2.
Proof.
  set (P := fun t (h : hist) st => s_ok st && negb (h_edited h) && cfg_eqb (s_cfg st) (cfg_of (g_user t)) &&
    negb (timeb (d_mt (s_disk st) (to_path_string (lib_dirs_file t))) (Some 2%N)) &&
    match exec (g_env t) st (EvEdit (to_path_string (lib_dirs_file t)) (Some 2%N) :: EvStart (cfg_of (g_user t)) (sources (cfg_of (g_user t))) ::
      EvObjCheck :: compiles (map (fun s => (s, XOk)) (sources (cfg_of (g_user t)))) ++ [EvLinkCheck]) with Some _ => true | None => false end).
  destruct (ok_case sample_script (fun t =>
    match follow Forward (g_env t) (hist0 sample_disk) (init sample_disk) (built_once t) with
    | Some (h, st) => P t h st | None => false end)) as (t & E & H); [vm_compute; reflexivity|].
  apply (follow_case Forward (g_env t) sample_disk (built_once t) (P t)) in H as (h & st & X & H). unfold P in H.
  apply andb_true_iff in H as [H H5]. apply andb_true_iff in H as [H H4]. apply andb_true_iff in H as [H H3]. apply andb_true_iff in H as [H1 H2].
  exists t, h, st. split; [exact E|]. split; [exact X|]. split; [exact H1|]. split; [apply negb_true_iff; exact H2|]. split; [apply cfg_eqb_sound; exact H3|].
  split. { intros K. rewrite K in H4. discriminate H4. }
  match type of H5 with match ?x with _ => _ end = true => destruct x as [st2|]; [|discriminate H5] end. exists st2. reflexivity.
Qed.

Lemma script_status_lost : exists w p tc a ls t, xa_script a = true /\ prepared w p tc a ls t /\
  w_execute w (run_command t (xa_configs a)) = false /\ In (Executed (run_command t (xa_configs a))) (fst (exe_main w p tc a ls)) /\
  snd (exe_main w p tc a ls) = true.
Proof.
  set (tc := sample_toolchain Gcc "gcc"). set (a := sample_args true). set (w := sample_world false).
  assert (S : snd (exe_main w sample_project tc a sample_dirs) = true) by (vm_compute; reflexivity).
  pose proof (proj1 (main_success _ _ _ _ _) S) as (t & Pr & _ & _ & _ & _ & F).
  exists w, sample_project, tc, a, sample_dirs, t. split; [reflexivity|]. split; [exact Pr|]. split.
  - apply prepared_setup in Pr as (h & ents & H & L & T).
    assert (E : match home_init (fst (w_home w)) (snd (w_home w)) (w_there w) with Ok h => match w_libs w with Some ents =>
      match setup w sample_project tc a h ents sample_dirs with Ok t => negb (w_execute w (run_command t (xa_configs a))) | Fatal => false end | None => false end | Fatal => false end = true)
      by (vm_compute; reflexivity).
    rewrite H, L, T in E. apply negb_true_iff. exact E.
  - split; [|exact S]. rewrite F. change (xa_script a) with true. cbn iota. rewrite !in_app_iff. right. right. right. left. left. reflexivity.
Qed.
Lemma config_blank : exists t configs, sample_script = Ok t /\ configs = ["my config.toml"] /\
  shell_words (run_command t configs) = Some ["/p/_build/gcc/tool/tool"; "--config"; "my"; "config.toml"].
Proof. eexists. exists ["my config.toml"]. split; [vm_compute; reflexivity|]. split; [reflexivity|]. vm_compute. reflexivity. Qed.
Lemma host_blank : exists p t, pr_build p = "/my project/_build" /\ host_target p (sample_toolchain Gcc "gcc") sample_dirs = Ok t /\
  shell_words (host_command t) = Some ["/my"; "project/_build/verify_host_toolchain/gcc/verify/verify"].
Proof. exists (project_init "/my project" "/my project/_build"). eexists. split; [reflexivity|]. split; [vm_compute; reflexivity|]. vm_compute. reflexivity. Qed.
