(** C87-C91: the command line. *)
From Verif Require Import Prelude Model_Path Model_Command Model_ToolchainConfig Model_Find Model_Storage Model_Target Model_Api Model_Toolchains Model_Gcc Model_Targets Model_Args
  Spec_Toolchains Spec_Targets Spec_Args Proof_Args.

(** C87: each toolchain has what the command line says about it and otherwise what
    the build script gave as initial; nothing else changes. *)
Theorem C87_toolchain_from_line : forall a adds l a' n c v,
  ar_internal a = None -> Forall is_add adds -> NoDup (tool_cells adds) -> args_run a (session adds l) = Some a' -> In (CTool n c v) adds ->
  let t := ln_tools l n in let k := v_tool (ar_tools a' c) in
  selects id_name id_number (tl_id t) (a_id (v_tool v)) (a_id k) /\
  a_name k = or_default (tl_name t) (a_name (v_tool v)) /\ a_exes k = tool_exes t (a_exes (v_tool v)).
Proof. exact toolchain_from_line. Qed.
Print Assumptions C87_toolchain_from_line.
Theorem C87_others_untouched : forall a adds l a', ar_internal a = None -> Forall is_add adds -> args_run a (session adds l) = Some a' ->
  (forall c, ~ In c (tool_cells adds) -> ar_tools a' c = ar_tools a c) /\
  (forall c, ~ In c (target_cells adds) -> ar_targets a' c = ar_targets a c).
Proof. exact session_other. Qed.
Print Assumptions C87_others_untouched.
(** The command line is accepted exactly if nothing in it is wrong or missing. *)
Theorem C87_accepted_iff : forall a adds l, ar_internal a = None -> Forall is_add adds ->
  (args_run a (session adds l) <> None <-> NoDup (tool_names adds) /\ NoDup (target_names adds) /\ acceptable adds l).
Proof. exact session_accepted. Qed.
Print Assumptions C87_accepted_iff.
Theorem C87_ids : forall s id, read_id s = Some id <-> any_case (id_name id) s \/ s = id_number id.
Proof. exact read_id_iff. Qed.
Print Assumptions C87_ids.
Theorem C87_levels : forall s v, read_level s = Some v <-> any_case (level_name v) s \/ s = level_number v.
Proof. exact read_level_iff. Qed.
Print Assumptions C87_levels.
Example C87_case :
  on_args (args_run args_start (session adds1 line1)) (fun a => (v_tool (ar_tools a 0), v_tool (ar_tools a 1))) =
    Some (AT Gcc "gcc_10" (EXES "as" "gcc-10" "g++-10" "ar" "ld") tconfig_default, arg_default) /\
  NoDup (tool_cells adds1) /\ NoDup (target_cells adds1) /\ Forall is_add adds1 /\ read_id "mInGw" = Some MinGW /\ read_id "g++" = None /\
  args_run args_start (session (adds1 ++ adds1) line1) = None.
Proof.
  split; [vm_compute; reflexivity|]. split; [cbn; constructor; [cbn; intros [K|[]]; discriminate|constructor; [intros []|constructor]]|].
  split; [cbn; constructor; [intros []|constructor]|]. split; [repeat constructor|]. repeat split; vm_compute; reflexivity.
Qed.

(** C88: the rest of the initial toolchain is the fallback too. False: its build and
    test state and its configuration are ignored. *)
Theorem C88_initial_ignored_refuted : exists adds l a' n c v,
  Forall is_add adds /\ NoDup (tool_cells adds) /\ args_run args_start (session adds l) = Some a' /\ In (CTool n c v) adds /\
  tl_build (ln_tools l n) = None /\ v_build v = true /\ v_build (ar_tools a' c) = false /\
  a_config (v_tool (ar_tools a' c)) <> a_config (v_tool v).
Proof.
  exists [CTool "gcc" 0 tool1], line2. eexists. exists "gcc", 0, tool1.
  split; [repeat constructor|]. split; [cbn; constructor; [intros []|constructor]|].
  split; [vm_compute; reflexivity|]. split; [left; reflexivity|]. repeat (split; [vm_compute; reflexivity|]). vm_compute. discriminate.
Qed.
Print Assumptions C88_initial_ignored_refuted.
(** Missing: [initial]. They come from the command line, otherwise the variable
    keeps what it had. *)
Theorem C88_state_partial : forall a adds l a' n c v,
  ar_internal a = None -> Forall is_add adds -> NoDup (tool_cells adds) -> args_run a (session adds l) = Some a' -> In (CTool n c v) adds ->
  v_build (ar_tools a' c) = or_default (tl_build (ln_tools l n)) (v_build (ar_tools a c)) /\
  v_test (ar_tools a' c) = or_default (tl_test (ln_tools l n)) (v_test (ar_tools a c)) /\
  a_config (v_tool (ar_tools a' c)) = a_config (v_tool (ar_tools a c)).
Proof. exact state_from_line. Qed.
Print Assumptions C88_state_partial.
Example C88_case :
  on_args (args_run args_start (session adds1 line1)) (fun a => (v_build (ar_tools a 0), v_test (ar_tools a 0), v_build (ar_tools a 1))) =
    Some (true, false, false).
Proof. vm_compute. reflexivity. Qed.

(** C89: Clean, GetLogLevel and the directories are those of the last command line.
    False after Deinit: an earlier --clean or --loglevel stays. *)
Theorem C89_earlier_stays_refuted : exists l1 l2 a',
  args_run args_start (session [] l1 ++ CDeinit :: session [] l2) = Some a' /\
  ln_clean l2 = None /\ ar_clean a' = true /\ ln_level l2 = None /\ ar_level a' <> ar_level args_start.
Proof. exists line1, line2. eexists. split; [vm_compute; reflexivity|]. repeat (split; [reflexivity|]). discriminate. Qed.
Print Assumptions C89_earlier_stays_refuted.
(** Missing: --clean and --loglevel after an earlier session. *)
Theorem C89_first_partial : forall adds l a', Forall is_add adds -> args_run args_start (session adds l) = Some a' ->
  ar_clean a' = or_default (ln_clean l) false /\ selects level_name level_number (ln_level l) Info (ar_level a').
Proof. exact first_settings. Qed.
Print Assumptions C89_first_partial.
Theorem C89_dirs_partial : forall a adds l a', ar_internal a = None -> Forall is_add adds -> args_run a (session adds l) = Some a' ->
  ln_root l = Some (ar_root a') /\ ln_build l = Some (ar_build a') /\ is_parsed a' = true.
Proof. exact dirs_from_line. Qed.
Print Assumptions C89_dirs_partial.
Example C89_case :
  on_args (args_run args_start (session adds1 line1)) (fun a => (ar_clean a, ar_level a, ar_root a, ar_build a)) = Some (true, Debug, "", "_build") /\
  on_args (args_run args_start (session [] line2)) (fun a => (ar_clean a, ar_level a, ar_root a, ar_build a)) = Some (false, Info, "src", "_b2").
Proof. split; vm_compute; reflexivity. Qed.

(** C90: a target command that is not given is the usual one. False: it is empty. *)
Theorem C90_empty_command_refuted : exists adds l a' c p tc env t,
  Forall is_add adds /\ args_run args_start (session adds l) = Some a' /\ In (CTarget "tool" c target_var0) adds /\
  gl_link (ln_targets l "tool") = None /\
  generic_class p "app" KExecutable tc env (Some (arg_target_config (ar_targets a' c))) = Ok t /\
  forall cf ord, link_command (g_env t) cf ord = FOk "".
Proof.
  exists adds1, line1. eexists. exists 0, sample_project, (sample_toolchain Gcc "gcc"), (env_relative sample_project ""). eexists.
  split; [repeat constructor|]. split; [vm_compute; reflexivity|]. split; [right; left; reflexivity|]. split; [reflexivity|].
  split; [vm_compute; reflexivity|]. intros cf ord. reflexivity.
Qed.
Print Assumptions C90_empty_command_refuted.
(** Missing: commands that are neither given nor in [initial]. *)
Theorem C90_commands_partial : forall a adds l a' n c v,
  ar_internal a = None -> Forall is_add adds -> NoDup (target_cells adds) -> args_run a (session adds l) = Some a' -> In (CTarget n c v) adds ->
  tf_compile (arg_target_config (ar_targets a' c)) = or_default (gl_compile (ln_targets l n)) (v_compile v) /\
  Model_Gcc.tf_link (arg_target_config (ar_targets a' c)) = or_default (gl_link (ln_targets l n)) (v_link v).
Proof. exact targets_from_line. Qed.
Print Assumptions C90_commands_partial.
Example C90_case :
  on_args (args_run args_start (session adds1 line1)) (fun a => arg_target_config (ar_targets a 0)) =
    Some (TConf "" gcc_pch_command "{compiler} -c {input}" "").
Proof. vm_compute. reflexivity. Qed.

(** C91: from the command line to a target: Reg::Init needs a parsed command line;
    the target reads from <cwd>/<root_dir>/... and writes to
    <cwd>/<build_dir>/<toolchain>/<target>, with the executables given. *)
Theorem C91_end_to_end : forall a adds l a' cwd p0 p n c v before s obj k tname kind rel t,
  ar_internal a = None -> Forall is_add adds -> NoDup (tool_cells adds) -> args_run a (session adds l) = Some a' -> In (CTool n c v) adds ->
  reg_init false cwd a' p0 = Ok p ->
  let tool := v_tool (ar_tools a' c) in
  store_run store_empty (before ++ [ONew (a_id tool) (a_name tool) (Some (a_exes tool)) (Some (a_config tool))]) = Some s ->
  s_ref (o_storage s) (a_name tool) (class_name (class_of_id (a_id tool))) = Ok obj -> object s obj k ->
  created p tname kind k (env_relative p rel) t ->
  te_root (g_env t) = path_div (path_div cwd (or_default (ln_root l) "")) rel /\
  te_build (g_env t) = path_div (path_div (path_div cwd (or_default (ln_build l) "")) (or_default (tl_name (ln_tools l n)) (a_name (v_tool v)))) tname /\
  k_exes k = tool_exes (ln_tools l n) (a_exes (v_tool v)).
Proof. exact end_to_end. Qed.
Print Assumptions C91_end_to_end.
Theorem C91_needs_parse : forall cwd p cs a, args_run args_start cs = Some a ->
  (reg_init false cwd a p = Fatal <-> fold_left parsed_after cs false = false) /\ reg_init true cwd a p = Ok p.
Proof. exact init_needs_parse. Qed.
Print Assumptions C91_needs_parse.
Example C91_case :
  match args_run args_start (session adds1 line1) with
  | Some a => match reg_init false "/w" a project_none with
              | Ok p => let tc := construct_toolchain Gcc (a_name (v_tool (ar_tools a 0))) (a_exes (v_tool (ar_tools a 0))) None in
                        on_target (generic_class p "app" KExecutable tc (env_relative p "sub") None) (fun t => (te_root (g_env t), te_build (g_env t), te_cc (g_env t)))
              | Fatal => None
              end
  | None => None
  end = Some ("/w/sub", "/w/_build/gcc_10/app", "gcc-10") /\
  reg_init false "/w" args_start project_none = Fatal.
Proof. split; vm_compute; reflexivity. Qed.
