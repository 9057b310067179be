(** C106-C108: generated sources. *)
From Verif Require Import Prelude Proof_Prelude Model_Path Spec_Path Proof_ObjectPath Proof_Relative Model_Json Model_Schema Model_Command Model_ToolchainConfig Model_Target Spec_Target
  Model_Gcc Model_Gen Spec_Gen Proof_GenCase Model_FileGen Spec_FileGen Model_Sync Spec_Sync Model_Api Spec_Api Model_Toolchains Model_Targets Model_Reg Spec_Reg
  Model_Project Spec_Project Proof_ProjectCase Model_Full Spec_Full Proof_FullCase Model_Script Spec_Script Model_Chain Spec_Chain Proof_Chain3 Proof_ChainCase.

(** C106: an absolute path made relative to a directory (lexically_relative) and
    then taken relative to that directory names the same file, unless the file is
    the directory or lies above it. *)
Theorem C106_relative_and_back : forall dir f, abs_canonical dir -> abs_canonical f -> (forall t, names dir <> names f ++ t) ->
  to_path_string (path_div dir (lexically_relative f dir)) = f.
Proof. exact relative_back. Qed.
Print Assumptions C106_relative_and_back.

(** Beside, below and apart; above it a slash is added. *)
Example C106_case :
  lexically_relative "/w/ex/_build/g/main.c" "/w/ex/src" = "../_build/g/main.c" /\
  to_path_string (path_div "/w/ex/src" "../_build/g/main.c") = "/w/ex/_build/g/main.c" /\
  to_path_string (path_div "/w/ex" (lexically_relative "/w/ex/_build/g/main.c" "/w/ex")) = "/w/ex/_build/g/main.c" /\
  to_path_string (path_div "/w/ex" (lexically_relative "/tmp/main.c" "/w/ex")) = "/tmp/main.c" /\
  abs_canonical "/w/ex/src" /\ abs_canonical "/w/ex/_build/g/main.c" /\ (forall t, names "/w/ex/src" <> names "/w/ex/_build/g/main.c" ++ t) /\
  to_path_string (path_div "/w/ex" (lexically_relative "/w" "/w/ex")) = "/w/".
Proof.
  repeat (split; [vm_compute; reflexivity|]). split; [exists ["w"; "ex"; "src"]; split; [reflexivity|repeat constructor; discriminate]|].
  split; [exists ["w"; "ex"; "_build"; "g"; "main.c"]; split; [reflexivity|repeat constructor; discriminate]|]. split; [intros t; vm_compute; discriminate|vm_compute; reflexivity].
Qed.

(** C107: whatever the command line, the example's callbacks do not fail, exactly
    the generators and the targets of the requested toolchains are registered, each
    generator runs the script on one file, and each target is compiled from the
    file its generator writes and tracks nothing else. *)
Theorem C107_from_generated_sources : forall p ts se, proper_dirs p -> chain_targets p = Ok ts -> chain_session p se ->
  (exists st, script_run (SS (chain_objects ts) []) (se_script se) = SOk st /\
     rg_built (se_reg se) = chain_gids ++ map fst (ss_built st) /\
     forall i u, In (i, u) (ss_built st) -> exists f, chain_source p i = Some f /\ sources (cfg_of u) = [f] /\ tracked (cfg_of u) = [f]) /\
  exists a b, se_gens se = [("cpp_generator", a); ("c_generator", b)] /\ runs_script p "cpp" (main_cpp p) a /\ runs_script p "c" (main_c p) b.
Proof. intros p ts se P T. exact (chain_scripts p ts P T se). Qed.
Print Assumptions C107_from_generated_sources.

(** After every successful Reg::Run, whatever happened before it (other command
    lines, edits, failures, crashes), the generated files are those the generators
    ask for and everything built from them is current. *)
Theorem C107_current : forall p ts rg u8 mt0 l pre w r run h F x,
  proper_dirs p -> chain_targets p = Ok ts -> unbuilt mt0 ts l ->
  shistory rg (fun _ => file_blobs) u8 mt0 l (chain_files p) chain_gids (chain_objects ts) (chain_session p) (pre ++ FP (PRun w r) :: run) h F ->
  Forall fundisturbed run -> 0 < w ->
  p_run (f_proj F) = Some (w, r, x) -> x_over w (rg_built r) (rg_edges r) x -> p_ok (f_proj F) = true ->
  (forall id e st c, In (id, (e, st)) (p_targets (f_proj F)) -> In (id, c) (p_built (f_proj F)) ->
     (exists f, chain_source p id = Some f /\ sources c = [f]) /\ all_current e c (s_disk st)) /\
  (forall j g o, In (j, g) (f_gens F) -> In (j, o) (f_objs F) ->
     forall k gi, In (k, gi) (go_ids o) -> id_current file_blobs (gd_mt (g_disk g)) (g_disk g) k gi) /\
  one_time F.
Proof. intros p ts rg u8 mt0 l pre w r run h F x P T U. exact (chain_current p ts P T rg u8 mt0 l U pre w r run h F x). Qed.
Print Assumptions C107_current.

(** ... and further runs do nothing until a generated file or a state file is
    changed. *)
Theorem C107_idle : forall p ts rg u8 mt0 l pre w r run h F x evs F2,
  proper_dirs p -> chain_targets p = Ok ts -> unbuilt mt0 ts l -> storable p ->
  shistory rg (fun _ => file_blobs) u8 mt0 l (chain_files p) chain_gids (chain_objects ts) (chain_session p) (pre ++ FP (PRun w r) :: run) h F ->
  Forall fundisturbed run -> Forall ffull_writes run -> 0 < w ->
  p_run (f_proj F) = Some (w, r, x) -> x_over w (rg_built r) (rg_edges r) x -> p_ok (f_proj F) = true ->
  Forall (fagain (p_built (f_proj F)) (f_objs F)) evs -> fexec u8 F evs = Some F2 ->
  (forall id e st2 c, In (id, (e, st2)) (p_targets (f_proj F2)) -> In (id, c) (p_built (f_proj F)) ->
     exists st, In (id, (e, st)) (p_targets (f_proj F)) /\ s_log st2 = s_log st /\ same_outputs (s_disk st) (s_disk st2)) /\
  (forall j g2 o, In (j, g2) (f_gens F2) -> In (j, o) (f_objs F) ->
     exists g, In (j, g) (f_gens F) /\ g_log g2 = g_log g /\ gd_store (g_disk g2) = gd_store (g_disk g) /\ gd_made (g_disk g2) = gd_made (g_disk g)).
Proof.
  intros p ts rg u8 mt0 l pre w r run h F x evs F2 P T U S H Un Fw W E O Ok A.
  exact (chain_idle p ts P T rg u8 mt0 l U pre w r run h F x evs F2 S H Un Fw W E O Ok (Forall_impl _ (fun ev a => or_introl a) A)).
Qed.
Print Assumptions C107_idle.

(** C108: after a successful run further runs do nothing until a generated file or a
    state file is changed, even if the script that generates the files is changed: the
    example does not notice edits of python/gen.py. *)
Theorem C108_script_edits_missed_refuted : forall p ts rg u8 mt0 l pre w r run h F x evs F2,
  proper_dirs p -> chain_targets p = Ok ts -> unbuilt mt0 ts l -> storable p ->
  shistory rg (fun _ => file_blobs) u8 mt0 l (chain_files p) chain_gids (chain_objects ts) (chain_session p) (pre ++ FP (PRun w r) :: run) h F ->
  Forall fundisturbed run -> Forall ffull_writes run -> 0 < w ->
  p_run (f_proj F) = Some (w, r, x) -> x_over w (rg_built r) (rg_edges r) x -> p_ok (f_proj F) = true ->
  Forall (fun ev => fagain (p_built (f_proj F)) (f_objs F) ev \/ exists t, ev = FP (PEdit (gen_py p) t)) evs -> fexec u8 F evs = Some F2 ->
  (forall id e st2 c, In (id, (e, st2)) (p_targets (f_proj F2)) -> In (id, c) (p_built (f_proj F)) ->
     exists st, In (id, (e, st)) (p_targets (f_proj F)) /\ s_log st2 = s_log st /\ same_outputs (s_disk st) (s_disk st2)) /\
  (forall j g2 o, In (j, g2) (f_gens F2) -> In (j, o) (f_objs F) ->
     exists g, In (j, g) (f_gens F) /\ g_log g2 = g_log g /\ gd_store (g_disk g2) = gd_store (g_disk g) /\ gd_made (g_disk g2) = gd_made (g_disk g)).
Proof. intros p ts rg u8 mt0 l pre w r run h F x evs F2 P T U S H. exact (chain_idle p ts P T rg u8 mt0 l U pre w r run h F x evs F2 S H). Qed.
Print Assumptions C108_script_edits_missed_refuted.

(** A first run generates, compiles and links; the generated C++ file is edited and
    the second run compiles and links it again; then the script is edited and the
    third run does nothing. *)
Example C107_case : forall rg, exists h F F2,
  proper_dirs pC /\ chain_targets pC = Ok tsC /\ unbuilt filesC tsC lC /\ storable pC /\ chain_session pC seC /\
  shistory rg (fun _ => file_blobs) u80 filesC lC (chain_files pC) chain_gids (chain_objects tsC) (chain_session pC) 
    ((registrationC ++ FP (PRun 2 regC) :: firstC ++ betweenC) ++ FP (PRun 2 regC) :: secondC) h F /\
  Forall fundisturbed secondC /\ (exists w r x, p_run (f_proj F) = Some (w, r, x) /\ x_over w (rg_built r) (rg_edges r) x) /\
  p_ok (f_proj F) = true /\ tlogs F = [4; 2; 0; 0] /\ glogs F = [1; 1] /\
  In (FP (PEdit (gen_py pC) (Some 7%N))) missC /\ gen_py pC = "/w/ex/python/gen.py" /\
  fexec u80 F missC = Some F2 /\ (exists w r x, p_run (f_proj F2) = Some (w, r, x) /\ x_over w (rg_built r) (rg_edges r) x) /\
  p_ok (f_proj F2) = true /\ tlogs F2 = [4; 2; 0; 0] /\ glogs F2 = [1; 1].
Proof.
  intros rg. destruct (caseC rg) as (h & F & F2 & H & P1 & X & P2). exists h, F, F2.
  split; [exact properC|]. split; [exact tsC_ok|]. split; [exact unbuiltC|]. split; [exact storableC|]. split; [exact sessionC|]. split; [exact H|].
  unfold endC in P1, P2. apply andb_true_iff in P1 as [P1 Q4]. apply andb_true_iff in P1 as [P1 Q3]. apply andb_true_iff in P1 as [Q1 Q2].
  apply andb_true_iff in P2 as [P2 R4]. apply andb_true_iff in P2 as [P2 R3]. apply andb_true_iff in P2 as [R1 R2].
  apply nats_eqb_sound in Q3, Q4, R3, R4.
  split; [repeat constructor|]. split; [exact (overb_sound _ Q1)|]. split; [exact Q2|]. split; [exact Q3|]. split; [exact Q4|].
  split; [right; left; reflexivity|]. split; [vm_compute; reflexivity|]. split; [exact X|]. split; [exact (overb_sound _ R1)|]. auto.
Qed.
