(** C127: the generated header. C128: Project. *)
From Verif Require Import Prelude Model_Path Model_Command Model_Json Model_Schema Model_ToolchainConfig Model_Target Spec_Target Model_Toolchains Model_Targets Spec_Targets
  Proof_TargetCase Spec_Pch Proof_Pch Spec_Init Proof_Init.

(** C127 is false: a preprocessor stops at a quotation mark in a path. *)
Theorem C127_quotation_refuted : exists files text, pch_header_text files = FOk text /\ included text <> files.
Proof. exact pch_quotation. Qed.
Print Assumptions C127_quotation_refuted.

(** Otherwise the header includes exactly the PCH files, in their order (and
    writing it is never a fatal error). *)
Theorem C127_header_partial : forall files,
  Forall (fun f => has quotation f = false /\ has line_feed f = false) files ->
  exists text, pch_header_text files = FOk text /\ included text = files.
Proof. exact pch_includes. Qed.
Print Assumptions C127_header_partial.
(** Its directives are the guard, one line for every file and the end of the guard:
    included twice it gives its contents once, and nothing else is in it. *)
Theorem C127_guarded_partial : forall files, Forall (fun f => has line_feed f = false) files ->
  exists text g, pch_header_text files = FOk text /\ g <> "" /\ has " "%char g = false /\
    directives text = ("#ifndef " +++ g) :: ("#define " +++ g) :: map include_line files ++ ["#endif"].
Proof. exact pch_guarded. Qed.
Print Assumptions C127_guarded_partial.
Theorem C127_built_partial : forall rg e d0 evs w h st,
  templates_ok e -> history rg e d0 (evs ++ [EvEnd w]) h st -> s_ok st = true -> h_edited h = false -> pchs (s_cfg st) <> [] ->
  Forall (fun f => has quotation f = false /\ has line_feed f = false) (pchs (s_cfg st)) ->
  exists a text, d_pch (s_disk st) = Some a /\ p_text a = FOk text /\ included text = pchs (s_cfg st).
Proof. exact pch_built. Qed.
Print Assumptions C127_built_partial.
Example C127_case : Forall (fun f => has quotation f = false /\ has line_feed f = false) ["/p/h.h"; "/p/{a} b.h"] /\
  match pch_header_text ["/p/h.h"; "/p/{a} b.h"] with FOk t => included t | _ => [] end = ["/p/h.h"; "/p/{a} b.h"].
Proof. split; [repeat constructor|vm_compute; reflexivity]. Qed.

(** C128: targets can be created exactly after Project::Init (and not after
    Project::Deinit); they get the directories of the last Init. *)
Theorem C128_created_after_init : forall calls name k tc rel,
  (exists t, created (after_project calls) name k tc (env_relative (after_project calls) rel) t) <-> exists dirs, last_init calls = Some dirs.
Proof. exact created_iff. Qed.
Print Assumptions C128_created_after_init.
Theorem C128_directories : forall calls root build name k tc rel t,
  last_init calls = Some (root, build) -> created (after_project calls) name k tc (env_relative (after_project calls) rel) t ->
  te_root (g_env t) = path_div root rel /\ te_build (g_env t) = path_div (path_div build (k_name tc)) name.
Proof. exact created_dirs. Qed.
Print Assumptions C128_directories.
Example C128_case : last_init [ProjectInit "/a" "/b"; ProjectDeinit; ProjectInit "/p" "/p/_b"] = Some ("/p", "/p/_b") /\
  last_init [ProjectInit "/a" "/b"; ProjectDeinit] = None.
Proof. split; reflexivity. Qed.
