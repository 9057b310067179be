(** Project::Init and Deinit; the generated header of a built target. *)
From Verif Require Import Prelude Model_Path Model_Command Model_Json Model_Schema Model_ToolchainConfig Model_Target Spec_Target Proof_TargetMain Model_Gcc Model_Toolchains Model_Targets
  Spec_Targets Proof_Targets Spec_Pch Proof_Pch Spec_Init.

Lemma after_project_is calls : after_project calls = match last_init calls with Some (r, b) => project_init r b | None => project_none end.
Proof.
  unfold after_project.
  assert (G : forall p, fold_left do_project calls p = match last_init calls with
    | Some (r, b) => project_init r b
    | None => if existsb (fun x => match x with ProjectDeinit => true | _ => false end) calls then project_none else p end).
  { induction calls as [|c calls IH]; intros p; [reflexivity|]. cbn [fold_left last_init existsb]. rewrite IH.
    destruct (last_init calls) as [[r b]|]; [reflexivity|]. destruct c as [r b|]; cbn [do_project orb].
    - destruct (existsb _ calls); reflexivity.
    - destruct (existsb _ calls); reflexivity. }
  rewrite G. destruct (last_init calls) as [[r b]|]; [reflexivity|]. destruct (existsb _ _); reflexivity.
Qed.
Theorem created_iff calls name k tc rel :
  (exists t, created (after_project calls) name k tc (env_relative (after_project calls) rel) t) <-> exists dirs, last_init calls = Some dirs.
Proof.
  rewrite after_project_is. split.
  - intros (t & H). apply created_mk in H as [H _]. destruct (last_init calls) as [d|]; [eauto|discriminate H].
  - intros ([r b] & ->). eexists. apply by_target with (cf := TConf "" "" "" ""). unfold construct_target. reflexivity.
Qed.
Theorem created_dirs calls root build name k tc rel t :
  last_init calls = Some (root, build) -> created (after_project calls) name k tc (env_relative (after_project calls) rel) t ->
  te_root (g_env t) = path_div root rel /\ te_build (g_env t) = path_div (path_div build (k_name tc)) name.
Proof.
  rewrite after_project_is. intros -> H. destruct (created_fields _ _ _ _ _ _ H) as (A & _ & _ & B & _). split; [exact B|exact A].
Qed.

Lemma pch_quotation : exists files text, pch_header_text files = FOk text /\ included text <> files.
Proof.
  exists [("/p/a" +++ String quotation "b.h")]. eexists. split; [apply pch_text|]. vm_compute. discriminate.
Qed.
Theorem pch_built rg e d0 evs w h st :
  templates_ok e -> history rg e d0 (evs ++ [EvEnd w]) h st -> s_ok st = true -> h_edited h = false -> pchs (s_cfg st) <> [] ->
  Forall (fun f => has quotation f = false /\ has line_feed f = false) (pchs (s_cfg st)) ->
  exists a text, d_pch (s_disk st) = Some a /\ p_text a = FOk text /\ included text = pchs (s_cfg st).
Proof.
  intros T H O E N Q. destruct (success_current _ _ _ _ _ _ _ T H O E) as (P & _). destruct (P N) as (a & Ea & _ & _ & Et & _).
  destruct (pch_includes _ Q) as (text & E1 & E2). exists a, text. split; [exact Ea|]. split; [congruence|exact E2].
Qed.
