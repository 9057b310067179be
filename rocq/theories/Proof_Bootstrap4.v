(** The options of the targets of the bootstrap program. *)
From Verif Require Import Prelude Proof_Prelude Model_Path Spec_Path Proof_Path Proof_ObjectPath Model_Json Model_Schema Model_Command Model_ToolchainConfig
  Model_Target Spec_Target Model_Gcc Model_Find Model_Sync Spec_Sync Model_Api Spec_Api Proof_Api Model_Toolchains
  Spec_Toolchains Model_Targets Spec_Targets Proof_Targets Model_BuildExe Spec_BuildExe Proof_BuildExe Proof_BuildExe2 Proof_TargetBase
  Model_Reg Spec_Reg Model_Bootstrap Model_Project Spec_Project Proof_Project Proof_Project4 Proof_Project5 Spec_Bootstrap Proof_Bootstrap Proof_Bootstrap2
  Proof_Bootstrap3.

(** Without the files that calls find in directories. *)
Definition adds_given (a : apienv) (c : call) : list (sync_option * (string * option string)) :=
  match c with
  | GlobSourcesAbsolute _ | GlobSources _ | GlobHeadersAbsolute _ | GlobHeaders _ => []
  | AddIncludeDirAbsolute dir _ => [(IncludeDirs, dir_entry dir)]
  | AddIncludeDir rel _ => [(IncludeDirs, dir_entry (below a rel))]
  | c => adds a c
  end.
Lemma filter_other {A} (y x : sync_option) (l : list A) : y <> x ->
  filter (fun e => if option_eq_dec (fst e) x then true else false) (map (fun e => (y, e)) l) = [].
Proof. intros N. induction l as [|e l IH]; [reflexivity|]. cbn [map filter fst]. destruct (option_eq_dec y x); [contradiction|exact IH]. Qed.
Lemma added_given a x cs : x <> SourceFiles -> x <> HeaderFiles ->
  added a x cs = map snd (filter (fun e => if option_eq_dec (fst e) x then true else false) (flat_map (adds_given a) cs)).
Proof.
  intros NS NH. unfold added. f_equal. induction cs as [|c cs IH]; [reflexivity|]. cbn [flat_map]. rewrite !filter_app, IH. f_equal.
  destruct c; cbn [adds adds_given]; try reflexivity; try (apply filter_other; congruence).
  - destruct glob; cbn [filter fst]; [rewrite filter_other by congruence|]; reflexivity.
  - destruct glob; cbn [filter fst]; [rewrite filter_other by congruence|]; reflexivity.
Qed.

Section Steps.
  Variables (p : Model_Targets.project) (tc : toolchain) (h : host) (ls : listing) (tpl0 b0 ex0 tpl b ex : target)
    (json cli11 fmt spdlog taskflow : tschema) (t1 b1 b2 b3 ex1 : target).
  Hypothesis S : steps p tc h ls tpl0 b0 ex0 tpl b ex json cli11 fmt spdlog taskflow t1 b1 b2 b3 ex1.
  Hypothesis K : k_config tc = usual_config (k_id tc).

  Lemma generic_initial n kd env t y : generic_class p n kd tc env None = Ok t ->
    entries y (g_user t) = initial_entries tc kd (te_build (g_env t)) y.
  Proof.
    intros G. rewrite (generic_entries _ _ _ _ _ _ y G K). destruct (created_fields _ _ _ _ _ _ (by_generic _ _ _ _ _ _ None G)) as (F & _).
    rewrite F. reflexivity.
  Qed.
  Lemma generic_toolchain n kd env t : generic_class p n kd tc env None = Ok t -> g_toolchain t = tc.
  Proof. intros G. apply (by_generic _ _ _ _ _ _ None) in G. apply created_mk in G as (_ & cf & u0 & ->). reflexivity. Qed.
  Lemma flags_added a y : added a y (global_flags (k_id tc)) = map plain_entry (package_flags (k_id tc) y).
  Proof. destruct (k_id tc), y; reflexivity. Qed.

  Lemma t_options y : entries y (g_user tpl) =
    initial_entries tc KStatic (te_build (g_env tpl)) y ++ map plain_entry (package_flags (k_id tc) y) ++ tpl_files (pr_root p) h y.
  Proof.
    destruct (steps_shape _ _ _ _ _ _ _ _ _ _ _ _ _ _ _ _ _ _ _ _ S) as (SH & X1 & X2 & X3 & X4 & X5).
    pose proof S as [s1 s2 s3 j1 j2 j3 j4 j5 s4 s5 s6 s7 s8 s9 s10 s11]. pose proof (call_env_of _ _ ls _ _ _ _ s1) as CE.
    rewrite (describe_entries _ _ tpl0 _ _ s5 X1), (describe_entries _ _ tpl0 _ _ s4 eq_refl), (generic_initial _ _ _ _ y s1), flags_added, CE, (sh_et _ _ _ _ _ _ _ _ _ _ SH).
    rewrite <- app_assoc. f_equal. f_equal. destruct h as [[] []]; destruct y; cbn -[path_div]; unfold below2, below; cbn [ae_root]; rewrite ?div_empty; reflexivity.
  Qed.
  Lemma i_includes l cs u : info tc (path_div (path_div (pr_root p) "third_party") l) ls cs = Ok u ->
    entries IncludeDirs u = added (AE (k_config tc) (path_div (path_div (pr_root p) "third_party") l) ls) IncludeDirs cs.
  Proof. intros D. unfold info in D. rewrite (proj2 (run_adds _ _ _ _ D)), new_target_entries. reflexivity. Qed.
  Lemma host_added a y : added a y (host_calls h (k_id tc)) = map plain_entry (host_options h (k_id tc) y).
  Proof. destruct h as [[] []], (k_id tc), y; reflexivity. Qed.

  Lemma b_options y : y <> SourceFiles -> y <> HeaderFiles -> entries y (g_user b) =
    initial_entries tc KStatic (te_build (g_env b)) y ++ map plain_entry (package_flags (k_id tc) y) ++
    match y with
    | IncludeDirs => map dir_entry (library_include_dirs (pr_root p))
    | LibDeps => [output_entry tpl]
    | _ => map plain_entry (host_options h (k_id tc) y)
    end.
  Proof.
    intros NS NH. destruct (steps_shape _ _ _ _ _ _ _ _ _ _ _ _ _ _ _ _ _ _ _ _ S) as (SH & X1 & X2 & X3 & X4 & X5).
    pose proof S as [s1 s2 s3 j1 j2 j3 j4 j5 s4 s5 s6 s7 s8 s9 s10 s11]. pose proof (call_env_of _ _ ls _ _ _ _ s2) as CE.
    destruct (inserts_more b2 [json; fmt; spdlog; cli11; taskflow] insert_options) as (I1 & _ & _ & I4).
    destruct (insert_from_more b3 (g_user tpl) insert_options) as (J1 & _ & _ & J4).
    assert (TC : g_toolchain b1 = tc).
    { apply describe_more in s6 as (_ & _ & s6 & _). rewrite s6. exact (generic_toolchain _ _ _ _ s2). }
    rewrite TC in s9.
    rewrite (describe_entries _ _ b0 _ _ s9), J4, host_added by congruence.
    rewrite (describe_entries _ _ b0 _ _ s8), I4 by congruence. rewrite (describe_entries _ _ b0 _ _ s7 X2), (describe_entries _ _ b0 _ _ s6 eq_refl).
    rewrite (generic_initial _ _ _ _ y s2), flags_added, CE, (sh_eb _ _ _ _ _ _ _ _ _ _ SH).
    rewrite !added_given by assumption. rewrite <- !app_assoc. f_equal. f_equal.
    destruct (option_eq_dec y IncludeDirs) as [->|NI].
    - change (times insert_options IncludeDirs) with 1. cbn [over flat_map]. rewrite !app_nil_r.
      rewrite (i_includes _ _ _ j1), (i_includes _ _ _ j2), (i_includes _ _ _ j3), (i_includes _ _ _ j4), (i_includes _ _ _ j5), t_options.
      rewrite !added_given by discriminate. 
      assert (H0 : host_options h (k_id tc) IncludeDirs = []) by (destruct h as [[] []], (k_id tc); reflexivity). rewrite H0.
      assert (H1 : initial_entries tc KStatic (te_build (g_env tpl)) IncludeDirs = []).
      { unfold initial_entries. destruct (class_for (k_id tc)) as [[]|]; reflexivity. }
      rewrite H1. reflexivity.
    - assert (T0 : times insert_options y = 0) by (destruct y; try reflexivity; contradiction). rewrite T0. cbn [over flat_map].
      destruct y; try contradiction; try reflexivity.
      destruct h as [[] []], (k_id tc); reflexivity.
  Qed.

  Lemma e_options y : entries y (g_user ex) = initial_entries tc KExecutable (te_build (g_env ex)) y ++
    match y with
    | SourceFiles => [file_entry (path_div (path_div (pr_root p) "example/hybrid/simple") "build.cpp")]
    | LibDeps => [output_entry b; output_entry tpl]
    | _ => if taken_over y then entries y (g_user b) else []
    end.
  Proof.
    destruct (steps_shape _ _ _ _ _ _ _ _ _ _ _ _ _ _ _ _ _ _ _ _ S) as (SH & X1 & X2 & X3 & X4 & X5).
    pose proof S as [s1 s2 s3 j1 j2 j3 j4 j5 s4 s5 s6 s7 s8 s9 s10 s11].
    assert (CE : call_env ex0 ls = AE (k_config tc) (path_div (pr_root p) "example/hybrid/simple") ls).
    { unfold call_env. destruct (created_fields _ _ _ _ _ _ (by_generic _ _ _ _ _ _ None s3)) as (_ & _ & F1 & F2 & _). rewrite F1, F2. reflexivity. }
    destruct (insert_from_more ex1 (g_user b) example_options) as (J1 & _ & _ & J4).
    rewrite (describe_entries _ _ ex0 _ _ s11), J4 by congruence. rewrite (describe_entries _ _ ex0 _ _ s10 eq_refl).
    rewrite (generic_initial _ _ _ _ y s3), CE, (sh_ee _ _ _ _ _ _ _ _ _ _ SH). rewrite <- !app_assoc. f_equal.
    destruct (option_eq_dec y LibDeps) as [->|NL].
    { rewrite b_options by discriminate. change (times example_options LibDeps) with 1. cbn [over]. rewrite app_nil_r.
      assert (H1 : initial_entries tc KStatic (te_build (g_env b)) LibDeps = []).
      { unfold initial_entries. destruct (class_for (k_id tc)) as [[]|]; reflexivity. }
      rewrite H1. reflexivity. }
    destruct y; try contradiction; cbn -[path_div]; unfold below2, below; cbn [ae_root]; rewrite ?app_nil_r, ?div_empty; reflexivity.
  Qed.
End Steps.

Theorem options_exact p tc h ls tpl b ex : k_config tc = usual_config (k_id tc) -> bootstrap_targets p tc h ls = Ok [tpl; b; ex] ->
  (forall x, entries x (g_user tpl) =
     initial_entries tc KStatic (te_build (g_env tpl)) x ++ map plain_entry (package_flags (k_id tc) x) ++ tpl_files (pr_root p) h x) /\
  (forall x, x <> SourceFiles -> x <> HeaderFiles -> entries x (g_user b) =
     initial_entries tc KStatic (te_build (g_env b)) x ++ map plain_entry (package_flags (k_id tc) x) ++
     match x with
     | IncludeDirs => map dir_entry (library_include_dirs (pr_root p))
     | LibDeps => [output_entry tpl]
     | _ => map plain_entry (host_options h (k_id tc) x)
     end) /\
  (forall x, entries x (g_user ex) =
     initial_entries tc KExecutable (te_build (g_env ex)) x ++
     match x with
     | SourceFiles => [file_entry (path_div (path_div (pr_root p) "example/hybrid/simple") "build.cpp")]
     | LibDeps => [output_entry b; output_entry tpl]
     | _ => if taken_over x then entries x (g_user b) else []
     end).
Proof.
  intros K B. apply bootstrap_steps in B as (t0 & b0 & e0 & tpl' & b' & ex' & json & cli11 & fmt & spdlog & taskflow & t1 & b1 & b2 & b3 & ex1 & E & S).
  injection E as <- <- <-. split; [|split].
  - exact (t_options _ _ _ _ _ _ _ _ _ _ _ _ _ _ _ _ _ _ _ _ S K).
  - exact (b_options _ _ _ _ _ _ _ _ _ _ _ _ _ _ _ _ _ _ _ _ S K).
  - exact (e_options _ _ _ _ _ _ _ _ _ _ _ _ _ _ _ _ _ _ _ _ S K).
Qed.
