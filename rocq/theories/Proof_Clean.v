(** --clean: the build directory is deleted, and the program starts as if it had
    never been built. *)
From Verif Require Import Prelude Proof_Prelude Model_Path Spec_Path Proof_Path Proof_ObjectPath Model_Schema Model_Command Model_ToolchainConfig Model_Target Spec_Target
  Model_Gcc Model_Gen Spec_Gen Model_Reg Spec_Reg Model_Project Spec_Project Model_Full Spec_Full Proof_Full3 Model_Toolchains Model_Targets Spec_Targets Proof_Targets
  Model_Args Model_Clean Spec_Clean.

Lemma resolve_leads s : resolve s = leads_to [] s.
Proof. rewrite leads_to_abs, names_eq. unfold resolve. destruct (starts_slash _); reflexivity. Qed.
Lemma is_prefix_spec a : forall b, is_prefix a b = true <-> exists c, b = a ++ c.
Proof.
  induction a as [|x a IH]; intros b; cbn [is_prefix].
  - split; [intros _; exists b; reflexivity|reflexivity].
  - destruct b as [|y b].
    + split; [discriminate|]. intros [c E]. discriminate E.
    + rewrite andb_true_iff, String.eqb_eq, IH. split.
      * intros [-> [c ->]]. exists c. reflexivity.
      * intros [c E]. injection E as -> ->. split; [reflexivity|exists c; reflexivity].
Qed.
Lemma removes_spec dir f : removes dir f = true <-> inside dir f.
Proof.
  unfold removes, inside. rewrite is_prefix_spec, (resolve_leads dir), (resolve_leads f). split.
  - intros [c E]. exists (rev c). apply (f_equal (@rev string)) in E. rewrite rev_app_distr, !rev_involutive in E. exact E.
  - intros [c E]. exists (rev c). rewrite E, rev_app_distr. reflexivity.
Qed.
Lemma without_inside {A} dir f (x : option A) : inside dir f -> without dir f x = None.
Proof. intros H. unfold without. rewrite (proj2 (removes_spec dir f) H). reflexivity. Qed.
Lemma without_outside {A} dir f (x : option A) : ~ inside dir f -> without dir f x = x.
Proof.
  intros H. unfold without. destruct (removes dir f) eqn:E; [|reflexivity]. destruct (H (proj1 (removes_spec dir f) E)).
Qed.
Lemma inside_out dir e : inside dir (out_file e) <-> inside dir (target_output_path (te_build e) (te_name e) (te_ext e)).
Proof. unfold inside, out_file. rewrite to_path_string_location. reflexivity. Qed.

(** ** The state after cleaning *)

Lemma clean_ids dir l : map fst (clean_targets dir l) = map fst l.
Proof. unfold clean_targets. rewrite map_map. reflexivity. Qed.
Lemma clean_start dir mt l g files : in_build_dir dir mt l g ->
  begin_process files (clean_targets dir l) (clean_gens dir g) =
    finit (clean_times dir mt) (clean_targets dir l) files (map fst g) /\
  fresh_full (clean_times dir mt) (clean_targets dir l) (map fst g).
Proof.
  intros (N1 & N2 & T & N3 & Dj & G). split.
  - unfold begin_process, finit, pinit. f_equal.
    + f_equal. apply map_ext_in. intros [id [e d]] H. cbn [fst snd]. do 2 f_equal. unfold clean_targets in H.
      apply in_map_iff in H as ([id0 [e0 d0]] & E & H). cbn [fst snd] in E. apply pair_equal_spec in E as [<- E]. apply pair_equal_spec in E as [<- <-].
      destruct (T _ _ _ H) as (_ & _ & _ & S). unfold begin_target, init, clean_disk, set_store. cbn [d_mt d_pch d_obj d_tgt d_store d_pch_bad d_obj_bad d_tgt_bad].
      rewrite (without_inside _ _ _ S). reflexivity.
    + unfold clean_gens. rewrite !map_map. apply map_ext_in. intros [j [file d]] H. cbn [fst snd]. f_equal.
      destruct (G _ _ _ H) as (M & S). unfold begin_gen, ginit, clean_gdisk. cbn [gd_mt gd_store]. rewrite M, (without_inside _ _ _ S). reflexivity.
  - split; [split; [|split]|split].
    + rewrite clean_ids. exact N1.
    + unfold clean_targets. rewrite map_map. exact N2.
    + intros id e d H. unfold clean_targets in H. apply in_map_iff in H as ([id0 [e0 d0]] & E & H). cbn [fst snd] in E.
      apply pair_equal_spec in E as [<- E]. apply pair_equal_spec in E as [<- <-]. destruct (T _ _ _ H) as (Te & M & O & S).
      split; [exact Te|]. unfold clean_disk. cbn [d_mt d_tgt]. rewrite M. split; [reflexivity|]. split.
      * unfold clean_times. apply without_inside. exact O.
      * apply without_inside. apply inside_out. exact O.
    + exact N3.
    + intros j H. rewrite clean_ids. exact (Dj j H).
Qed.
Lemma since_history rg bd u8 mt l files gids evs h F : since rg bd u8 mt l (finit mt l files gids) evs h F ->
  fhistory rg bd u8 mt l files gids evs h F.
Proof. induction 1; [apply fhistory_nil|econstructor; eassumption]. Qed.

Theorem clean_recovers : forall rg bd u8 dir mt l g files pre w r run h F x n prog,
  in_build_dir dir mt l g -> (forall j, lawful (bd j)) ->
  since rg bd u8 (clean_times dir mt) (clean_targets dir l) (begin_process files (clean_targets dir l) (clean_gens dir g))
    (pre ++ FP (PRun w r) :: run) h F -> Forall fundisturbed run ->
  registers n prog r -> (forall i, ~ In (i, i) (rg_edges r)) -> 0 < w ->
  p_run (f_proj F) = Some (w, r, x) -> x_over w (rg_built r) (rg_edges r) x -> p_ok (f_proj F) = true ->
  (forall id e st c, In (id, (e, st)) (p_targets (f_proj F)) -> In (id, c) (p_built (f_proj F)) -> In id (rg_built r) ->
     all_current e c (s_disk st) /\
     forall b eb sb, In (b, (eb, sb)) (p_targets (f_proj F)) -> In (out_file eb) (libs c ++ link_deps c) ->
       p_seen (f_proj F) id b = d_tgt (s_disk sb)) /\
  (forall j gs o, In (j, gs) (f_gens F) -> In (j, o) (f_objs F) -> In j (rg_built r) ->
     forall k gi, In (k, gi) (go_ids o) -> id_current (bd j) (gd_mt (g_disk gs)) (g_disk gs) k gi).
Proof.
  intros rg bd u8 dir mt l g files pre w r run h F x n prog P L S U R NL W PR X OK.
  destruct (clean_start dir mt l g files P) as [E Fr]. rewrite E in S. apply since_history in S.
  destruct (full_run_current _ _ _ _ _ _ _ _ _ _ _ _ _ _ _ _ L Fr S U R NL W PR X OK) as (A & B & _). split; [exact A|exact B].
Qed.

(** ** Which files are in the build directory *)

Lemma inside_div dir s n : inside dir s -> simple n -> inside dir (path_div s n).
Proof. intros [l E] H. exists (n :: l). rewrite leads_simple by exact H. rewrite E. reflexivity. Qed.
Lemma inside_refl dir : inside dir dir.
Proof. exists []. reflexivity. Qed.
Lemma target_placed p name k tc rel t : created p name k tc (env_relative p rel) t ->
  simple name -> simple (k_name tc) -> str_mem "/"%char (te_ext (g_env t)) = false ->
  g_binary t = target_state_file (g_env t) /\
  inside (pr_build p) (out_file (g_env t)) /\ inside (pr_build p) (target_state_file (g_env t)).
Proof.
  intros C N K X. destruct (created_fields _ _ _ _ _ _ C) as (B & Nm & _ & _ & G & _). unfold target_state_file.
  rewrite inside_out, G, B, Nm. unfold build_dir, target_output_path. cbn [env_relative en_build].
  assert (D : inside (pr_build p) (path_div (path_div (pr_build p) (k_name tc)) name)).
  { apply inside_div; [|exact N]. apply inside_div; [apply inside_refl|exact K]. }
  split; [reflexivity|]. split; (apply inside_div; [exact D|]); apply simple_ext; try assumption; reflexivity.
Qed.
Lemma generator_placed p name rel : simple name -> inside (pr_build p) (generator_state_file (env_relative p rel) name).
Proof.
  intros N. unfold generator_state_file. cbn [env_relative en_build].
  apply inside_div; [|apply simple_ext; [exact N|reflexivity]]. apply inside_div; [apply inside_refl|exact N].
Qed.

(** ** What --clean does to the files *)

Lemma start_clean cwd a files l g p F : ar_clean a = true -> start_script cwd a files l g = Ok (p, F) ->
  pr_build p = path_div cwd (ar_build a) /\ pr_root p = path_div cwd (ar_root a) /\
  F = begin_process files (clean_targets (pr_build p) l) (clean_gens (pr_build p) g).
Proof.
  intros C H. unfold start_script, reg_init in H. destruct (is_parsed a); [|discriminate]. apply Ok_inj in H. rewrite C in H.
  apply pair_equal_spec in H as [<- <-]. cbn [project_init pr_build pr_root]. auto.
Qed.
Lemma start_without cwd a files l g p F : ar_clean a = false -> start_script cwd a files l g = Ok (p, F) -> F = begin_process files l g.
Proof.
  intros C H. unfold start_script, reg_init in H. destruct (is_parsed a); [|discriminate]. apply Ok_inj in H. rewrite C in H.
  apply pair_equal_spec in H as [<- <-]. reflexivity.
Qed.

Theorem clean_exact : forall dir e d,
  (forall f, inside dir f -> d_mt (clean_disk dir e d) f = None) /\
  (forall f, ~ inside dir f -> d_mt (clean_disk dir e d) f = d_mt d f) /\
  (forall o, inside dir o -> d_obj (clean_disk dir e d) o = None) /\
  (forall o, ~ inside dir o -> d_obj (clean_disk dir e d) o = d_obj d o) /\
  (inside dir (out_file e) -> d_tgt (clean_disk dir e d) = None) /\
  (~ inside dir (out_file e) -> d_tgt (clean_disk dir e d) = d_tgt d) /\
  (inside dir (target_state_file e) -> d_store (clean_disk dir e d) = None) /\
  (~ inside dir (target_state_file e) -> d_store (clean_disk dir e d) = d_store d) /\
  (forall f, f = pch_compile_path (te_build e) (tc_pch_header_ext (te_tc e)) (tc_pch_compile_ext (te_tc e)) ->
     (inside dir f -> d_pch (clean_disk dir e d) = None) /\ (~ inside dir f -> d_pch (clean_disk dir e d) = d_pch d)).
Proof.
  intros dir e d. rewrite inside_out. unfold clean_disk, clean_times. cbn [d_mt d_obj d_tgt d_store d_pch].
  split; [intros f H; apply without_inside; exact H|]. split; [intros f H; apply without_outside; exact H|].
  split; [intros f H; apply without_inside; exact H|]. split; [intros f H; apply without_outside; exact H|].
  split; [intros H; apply without_inside; exact H|]. split; [intros H; apply without_outside; exact H|].
  split; [intros H; apply without_inside; exact H|]. split; [intros H; apply without_outside; exact H|].
  intros f ->. split; intros H; [apply without_inside; exact H|apply without_outside; exact H].
Qed.

Lemma plain_inner s : plain_path s -> inner s.
Proof.
  intros (A & B). split; [|exact B]. destruct s as [|c s]; [reflexivity|]. cbn [starts_slash]. destruct (Ascii.eqb c ch_slash) eqn:E; [|reflexivity].
  apply Ascii.eqb_eq in E as ->. destruct A. exists s. reflexivity.
Qed.

(** A file below [cwd] whose first name differs from that of the build directory. *)
Lemma leads_rel cwd b : inner b -> leads_to [] (path_div cwd b) = rev (filter (fun n => negb (String.eqb n ".")) (names b)) ++ leads_to [] cwd.
Proof. intros I. rewrite path_div_rel by apply I. rewrite leads_inner by apply I. apply walk_inner. apply I. Qed.
Lemma not_inside cwd b s n l : simple b -> inner s -> filter (fun n => negb (String.eqb n ".")) (names s) = n :: l -> n <> b ->
  ~ inside (path_div cwd b) (path_div cwd s).
Proof.
  intros B S E D [m H]. rewrite (leads_rel cwd s S), E, (leads_simple [] cwd b B) in H.
  apply (f_equal (@rev string)) in H. rewrite !rev_app_distr in H. cbn [rev] in H. rewrite rev_app_distr, rev_involutive in H. cbn [rev app] in H.
  rewrite <- app_assoc in H. apply app_inv_head in H. cbn [app] in H. injection H as H _. exact (D H).
Qed.
