(** Proofs about buildexe: rebuilding scripts, the order of its steps, the
    libraries and the program that checks the toolchain. *)
From Coq Require Import Permutation.
From Verif Require Import Prelude Proof_Prelude Model_Path Model_Json Model_Schema Model_Command Model_ToolchainConfig Model_Target Model_Gcc
  Model_Find Model_Sync Model_Api Model_Toolchains Model_Targets Model_BuildExe
  Spec_Path Spec_Sync Spec_Shell Spec_Gcc Spec_Api Spec_Toolchains Spec_Targets Spec_BuildExe Spec_Target
  Proof_Path Proof_ObjectPath Proof_Sync Proof_Api Proof_Shell Proof_Gcc Proof_TargetBase Proof_TargetRun Proof_TargetMain Proof_TargetRuns
  Proof_Targets Proof_TargetCase Proof_Dec Proof_TargetInv Proof_BuildExe.

(** ** Building again *)

Lemma templates_generic p name k tc env t : generic_class p name k tc env None = Ok t -> templates_ok (g_env t).
Proof.
  intros H. destruct (k_id tc) eqn:E.
  - rewrite (generic_gcc _ _ _ _ _ _ E), gcc_class_eq in H. destruct (pr_init p); [|discriminate]. apply Ok_inj in H. subst t.
    apply templates_okb. destruct k; vm_compute; reflexivity.
  - rewrite (generic_msvc _ _ _ _ _ _ E), msvc_class_eq in H. destruct (pr_init p); [|discriminate]. apply Ok_inj in H. subst t.
    apply templates_okb. destruct k; vm_compute; reflexivity.
  - rewrite (generic_other _ _ _ _ _ _) in H by (rewrite E; reflexivity). discriminate.
  - rewrite (generic_mingw _ _ _ _ _ _ E), gcc_class_eq in H. destruct (pr_init p); [|discriminate]. apply Ok_inj in H. subst t.
    apply templates_okb. destruct k; vm_compute; reflexivity.
  - rewrite (generic_other _ _ _ _ _ _) in H by (rewrite E; reflexivity). discriminate.
  - rewrite (generic_other _ _ _ _ _ _) in H by (rewrite E; reflexivity). discriminate.
Qed.
Lemma templates_user p tc a ls t : user_target p tc a ls = Ok t -> templates_ok (g_env t).
Proof.
  unfold user_target. rewrite target_generic_eq.
  destruct (generic_class p (xa_name a) (xa_type a) tc (env_relative p (xa_relative a)) None) as [t0|] eqn:G; [|discriminate]. intros D.
  apply describe_fields in D as (E & _). rewrite E. exact (templates_generic _ _ _ _ _ _ G).
Qed.
Lemma templates_script p tc a b files ls t : script_target p tc a b files ls = Ok t -> templates_ok (g_env t).
Proof.
  unfold script_target. destruct (user_target p tc a ls) as [t0|] eqn:U; [|discriminate]. intros D.
  apply describe_fields in D as (E & _). rewrite E, with_buildcc_env. exact (templates_user _ _ _ _ _ U).
Qed.

(** A header with another time: all sources are compiled. *)
Lemma touched_header rg e d0 evs h st f t' ord cs st2 :
  templates_ok e -> history rg e d0 (evs ++ [EvEnd WOk]) h st -> s_ok st = true -> h_edited h = false ->
  contains_pch (s_cfg st) = false -> In f (headers (s_cfg st)) -> d_mt (s_disk st) f <> Some t' ->
  exec e st (EvEdit f (Some t') :: EvStart (s_cfg st) ord :: EvObjCheck :: compiles cs ++ [EvLinkCheck]) = Some st2 ->
  Permutation (map fst cs) (sources (s_cfg st)).
Proof.
  intros T H O E PC F N X. destruct (stored_after_end rg e d0 evs h st T H O E) as (s & S1 & (_ & S2 & S3 & _)).
  pose proof (nodup_sources e _ (permitted_of_end rg e d0 evs WOk h st T H)) as ND.
  apply history_snoc_inv in H as (h1 & st0 & H1 & A & S & Eh).
  destruct (step_end _ _ _ _ S) as (_ & P2 & _). clear h1 H1 A S Eh E st0.
  set (c := s_cfg st) in *. set (mt := d_mt (s_disk st)) in *. set (mt' := upd mt f (Some t')).
  assert (EX : forall q, In q (sources c ++ headers c ++ compile_deps c) -> mt q <> None).
  { intros q Hq. rewrite !in_app_iff in Hq. destruct Hq as [Hq|[Hq|Hq]].
    - destruct (proj1 S3 q Hq) as (v & _ & (t & K & _)). congruence.
    - destruct (Hashed_ex _ _ _ _ (oc_hdr _ _ _ S2) Hq) as (x & _ & _ & (t & K & _)). congruence.
    - destruct (Hashed_ex _ _ _ _ (oc_dep _ _ _ S2) Hq) as (x & _ & _ & (t & K & _)). congruence. }
  assert (EX' : forall q, In q (sources c ++ headers c ++ compile_deps c) -> mt' q <> None).
  { intros q Hq. unfold mt', upd. destruct (String.eqb q f); [discriminate|exact (EX q Hq)]. }
  assert (NC : ~ compile_setup_unchanged s c mt').
  { intros K. apply unchanged_objclean in K.
    pose proof (Hashed_ex _ _ _ _ (oc_hdr _ _ _ S2) F) as (x & Hx & Px & _).
    pose proof (Hashed_In _ _ _ _ (oc_hdr _ _ _ S2) Hx) as (t1 & A1 & B1). pose proof (Hashed_In _ _ _ _ (oc_hdr _ _ _ K) Hx) as (t2 & A2 & B2).
    rewrite Px in A1, A2. unfold mt', upd in A2. rewrite String.eqb_refl in A2. injection A2 as <-.
    rewrite B1 in B2. apply dec_of_N_inj in B2. subst t1. exact (N A1). }
  cbn [exec step] in X. stp. rewrite P2 in X. unfold start in X.
  destruct (negb (ord_ok ord (sources c)) || existsb is_fother (all_commands e c ord)); [discriminate|].
  destruct (forallb is_fok (all_commands e c ord)); [|stp; rewrite P2 in X; discriminate].
  rewrite PC in X. stp.
  match type of X with exec e (obj_check ?u) _ = _ => set (stA := u) in * end.
  destruct (obj_check_selects stA c (like_user c) ND eq_refl EX') as (pend & Q1 & _ & _ & B).
  rewrite exec_app in X. destruct (exec e (obj_check stA) (compiles cs)) as [stB|] eqn:X1; [|discriminate].
  destruct (compiles_pending e cs _ _ _ X1 Q1) as (pend' & Q2 & Pm).
  cbn [exec step] in X. rewrite Q2 in X. destruct pend' as [|? ?]; [|discriminate]. cbn [il_paths map] in Pm.
  rewrite app_nil_r in Pm. rewrite <- Pm, B; [reflexivity|]. right. right. exists s. split; [exact S1|exact NC].
Qed.

Lemma header_valid id build n : str_mem ch_slash n = false -> extension_of n = ".h" -> is_valid_header (usual_config id) (path_div build n) = true.
Proof. intros S E. unfold is_valid_header, path_extension. rewrite (lib_name build n S), E. destruct id; reflexivity. Qed.
Lemma entries_paths u f : In (file_entry f) (entries HeaderFiles u) -> In (to_path_string f) (il_paths (ts_headers u)).
Proof.
  cbn [entries]. intros H. apply (in_map fst) in H. cbn [file_entry fst] in H. unfold il_paths.
  match type of H with In _ (map fst ?l) => replace (map fst l) with (map pi_path (ts_headers u)) in H; [exact H|] end.
  clear H. induction (ts_headers u) as [|i l IH]; [reflexivity|]. change (pi_path i :: map pi_path l = pi_path i :: map fst (infos_of l)). f_equal. exact IH.
Qed.
Lemma headers_cfg u f : In (to_path_string f) (il_paths (ts_headers u)) -> In (to_path_string f) (headers (cfg_of u)).
Proof.
  intros H. unfold headers, cfg_of, user_of. cbn [ts_headers c_headers]. rewrite infos_map. unfold il_paths at 1. rewrite map_map. cbn [pi_path].
  apply (in_map to_path_string) in H. rewrite to_path_string_idem in H. exact H.
Qed.
Lemma no_pch u : entries PchFiles u = [] -> contains_pch (cfg_of u) = false.
Proof.
  cbn [entries]. intros H. unfold contains_pch, cfg_of, user_of. cbn [ts_pchs c_pchs]. destruct (ts_pchs u); [reflexivity|discriminate].
Qed.
Lemma script_header p tc a b files ls t names : script_target p tc a b files ls = Ok t -> k_config tc = usual_config (k_id tc) ->
  ls (user_dir p tc a) = Some names -> In "buildexe_lib_dirs.h" names ->
  contains_pch (cfg_of (g_user t)) = false /\ In (to_path_string (lib_dirs_file t)) (headers (cfg_of (g_user t))).
Proof.
  intros H K L I. apply script_facts in H as (B & C & E). specialize (E K). split.
  - apply no_pch. rewrite E. unfold initial_entries. destruct (class_for (k_id tc)) as [[]|]; reflexivity.
  - apply headers_cfg, entries_paths. rewrite E. rewrite !in_app_iff. right. right. right. left. cbn [generated_entries]. rewrite L.
    apply in_map_iff. exists (lib_dirs_file t). split; [reflexivity|]. apply filter_In. unfold lib_dirs_file. rewrite B. split.
    + apply in_map. exact I.
    + rewrite K. apply header_valid; reflexivity.
Qed.
Theorem script_recompiled p tc a b files ls t names rg d0 evs h st t' ord cs st2 :
  script_target p tc a b files ls = Ok t -> k_config tc = usual_config (k_id tc) ->
  ls (user_dir p tc a) = Some names -> In "buildexe_lib_dirs.h" names ->
  history rg (g_env t) d0 (evs ++ [EvEnd WOk]) h st -> s_ok st = true -> h_edited h = false -> s_cfg st = cfg_of (g_user t) ->
  d_mt (s_disk st) (to_path_string (lib_dirs_file t)) <> Some t' ->
  exec (g_env t) st (EvEdit (to_path_string (lib_dirs_file t)) (Some t') :: EvStart (cfg_of (g_user t)) ord :: EvObjCheck :: compiles cs ++ [EvLinkCheck]) = Some st2 ->
  Permutation (map fst cs) (sources (cfg_of (g_user t))).
Proof.
  intros H K L I Hi O E C N X. destruct (script_header _ _ _ _ _ _ _ _ H K L I) as [P F]. rewrite <- C in *.
  exact (touched_header rg _ d0 evs h st _ t' ord cs st2 (templates_script _ _ _ _ _ _ _ H) Hi O E P F N X).
Qed.

Lemma step_listing tc root ls1 ls2 u c : match c with AddSource _ _ | AddLibDir _ | AddLibDep _ | AddFlag _ _ => True | AddIncludeDir _ false => True | _ => False end ->
  api_step (AE tc root ls1) u c = api_step (AE tc root ls2) u c.
Proof. destruct c; try (intros []; fail); try reflexivity. destruct glob; [intros []|reflexivity]. Qed.
Lemma run_listing tc root ls1 ls2 : forall cs u,
  Forall (fun c => match c with AddSource _ _ | AddLibDir _ | AddLibDep _ | AddFlag _ _ => True | AddIncludeDir _ false => True | _ => False end) cs ->
  api_run (AE tc root ls1) u cs = api_run (AE tc root ls2) u cs.
Proof.
  induction cs as [|c cs IH]; intros u F; [reflexivity|]. inversion F as [|? ? G R]; subst. cbn [api_run].
  rewrite (step_listing tc root ls1 ls2 u c G). destruct (api_step (AE tc root ls2) u c); [exact (IH _ R)|reflexivity].
Qed.
Lemma user_listing p tc a ls1 ls2 : user_target p tc a ls1 = user_target p tc a ls2.
Proof.
  unfold user_target. destruct (target_generic _ _ _ _ _ _) as [t|]; [|reflexivity]. unfold describe, call_env.
  rewrite (run_listing _ _ ls1 ls2); [reflexivity|]. unfold input_calls. rewrite !Forall_app, !Forall_map.
  repeat split; apply Forall_forall; intros; exact Logic.I.
Qed.
Theorem immediate_idle p tc a ls1 ls2 t rg d0 evs h st ord :
  user_target p tc a ls1 = Ok t -> history rg (g_env t) d0 (evs ++ [EvEnd WOk]) h st -> s_ok st = true -> h_edited h = false ->
  s_cfg st = cfg_of (g_user t) -> ord_ok ord (sources (cfg_of (g_user t))) = true ->
  user_target p tc a ls2 = Ok t /\
  exists st2, exec (g_env t) st (idle_run (cfg_of (g_user t)) ord) = Some st2 /\ s_ok st2 = true /\ s_log st2 = s_log st /\ s_disk st2 = s_disk st.
Proof.
  intros H Hi O E C Oo. split; [rewrite <- H; apply user_listing|]. rewrite <- C in *.
  destruct (idle_run_succeeds rg _ d0 evs h st ord (templates_user _ _ _ _ _ H) Hi O E Oo) as (st2 & X & A1 & _ & A2 & A3). exists st2. auto.
Qed.

(** ** main *)

(** The last part of main. *)
Definition tail_of (w : world) (a : exe_args) (t : target) : result :=
  after [BuildAll t] (need (w_built w) (after (if xa_script a then [Executed (run_command t (xa_configs a))] else [])
    (after [CompileCommands t] ([], w_generated w)))).
Lemma split_cons {A} (x : A) l l1 y l2 : x :: l = l1 ++ y :: l2 -> (l1 = [] /\ x = y /\ l = l2) \/ exists l1', l1 = x :: l1' /\ l = l1' ++ y :: l2.
Proof. destruct l1 as [|z l1]; cbn [app]; intros [= -> ->]; [left; auto|right; exists l1; auto]. Qed.

Lemma tail_executed w a t l1 c l2 : fst (tail_of w a t) = l1 ++ Executed c :: l2 ->
  xa_script a = true /\ c = run_command t (xa_configs a) /\ w_built w = true /\ l1 = [BuildAll t].
Proof.
  unfold tail_of, after, need. cbn [fst app]. destruct (w_built w); cbn [fst app].
  - destruct (xa_script a); cbn [fst app]; intros H.
    + apply split_cons in H as [(_ & H & _)|(l & -> & H)]; [discriminate|].
      apply split_cons in H as [(-> & H & _)|(l' & -> & H)]; [injection H as <-; auto|].
      apply split_cons in H as [(_ & H & _)|(l'' & _ & H)]; [discriminate|]. destruct l''; discriminate.
    + apply split_cons in H as [(_ & H & _)|(l & -> & H)]; [discriminate|].
      apply split_cons in H as [(_ & H & _)|(l' & _ & H)]; [discriminate|]. destruct l'; discriminate.
  - intros H. apply split_cons in H as [(_ & H & _)|(l & -> & H)]; [discriminate|]. destruct l; discriminate.
Qed.

Lemma setup_ok w p tc a h ents ls t : setup w p tc a h ents ls = Ok t <->
  match xa_script a with
  | true => exists b, w_buildcc w = Ok b /\ script_target p tc a b (lib_files (hm_libs h) ents (xa_lib_given a)) ls = Ok t
  | false => user_target p tc a ls = Ok t
  end.
Proof.
  unfold setup. destruct (xa_script a); [|reflexivity]. destruct (w_buildcc w) as [b|].
  - split; [intros H; exists b; auto|]. intros (b' & E & H). apply Ok_inj in E. subst b'. exact H.
  - split; [discriminate|]. intros (b' & E & _). discriminate E.
Qed.
Lemma prepared_setup w p tc a ls t : prepared w p tc a ls t <->
  exists h ents, home_init (fst (w_home w)) (snd (w_home w)) (w_there w) = Ok h /\ w_libs w = Some ents /\ setup w p tc a h ents ls = Ok t.
Proof.
  unfold prepared. split; intros (h & ents & H1 & H2 & H3); exists h, ents; (split; [exact H1|split; [exact H2|]]); apply setup_ok; exact H3.
Qed.

Theorem executed_after_build w p tc a ls l1 c l2 : fst (exe_main w p tc a ls) = l1 ++ Executed c :: l2 ->
  xa_script a = true /\
  ((exists t, host_target p tc ls = Ok t /\ c = host_command t /\ w_host_built w = true /\ l1 = [Verified; HostBuild]) \/
   (exists ht t, host_target p tc ls = Ok ht /\ w_execute w (host_command ht) = true /\ prepared w p tc a ls t /\
      c = run_command t (xa_configs a) /\ w_built w = true /\ l1 = [Verified; HostBuild; Executed (host_command ht); BuildAll t])).
Proof.
  assert (Z : forall l1 l2 : list happened, [] = l1 ++ Executed c :: l2 -> False) by (intros k1 k2 K; destruct k1; discriminate).
  unfold exe_main. destruct (home_init (fst (w_home w)) (snd (w_home w)) (w_there w)) as [h|] eqn:Hh; [|intros H; destruct (Z _ _ H)].
  destruct (w_libs w) as [ents|] eqn:Hl; cbn [lib_infos]; [|intros H; destruct (Z _ _ H)].
  unfold need at 1. destruct (w_verified w); [|intros H; destruct (Z _ _ H)]. unfold after at 1. cbn [fst app]. intros H.
  apply split_cons in H as [(_ & H & _)|(l & -> & H)]; [discriminate|].
  destruct (xa_script a) eqn:S.
  - unfold host_check in H. destruct (host_target p tc ls) as [ht|] eqn:Ht; [|destruct (Z _ _ H)].
    unfold after at 1, need at 1 in H. cbn [fst app] in H. apply split_cons in H as [(_ & H & _)|(l' & -> & H)]; [discriminate|].
    destruct (w_host_built w) eqn:Hb; [|destruct (Z _ _ H)]. unfold after at 1, need at 1 in H. cbn [fst app] in H.
    apply split_cons in H as [(-> & H & _)|(l'' & -> & H)].
    + injection H as <-. split; [reflexivity|]. left. exists ht. auto.
    + destruct (w_execute w (host_command ht)) eqn:X; [|destruct (Z _ _ H)].
      destruct (setup w p tc a h ents ls) as [t|] eqn:T; [|destruct (Z _ _ H)].
      destruct (tail_executed w a t l'' c l2) as (_ & C & B & L); [unfold tail_of; rewrite S; exact H|]. subst.
      split; [reflexivity|]. right. exists ht, t. repeat split; auto. apply prepared_setup. exists h, ents. auto.
  - destruct (setup w p tc a h ents ls) as [t|] eqn:T; [|destruct (Z _ _ H)].
    destruct (tail_executed w a t l c l2) as (S' & _); [unfold tail_of; rewrite S; exact H|]. congruence.
Qed.

Theorem main_success w p tc a ls : snd (exe_main w p tc a ls) = true <->
  exists t, prepared w p tc a ls t /\ w_verified w = true /\ w_built w = true /\ w_generated w = true /\
    (xa_script a = true -> exists ht, host_target p tc ls = Ok ht /\ w_host_built w = true /\ w_execute w (host_command ht) = true) /\
    fst (exe_main w p tc a ls) = [Verified] ++
      (if xa_script a then match host_target p tc ls with Ok ht => [HostBuild; Executed (host_command ht)] | Fatal => [] end else []) ++
      [BuildAll t] ++ (if xa_script a then [Executed (run_command t (xa_configs a))] else []) ++ [CompileCommands t].
Proof.
  setoid_rewrite prepared_setup. unfold exe_main. destruct (home_init (fst (w_home w)) (snd (w_home w)) (w_there w)) as [h|] eqn:Hh.
  2: { cbn [fst snd]. split; [discriminate|]. intros (t & (h & ents & K & _) & _). discriminate K. }
  destruct (w_libs w) as [ents|] eqn:Hl; cbn [lib_infos].
  2: { cbn [fst snd]. split; [discriminate|]. intros (t & (h' & ents & _ & K & _) & _). discriminate K. }
  unfold need at 1 3. destruct (w_verified w) eqn:V.
  2: { cbn [fst snd]. split; [discriminate|]. intros (t & _ & K & _). discriminate K. }
  assert (R : forall t, setup w p tc a h ents ls = Ok t <-> exists h' ents', Ok h = Ok h' /\ Some ents = Some ents' /\ setup w p tc a h' ents' ls = Ok t).
  { intros t. split; [intros K; exists h, ents; auto|]. intros (h' & ents' & [= <-] & [= <-] & K). exact K. }
  destruct (setup w p tc a h ents ls) as [t|] eqn:T.
  - assert (M : (exists h' ents', Ok h = Ok h' /\ Some ents = Some ents' /\ setup w p tc a h' ents' ls = Ok t)) by (apply R; reflexivity).
    destruct (xa_script a) eqn:S.
    + unfold host_check. destruct (host_target p tc ls) as [ht|].
      * unfold after, need. destruct (w_host_built w); [destruct (w_execute w (host_command ht)) eqn:X; [destruct (w_built w); [destruct (w_generated w)|]|]|]; cbn [fst snd app].
        -- split; [|reflexivity]. intros _. exists t. split; [exact M|]. repeat split; auto. intros _. exists ht. auto.
        -- split; [discriminate|]. intros (t' & _ & _ & _ & K & _). discriminate K.
        -- split; [discriminate|]. intros (t' & _ & _ & K & _). discriminate K.
        -- split; [discriminate|]. intros (t' & _ & _ & _ & _ & K & _). destruct (K eq_refl) as (ht' & [= <-] & _ & K'). congruence.
        -- split; [discriminate|]. intros (t' & _ & _ & _ & _ & K & _). destruct (K eq_refl) as (ht' & _ & K' & _). congruence.
      * cbn [after fst snd app]. split; [discriminate|]. intros (t' & _ & _ & _ & _ & K & _). destruct (K eq_refl) as (ht' & K' & _). discriminate K'.
    + unfold after, need. destruct (w_built w); [destruct (w_generated w)|]; cbn [fst snd app].
      * split; [|reflexivity]. intros _. exists t. split; [exact M|]. repeat split; auto. discriminate.
      * split; [discriminate|]. intros (t' & _ & _ & _ & K & _). discriminate K.
      * split; [discriminate|]. intros (t' & _ & _ & K & _). discriminate K.
  - split.
    + destruct (xa_script a); [unfold host_check; destruct (host_target p tc ls)|]; unfold after, need; cbn [fst snd];
        try (destruct (w_host_built w); [destruct (w_execute w (host_command a0))|]); cbn [fst snd]; discriminate.
    + intros (t' & K & _). apply R in K. discriminate K.
Qed.

(** ** Libraries *)

Lemma home_iff done var there m : home_init done var there = Ok m <->
  done = false /\ exists h, var = Some h /\ m = HM h (path_div h "buildcc") (path_div h "libs") (path_div h "extensions") /\
  forall d, In d [h; path_div h "buildcc"; path_div h "libs"; path_div h "extensions"] -> there d = true.
Proof.
  unfold home_init. destruct done; [split; [discriminate|intros (H & _); discriminate H]|].
  destruct var as [h|]; [|split; [discriminate|intros (_ & h & H & _); discriminate H]].
  cbn [hm_home hm_base hm_libs hm_extensions]. split.
  - destruct (there h) eqn:A; [|discriminate]. destruct (there (path_div h "buildcc")) eqn:B; [|discriminate].
    destruct (there (path_div h "libs")) eqn:C; [|discriminate]. destruct (there (path_div h "extensions")) eqn:D; [|discriminate]. cbn [negb].
    intros H. apply Ok_inj in H. subst m. split; [reflexivity|]. exists h. split; [reflexivity|]. split; [reflexivity|].
    intros d [<-|[<-|[<-|[<-|[]]]]]; assumption.
  - intros (_ & h' & [= <-] & -> & F). rewrite !F by (cbn [In]; auto). reflexivity.
Qed.
Lemma libs_exact libs ents infos : lib_infos libs (Some ents) = Ok infos -> (forall n, In n (libraries ents) -> str_mem ch_slash n = false) ->
  infos = map (fun n => (n, to_display_string (path_div libs n))) (libraries ents).
Proof.
  intros H S. cbn [lib_infos] in H. apply Ok_inj in H. subst infos. unfold libraries in *. rewrite map_map. apply map_ext_in. intros e He.
  rewrite (lib_name libs (fst e)) by (apply S, in_map; exact He). reflexivity.
Qed.
Lemma lib_files_exact libs ents given : (forall n, In n (libraries ents) -> str_mem ch_slash n = false) ->
  lib_files libs ents given = flat_map (fun n => map (path_div (path_div libs n)) (given n)) (libraries ents).
Proof.
  intros S. unfold lib_files, libraries in *. induction (filter snd ents) as [|e l IH]; [reflexivity|]. cbn [flat_map map].
  rewrite (lib_name libs (fst e)) by (apply S; left; reflexivity). f_equal. apply IH. intros n Hn. apply S. right. exact Hn.
Qed.

(** ** The program that checks the toolchain *)

Lemma drop_one s : has_filename s = true -> drop_end_slashes (s +++ "/") = s.
Proof.
  unfold has_filename. intros H. apply andb_true_iff in H as [N E]. apply negb_true_iff in E.
  induction s as [|c s IH]; [discriminate|]. change (String c s +++ "/") with (String c (s +++ "/")). cbn [drop_end_slashes].
  destruct s as [|d s].
  - cbn. cbn [ends_slash] in E. rewrite E. reflexivity.
  - rewrite IH by (reflexivity || exact E). reflexivity.
Qed.
Lemma parent_div d n : has_filename d = true -> str_mem ch_slash n = false -> parent_path (path_div d n) = d.
Proof.
  intros H N. assert (S : starts_slash n = false).
  { destruct n as [|c n]; [reflexivity|]. cbn [str_mem] in N. apply orb_false_iff in N as [N _]. cbn [starts_slash]. rewrite Ascii.eqb_sym. exact N. }
  unfold parent_path. rewrite path_div_rel by exact S. rewrite dir_of by exact N. unfold dir_open. rewrite H. rewrite (drop_one d H).
  unfold has_filename in H. apply andb_true_iff in H as [H _]. rewrite H. reflexivity.
Qed.
Lemma parent_named d n : str_mem ch_slash n = false ->
  (d <> "" -> ends_slash d = false -> parent_path (d +++ "/" +++ n) = d) /\ parent_path ("/" +++ n) = "/" /\ parent_path n = "".
Proof.
  intros N. assert (S : starts_slash n = false).
  { destruct n as [|c n]; [reflexivity|]. cbn [str_mem] in N. apply orb_false_iff in N as [N _]. cbn [starts_slash]. rewrite Ascii.eqb_sym. exact N. }
  split; [|split].
  - intros D E. assert (H : has_filename d = true) by (unfold has_filename; rewrite E; destruct d; [contradiction|reflexivity]).
    pose proof (parent_div d n H N) as P. rewrite path_div_rel in P by exact S. unfold dir_open in P. rewrite H, sapp_assoc in P. exact P.
  - unfold parent_path. pose proof (dir_of "/" n N) as P. change ("/" +++ n) with (dir_open "/" +++ n). rewrite P. reflexivity.
  - unfold parent_path. pose proof (dir_of "" n N) as P. change n with (dir_open "" +++ n) at 1 2 3. rewrite P. reflexivity.
Qed.
Lemma has_filename_app a c s : ends_slash (String c s) = false -> has_filename (a +++ String c s) = true.
Proof.
  intros H. unfold has_filename. induction a as [|d a IH].
  - change ("" +++ String c s) with (String c s). rewrite H. reflexivity.
  - change (String d a +++ String c s) with (String d (a +++ String c s)). cbn [nonempty_str andb] in *.
    destruct a as [|d' a]; [exact (f_equal negb H)|].
    change (String d' a +++ String c s) with (String d' (a +++ String c s)) in *. cbn [ends_slash] in *. exact IH.
Qed.
Lemma host_parent p : parent_path (host_file p) = host_dir p.
Proof.
  apply parent_div; [|reflexivity]. unfold host_dir. rewrite path_div_rel by reflexivity. apply has_filename_app. reflexivity.
Qed.
Lemma starts_slash_div a b : starts_slash a = true -> starts_slash (path_div a b) = true.
Proof.
  intros H. unfold path_div. destruct (starts_slash b) eqn:B; [exact B|]. destruct a as [|c a]; [discriminate|].
  destruct (has_filename (String c a)); exact H.
Qed.
Theorem host_exact p tc ls : starts_slash (pr_build p) = true -> k_config tc = usual_config (k_id tc) -> pr_init p = true ->
  match host_flag (k_id tc) with
  | None => host_target p tc ls = Fatal
  | Some flag => exists t, host_target p tc ls = Ok t /\
      te_build (g_env t) = path_div (path_div (host_dir p) (k_name tc)) "verify" /\ te_name (g_env t) = "verify" /\
      forall x, entries x (g_user t) = initial_entries tc KExecutable (te_build (g_env t)) x ++
        match x with SourceFiles => [file_entry (host_file p)] | CppCompileFlags => [plain_entry flag] | _ => [] end
  end.
Proof.
  intros A K I. unfold host_target. fold (host_dir p). fold (host_file p). rewrite host_parent.
  set (env := env_absolute (host_dir p) (host_dir p)). pose proof (construct_init p "verify" KExecutable tc env None) as G.
  destruct (generic_class p "verify" KExecutable tc env None) as [t|] eqn:C.
  2: { destruct (proj1 G eq_refl) as [H|H]; [congruence|]. destruct (k_id tc); try discriminate H; reflexivity. }
  assert (NF : class_for (k_id tc) <> None). { intros H. discriminate (proj2 G (or_intror H)). } clear G.
  pose proof (created_fields p "verify" KExecutable tc env t (by_generic _ _ _ _ _ _ _ C)) as (F1 & F2 & F3 & F4 & _ & _).
  change (en_root env) with (host_dir p) in F4.
  assert (PF : path_div (path_div (host_dir p) "") (host_file p) = host_file p).
  { unfold path_div at 1. replace (starts_slash (host_file p)) with true; [reflexivity|].
    symmetry. apply starts_slash_div, starts_slash_div. exact A. }
  assert (V : is_valid_source (usual_config (k_id tc)) (host_file p) = true).
  { unfold is_valid_source, get_file_ext, path_extension, host_file. rewrite (lib_name (host_dir p) "verify_host_toolchain.cpp" eq_refl). destruct (k_id tc); reflexivity. }
  destruct (describe t ls [AddSource (host_file p) ""]) as [t1|] eqn:D.
  2: { apply describe_fatal in D as (c & [<-|[]] & R). cbn [refused call_env ae_tc] in R. unfold below2 in R. cbn [call_env ae_root] in R.
    rewrite F4, PF, F3, K, V in R. discriminate R. }
  pose proof (describe_fields _ _ _ _ D) as (E1 & _ & _ & E2). apply run_adds in E2 as [_ E2].
  assert (E3 : forall x, entries x (g_user t1) = initial_entries tc KExecutable (te_build (g_env t1)) x ++ match x with SourceFiles => [file_entry (host_file p)] | _ => [] end).
  { intros x. rewrite E2, (generic_entries _ _ _ _ _ _ x C K), E1, F1. f_equal. unfold added. cbn [flat_map adds app]. unfold below2. cbn [call_env ae_root].
    rewrite F4, PF. destruct x; reflexivity. }
  destruct (k_id tc) eqn:Id; cbn [host_flag class_for] in *; try (destruct (NF eq_refl));
    (eexists; split; [reflexivity|]; cbn [add_flag_to with_user g_env]; rewrite E1; split; [exact F1|]; split; [exact F2|];
     intros x; rewrite flag_entries, E3, E1; cbn [flag_option]; destruct x; cbn [option_eq_dec app]; rewrite ?app_nil_r; try reflexivity; rewrite <- ?app_assoc; reflexivity).
Qed.
