(** The targets of the bootstrap program. *)
From Verif Require Import Prelude Proof_Prelude Model_Path Spec_Path Proof_Path Model_Json Model_Schema Model_Command Model_ToolchainConfig
  Model_Target Spec_Target Model_Gcc Model_Find Model_Sync Spec_Sync Proof_Sync Model_Api Spec_Api Proof_Api Model_Toolchains
  Spec_Toolchains Model_Targets Spec_Targets Proof_Targets Model_BuildExe Spec_BuildExe Proof_BuildExe Proof_BuildExe2 Proof_TargetBase
  Model_Reg Spec_Reg Model_Bootstrap Model_Project Spec_Project Spec_Bootstrap.

(** ** What calls and inserts do to a target *)

Lemma bind_ok {A B} (r : outcome A) (f : A -> outcome B) b : bind r f = Ok b -> exists a, r = Ok a /\ f a = Ok b.
Proof. destruct r as [a|]; [|discriminate]. intros H. exists a. auto. Qed.

Lemma describe_more t ls cs t' : describe t ls cs = Ok t' ->
  g_env t' = g_env t /\ g_unique_id t' = g_unique_id t /\ g_toolchain t' = g_toolchain t /\
  (forall x, entries x (g_user t') = entries x (g_user t) ++ added (call_env t ls) x cs) /\ (forall c, In c cs -> ~ refused (call_env t ls) c).
Proof.
  intros H. pose proof H as H0. apply describe_fields in H as (E & _ & U & R). split; [exact E|]. split; [exact U|]. split.
  { unfold describe in H0. destruct (api_run (call_env t ls) (g_user t) cs) as [u|]; [|discriminate]. apply Ok_inj in H0. rewrite <- H0. reflexivity. }
  split; [exact (proj2 (run_adds _ _ _ _ R))|]. intros c C X.
  assert (K : api_run (call_env t ls) (g_user t) cs = Fatal) by (apply run_refused; exists c; auto). congruence.
Qed.
Lemma insert_from_more t u xs :
  g_env (insert_from t u xs) = g_env t /\ g_unique_id (insert_from t u xs) = g_unique_id t /\ g_toolchain (insert_from t u xs) = g_toolchain t /\
  forall x, entries x (g_user (insert_from t u xs)) = entries x (g_user t) ++ over (times xs x) (entries x u).
Proof.
  repeat (split; [reflexivity|]). intros x. unfold insert_from. cbn [with_user g_user].
  apply (proj1 (insert_exact ByRef (g_user t) u xs (or_introl eq_refl))).
Qed.

(** ** Targets without precompiled headers and dependency files *)

Record tidy (x : tconfig) (L : list string) (u : tschema) : Prop := {
  td_src : forall e, In e (entries SourceFiles u) -> exists p, e = file_entry p /\ is_valid_source x p = true;
  td_hdr : forall e, In e (entries HeaderFiles u) -> exists p, e = file_entry p /\ is_valid_header x p = true;
  td_pch : entries PchFiles u = [];
  td_cd : entries CompileDependencies u = [];
  td_ld : entries LinkDependencies u = [];
  td_lib : map fst (entries LibDeps u) = L }.

Lemma tidy_new tc x : tidy x [] (new_target tc).
Proof.
  pose proof (new_target_entries tc) as E. constructor; try (rewrite E; reflexivity).
  - rewrite E. intros e [].
  - rewrite E. intros e [].
Qed.
Lemma tidy_initial tc k d u : (forall x, entries x u = initial_entries tc k d x) -> tidy (k_config tc) [] u.
Proof.
  intros E. constructor; try (rewrite E; unfold initial_entries; destruct (class_for (k_id tc)) as [[]|]; try reflexivity; intros e []).
Qed.

Definition tame (c : call) : bool :=
  match c with
  | AddPchAbsolute _ | AddPch _ _ | AddCompileDependencyAbsolute _ | AddCompileDependency _
  | AddLinkDependencyAbsolute _ | AddLinkDependency _ => false
  | _ => true
  end.
Lemma tame_adds a c x e : tame c = true -> In (x, e) (adds a c) -> x <> PchFiles /\ x <> CompileDependencies /\ x <> LinkDependencies.
Proof.
  intros T H. destruct c; try discriminate T; cbn [adds] in H; try (destruct k; cbn [flag_option In] in H);
    try (destruct H as [H|[]]; injection H as <- <-; repeat split; discriminate);
    try (apply in_map_iff in H as (y & H & _); injection H as <- <-; repeat split; discriminate).
  all: destruct H as [H|H]; [injection H as <- <-; repeat split; discriminate|]; destruct glob; [|destruct H];
    apply in_map_iff in H as (y & H & _); injection H as <- <-; repeat split; discriminate.
Qed.
Lemma tame_added a cs x : forallb tame cs = true -> x = PchFiles \/ x = CompileDependencies \/ x = LinkDependencies -> added a x cs = [].
Proof.
  intros T X. destruct (added a x cs) as [|e l] eqn:E; [reflexivity|]. exfalso.
  assert (H : In e (added a x cs)) by (rewrite E; left; reflexivity). apply in_added in H as (c & C & H).
  apply (proj1 (forallb_forall _ _) T) in C. destruct (tame_adds a c x e C H) as (N1 & N2 & N3). tauto.
Qed.

Lemma tidy_describe x L t ls cs t' : tidy x L (g_user t) -> te_tc (g_env t) = x -> forallb tame cs = true -> describe t ls cs = Ok t' ->
  tidy x (L ++ map fst (added (call_env t ls) LibDeps cs)) (g_user t').
Proof.
  intros [T1 T2 T3 T4 T5 T6] X T D. apply describe_more in D as (_ & _ & _ & E & R). constructor.
  - intros e H. rewrite E in H. apply in_app_or in H as [H|H]; [exact (T1 e H)|]. apply in_added in H as (c & C & H).
    apply adds_source in H as (p & -> & H); [|exact (R c C)]. exists p. cbn [call_env ae_tc] in H. rewrite X in H. auto.
  - intros e H. rewrite E in H. apply in_app_or in H as [H|H]; [exact (T2 e H)|]. apply in_added in H as (c & C & H).
    apply adds_header in H as (p & -> & H); [|left; reflexivity|exact (R c C)]. exists p. cbn [call_env ae_tc] in H. rewrite X in H. auto.
  - rewrite E, T3. apply tame_added; [exact T|tauto].
  - rewrite E, T4. apply tame_added; [exact T|tauto].
  - rewrite E, T5. apply tame_added; [exact T|tauto].
  - rewrite E, map_app, T6. reflexivity.
Qed.
Lemma in_over {A} (a : A) n l : In a (over n l) -> In a l.
Proof. induction n as [|n IH]; [intros []|]. cbn [over]. rewrite in_app_iff. tauto. Qed.
Lemma over_nil {A} n : over n (@nil A) = [].
Proof. induction n as [|n IH]; [reflexivity|]. cbn [over]. exact IH. Qed.
Lemma tidy_insert x L M t u xs : tidy x L (g_user t) -> tidy x M u ->
  tidy x (L ++ over (times xs LibDeps) M) (g_user (insert_from t u xs)).
Proof.
  intros [T1 T2 T3 T4 T5 T6] [U1 U2 U3 U4 U5 U6]. destruct (insert_from_more t u xs) as (_ & _ & _ & E). constructor.
  - intros e H. rewrite E in H. apply in_app_or in H as [H|H]; [exact (T1 e H)|]. exact (U1 e (in_over _ _ _ H)).
  - intros e H. rewrite E in H. apply in_app_or in H as [H|H]; [exact (T2 e H)|]. exact (U2 e (in_over _ _ _ H)).
  - rewrite E, T3, U3. apply over_nil.
  - rewrite E, T4, U4. apply over_nil.
  - rewrite E, T5, U5. apply over_nil.
  - rewrite E, map_app, T6. f_equal. rewrite <- U6. induction (times xs LibDeps) as [|n IH]; [reflexivity|]. cbn [over]. rewrite map_app, IH. reflexivity.
Qed.

(** The files tracked. *)
Lemma infos_paths (l : infolist) : map fst (infos_of l) = il_paths l.
Proof. unfold infos_of, il_paths. rewrite map_map. apply map_ext. reflexivity. Qed.
Lemma infos_normal l : il_paths (infos l) = map to_path_string l.
Proof. rewrite infos_map. unfold il_paths. rewrite map_map. apply map_ext. reflexivity. Qed.
Lemma tidy_tracked x L u f : tidy x L u -> In f (tracked (cfg_of u)) ->
  is_valid_source x f = true \/ is_valid_header x f = true \/ In f (map to_path_string L).
Proof.
  intros [T1 T2 T3 T4 T5 T6] H. cbn [entries] in T1, T2, T3, T4, T5, T6.
  apply (f_equal (map fst)) in T3, T4, T5. rewrite infos_paths in T3, T4, T5, T6. cbn [map] in T3, T4, T5.
  unfold tracked, sources, headers, pchs, libs, compile_deps, link_deps, user_of, cfg_of in H.
  cbn [ts_sources ts_headers ts_pchs ts_libs ts_compile_deps ts_link_deps c_sources c_headers c_pchs c_libs c_compile_deps c_link_deps] in H.
  rewrite !infos_normal, T3, T4, T5, T6 in H. cbn [map app] in H. rewrite app_nil_r in H.
  apply in_app_or in H as [H|H]; [left|right; apply in_app_or in H as [H|H]; [left|right; exact H]].
  - apply in_map_iff in H as (q & <- & H). rewrite <- infos_paths in H. apply in_map_iff in H as (e & <- & H).
    destruct (T1 e H) as (p & -> & V). cbn [file_entry fst]. rewrite to_path_string_idem. exact (proj1 (valid_source_normal x p V)).
  - apply in_map_iff in H as (q & <- & H). rewrite <- infos_paths in H. apply in_map_iff in H as (e & <- & H).
    destruct (T2 e H) as (p & -> & V). cbn [file_entry fst]. rewrite to_path_string_idem. exact (valid_header_normal x p V).
Qed.

(** ** Outputs are no sources and no headers *)

Lemma out_name d n : simple n -> filename (to_path_string (path_div d n)) = n.
Proof.
  intros S. pose proof S as (S1 & S2 & S3 & S4). pose proof (lib_name d n S4) as F. rewrite filename_normal; rewrite F; try assumption; try reflexivity.
  - apply is_dot_false. exact S2.
  - apply is_dotdot_false. exact S3.
Qed.
Definition lib_ext (id : toolchain_id) : string := match id with Msvc => ".lib" | _ => ".a" end.
Definition exe_ext (id : toolchain_id) : string := match id with Gcc => "" | _ => ".exe" end.

(** ** The three targets *)

Definition out_of (e : tenv) : string := target_output_path (te_build e) (te_name e) (te_ext e).
Definition tpl_new (p : Model_Targets.project) (tc : toolchain) : outcome target :=
  generic_class p "libtpl" KStatic tc (env_absolute (path_div (path_div (pr_root p) "third_party") "tiny-process-library") (pr_build p)) None.
Definition bcc_new (p : Model_Targets.project) (tc : toolchain) : outcome target :=
  generic_class p "libbuildcc" KStatic tc (env_absolute (path_div (pr_root p) "buildcc") (pr_build p)) None.

Record shape (p : Model_Targets.project) (tc : toolchain) (h : host) (ls : listing) (tpl0 b0 ex0 tpl b ex : target) : Prop := {
  sh_tpl : tpl_new p tc = Ok tpl0; sh_bcc : bcc_new p tc = Ok b0; sh_ex : example_new p tc = Ok ex0;
  sh_et : g_env tpl = g_env tpl0; sh_eb : g_env b = g_env b0; sh_ee : g_env ex = g_env ex0;
  sh_ut : g_unique_id tpl = g_unique_id tpl0; sh_ub : g_unique_id b = g_unique_id b0; sh_ue : g_unique_id ex = g_unique_id ex0 }.

(** The steps of the program on its targets. *)
Record steps (p : Model_Targets.project) (tc : toolchain) (h : host) (ls : listing) (tpl0 b0 ex0 tpl b ex : target)
    (json cli11 fmt spdlog taskflow : tschema) (t1 b1 b2 b3 ex1 : target) : Prop := {
  st_tpl : tpl_new p tc = Ok tpl0; st_bcc : bcc_new p tc = Ok b0; st_ex : example_new p tc = Ok ex0;
  st_json : info tc (path_div (path_div (pr_root p) "third_party") "json") ls json_calls = Ok json;
  st_cli11 : info tc (path_div (path_div (pr_root p) "third_party") "CLI11") ls cli11_calls = Ok cli11;
  st_fmt : info tc (path_div (path_div (pr_root p) "third_party") "fmt") ls fmt_calls = Ok fmt;
  st_spdlog : info tc (path_div (path_div (pr_root p) "third_party") "spdlog") ls spdlog_calls = Ok spdlog;
  st_taskflow : info tc (path_div (path_div (pr_root p) "third_party") "taskflow") ls taskflow_calls = Ok taskflow;
  st_t1 : describe tpl0 ls (global_flags (k_id tc)) = Ok t1;
  st_t : describe t1 ls (tpl_calls h) = Ok tpl;
  st_b1 : describe b0 ls (global_flags (k_id tc)) = Ok b1;
  st_b2 : describe b1 ls buildcc_calls = Ok b2;
  st_b3 : describe (fold_left (fun t u => insert_from t u insert_options) [json; fmt; spdlog; cli11; taskflow] b2) ls
            [AddLibDepTarget (g_env tpl)] = Ok b3;
  st_b : describe (insert_from b3 (g_user tpl) insert_options) ls (host_calls h (k_id (g_toolchain b1))) = Ok b;
  st_ex1 : describe ex0 ls [AddLibDepTarget (g_env b)] = Ok ex1;
  st_e : describe (insert_from ex1 (g_user b) example_options) ls [AddSource "build.cpp" ""] = Ok ex }.

Lemma bootstrap_steps p tc h ls ts : bootstrap_targets p tc h ls = Ok ts ->
  exists tpl0 b0 ex0 tpl b ex json cli11 fmt spdlog taskflow t1 b1 b2 b3 ex1,
    ts = [tpl; b; ex] /\ steps p tc h ls tpl0 b0 ex0 tpl b ex json cli11 fmt spdlog taskflow t1 b1 b2 b3 ex1.
Proof.
  intros H. unfold bootstrap_targets in H. apply bind_ok in H as (k & HK & H). apply bind_ok in H as (ex0 & HE & H).
  apply bind_ok in H as (k1 & HS & H). apply bind_ok in H as (ex & HX & H). apply Ok_inj in H. subst ts.
  unfold package_new in HK. apply bind_ok in HK as (tpl0 & HT & HK). apply bind_ok in HK as (b0 & HB & HK). apply Ok_inj in HK. subst k.
  unfold package_setup in HS. cbn [pk_tpl pk_buildcc] in HS.
  apply bind_ok in HS as (json & S1 & HS). apply bind_ok in HS as (cli11 & S2 & HS). apply bind_ok in HS as (fmt & S3 & HS).
  apply bind_ok in HS as (spdlog & S4 & HS). apply bind_ok in HS as (taskflow & S5 & HS). apply bind_ok in HS as (t1 & S6 & HS).
  apply bind_ok in HS as (tpl & S7 & HS). apply bind_ok in HS as (b1 & S8 & HS). apply bind_ok in HS as (b & S9 & HS).
  apply Ok_inj in HS. subst k1. cbn [pk_tpl pk_buildcc] in HX |- *.
  unfold buildcc_cb in S9. apply bind_ok in S9 as (b2 & S10 & S9). cbv zeta in S9. apply bind_ok in S9 as (b3 & S11 & S9).
  unfold example_cb in HX. apply bind_ok in HX as (ex1 & S12 & HX).
  exists tpl0, b0, ex0, tpl, b, ex, json, cli11, fmt, spdlog, taskflow, t1, b1, b2, b3, ex1. split; [reflexivity|]. constructor; assumption.
Qed.

Lemma inserts_more t us xs : let t' := fold_left (fun t u => insert_from t u xs) us t in
  g_env t' = g_env t /\ g_unique_id t' = g_unique_id t /\ g_toolchain t' = g_toolchain t /\
  forall x, entries x (g_user t') = entries x (g_user t) ++ flat_map (fun u => over (times xs x) (entries x u)) us.
Proof.
  revert t. induction us as [|u us IH]; intros t; cbn [fold_left flat_map].
  - repeat (split; [reflexivity|]). intros x. rewrite app_nil_r. reflexivity.
  - cbv zeta in IH |- *. destruct (IH (insert_from t u xs)) as (E1 & E2 & E3 & E4). destruct (insert_from_more t u xs) as (F1 & F2 & F3 & F4).
    rewrite E1, E2, E3. repeat (split; [assumption|]). intros x. rewrite E4, F4, app_assoc. reflexivity.
Qed.
Lemma inserts_tidy x L t us : tidy x L (g_user t) -> (forall u, In u us -> tidy x [] u) ->
  tidy x L (g_user (fold_left (fun t u => insert_from t u insert_options) us t)).
Proof.
  revert t. induction us as [|u us IH]; intros t T U; [exact T|]. cbn [fold_left]. apply IH; [|intros v V; apply U; right; exact V].
  replace L with (L ++ over (times insert_options LibDeps) []) by (cbn; apply app_nil_r). apply tidy_insert; [exact T|apply U; left; reflexivity].
Qed.
Lemma info_tidy tc root ls cs u : info tc root ls cs = Ok u -> forallb tame cs = true -> added (AE (k_config tc) root ls) LibDeps cs = [] ->
  tidy (k_config tc) [] u.
Proof.
  unfold info. intros H T L. set (a := AE (k_config tc) root ls) in *. pose proof (run_adds _ _ _ _ H) as [_ E].
  assert (R : forall c, In c cs -> ~ refused a c).
  { intros c C X. assert (K : api_run a (new_target (k_flags tc)) cs = Fatal) by (apply run_refused; exists c; auto). congruence. }
  pose proof (tidy_new (k_flags tc) (k_config tc)) as [T1 T2 T3 T4 T5 T6]. constructor.
  - intros e I. rewrite E in I. apply in_app_or in I as [I|I]; [exact (T1 e I)|]. apply in_added in I as (c & C & I).
    apply adds_source in I as (q & -> & I); [|exact (R c C)]. exists q. auto.
  - intros e I. rewrite E in I. apply in_app_or in I as [I|I]; [exact (T2 e I)|]. apply in_added in I as (c & C & I).
    apply adds_header in I as (q & -> & I); [|left; reflexivity|exact (R c C)]. exists q. auto.
  - rewrite E, T3. apply tame_added; [exact T|tauto].
  - rewrite E, T4. apply tame_added; [exact T|tauto].
  - rewrite E, T5. apply tame_added; [exact T|tauto].
  - rewrite E, map_app, T6, L. reflexivity.
Qed.
Lemma added_none a x cs : forallb (fun c => negb (existsb (fun e => if option_eq_dec (fst e) x then true else false) (adds a c))) cs = true -> added a x cs = [].
Proof.
  intros H. destruct (added a x cs) as [|e l] eqn:E; [reflexivity|]. exfalso.
  assert (K : In e (added a x cs)) by (rewrite E; left; reflexivity). apply in_added in K as (c & C & K).
  apply (proj1 (forallb_forall _ _) H) in C. apply negb_true_iff in C. 
  assert (existsb (fun e => if option_eq_dec (fst e) x then true else false) (adds a c) = true) as X; [|congruence].
  apply existsb_exists. exists (x, e). split; [exact K|]. cbn [fst]. destruct (option_eq_dec x x); [reflexivity|contradiction].
Qed.
(** Calls that add no output of a target. *)
Definition no_target (c : call) : bool := match c with AddLibDepTarget _ => false | _ => true end.
Lemma no_target_added a cs : forallb no_target cs = true -> added a LibDeps cs = [].
Proof.
  intros T. destruct (added a LibDeps cs) as [|e l] eqn:E; [reflexivity|]. exfalso.
  assert (H : In e (added a LibDeps cs)) by (rewrite E; left; reflexivity). apply in_added in H as (c & C & H).
  apply (proj1 (forallb_forall _ _) T) in C. destruct c; try discriminate C; cbn [adds] in H; try (destruct k; cbn [flag_option In] in H);
    try (destruct H as [H|[]]; discriminate H); try (apply in_map_iff in H as (y & H & _); discriminate H).
  all: destruct H as [H|H]; [discriminate H|]; destruct glob; [|destruct H]; apply in_map_iff in H as (y & H & _); discriminate H.
Qed.

Section Steps.
  Variables (p : Model_Targets.project) (tc : toolchain) (h : host) (ls : listing) (tpl0 b0 ex0 tpl b ex : target)
    (json cli11 fmt spdlog taskflow : tschema) (t1 b1 b2 b3 ex1 : target).
  Hypothesis S : steps p tc h ls tpl0 b0 ex0 tpl b ex json cli11 fmt spdlog taskflow t1 b1 b2 b3 ex1.
  Let x := k_config tc.

  Lemma steps_shape : shape p tc h ls tpl0 b0 ex0 tpl b ex /\ g_env t1 = g_env tpl0 /\ g_env b1 = g_env b0 /\ g_env b2 = g_env b0 /\ g_env b3 = g_env b0 /\ g_env ex1 = g_env ex0.
  Proof.
    destruct S as [s1 s2 s3 _ _ _ _ _ s4 s5 s6 s7 s8 s9 s10 s11].
    apply describe_more in s4 as (A1 & A2 & _), s5 as (B1 & B2 & _), s6 as (C1 & C2 & _), s7 as (D1 & D2 & _), s8 as (E1 & E2 & _),
      s9 as (F1 & F2 & _), s10 as (G1 & G2 & _), s11 as (H1 & H2 & _).
    destruct (inserts_more b2 [json; fmt; spdlog; cli11; taskflow] insert_options) as (I1 & I2 & _).
    split; [constructor; try assumption|].
    - congruence.
    - rewrite F1. cbn [insert_from with_user g_env]. congruence.
    - rewrite H1. cbn [insert_from with_user g_env]. congruence.
    - congruence.
    - rewrite F2. cbn [insert_from with_user g_unique_id]. congruence.
    - rewrite H2. cbn [insert_from with_user g_unique_id]. congruence.
    - repeat split; congruence.
  Qed.
  Hypothesis K : k_config tc = usual_config (k_id tc).

  Lemma generic_tidy n kd env t : generic_class p n kd tc env None = Ok t -> tidy x [] (g_user t) /\ te_tc (g_env t) = x.
  Proof.
    intros G. split.
    - apply (tidy_initial tc kd (build_dir env tc n)). intros y. exact (generic_entries _ _ _ _ _ _ y G K).
    - exact (proj1 (proj2 (proj2 (created_fields _ _ _ _ _ _ (by_generic _ _ _ _ _ _ None G))))).
  Qed.
  Lemma flags_tame id : forallb tame (global_flags id) = true /\ forallb no_target (global_flags id) = true.
  Proof. destruct id; split; reflexivity. Qed.
  Lemma host_tame i id : forallb tame (host_calls i id) = true /\ forallb no_target (host_calls i id) = true.
  Proof. destruct i as [[] []]; destruct id; split; reflexivity. Qed.
  Lemma tidy_calls L t cs t' : tidy x L (g_user t) -> te_tc (g_env t) = x -> forallb tame cs = true /\ forallb no_target cs = true ->
    describe t ls cs = Ok t' -> tidy x L (g_user t').
  Proof.
    intros T E [C1 C2] D. rewrite <- (app_nil_r L). change (@nil string) with (map (@fst string (option string)) []).
    rewrite <- (no_target_added (call_env t ls) cs C2). exact (tidy_describe x L t ls cs t' T E C1 D).
  Qed.
  Lemma tidy_link L t e t' : tidy x L (g_user t) -> te_tc (g_env t) = x -> describe t ls [AddLibDepTarget e] = Ok t' ->
    tidy x (L ++ [out_file e]) (g_user t').
  Proof. intros T E D. exact (tidy_describe x L t ls [AddLibDepTarget e] t' T E eq_refl D). Qed.

  Lemma steps_tidy : tidy x [] (g_user tpl) /\ tidy x [out_file (g_env tpl)] (g_user b) /\
    tidy x [out_file (g_env b); out_file (g_env tpl)] (g_user ex).
  Proof.
    destruct steps_shape as (SH & X1 & X2 & X3 & X4 & X5). pose proof S as [s1 s2 s3 j1 j2 j3 j4 j5 s4 s5 s6 s7 s8 s9 s10 s11].
    destruct (generic_tidy _ _ _ _ s1) as [T1 E1]. destruct (generic_tidy _ _ _ _ s2) as [T2 E2]. destruct (generic_tidy _ _ _ _ s3) as [T3 E3].
    assert (HT : tidy x [] (g_user tpl)).
    { refine (tidy_calls _ _ _ _ _ _ _ s5); [|congruence|destruct h as [[] []]; split; reflexivity].
      exact (tidy_calls _ _ _ _ T1 E1 (flags_tame _) s4). }
    assert (HB : tidy x [out_file (g_env tpl)] (g_user b)).
    { refine (tidy_calls _ _ _ _ _ _ (host_tame _ _) s9); [|cbn [insert_from with_user g_env]; congruence].
      change [out_file (g_env tpl)] with ([out_file (g_env tpl)] ++ over (times insert_options LibDeps) (@nil string)).
      apply tidy_insert; [|exact HT]. refine (tidy_link [] _ _ _ _ _ s8).
      - apply inserts_tidy.
        + refine (tidy_calls _ _ _ _ _ _ _ s7); [|congruence|split; reflexivity]. exact (tidy_calls _ _ _ _ T2 E2 (flags_tame _) s6).
        + intros u [<-|[<-|[<-|[<-|[<-|[]]]]]].
          * exact (info_tidy _ _ _ _ _ j1 eq_refl (no_target_added _ json_calls eq_refl)).
          * exact (info_tidy _ _ _ _ _ j3 eq_refl (no_target_added _ fmt_calls eq_refl)).
          * exact (info_tidy _ _ _ _ _ j4 eq_refl (no_target_added _ spdlog_calls eq_refl)).
          * exact (info_tidy _ _ _ _ _ j2 eq_refl (no_target_added _ cli11_calls eq_refl)).
          * exact (info_tidy _ _ _ _ _ j5 eq_refl (no_target_added _ taskflow_calls eq_refl)).
      - rewrite (proj1 (inserts_more b2 _ insert_options)). congruence. }
    split; [exact HT|]. split; [exact HB|]. refine (tidy_calls _ _ _ _ _ _ _ s11); [|cbn [insert_from with_user g_env]; congruence|split; reflexivity].
    change [out_file (g_env b); out_file (g_env tpl)] with ([out_file (g_env b)] ++ over (times example_options LibDeps) [out_file (g_env tpl)]).
    apply tidy_insert; [|exact HB]. exact (tidy_link [] _ _ _ T3 E3 s10).
  Qed.
End Steps.

(** ** Names and outputs *)

Definition tpl_id (tc : toolchain) : string := "[" +++ k_name tc +++ "] libtpl".
Definition bcc_id (tc : toolchain) : string := "[" +++ k_name tc +++ "] libbuildcc".
Definition ex_id (tc : toolchain) : string := "[" +++ k_name tc +++ "] buildcc_hybrid_simple_example".

Lemma append_cancel a b c : a +++ b = a +++ c -> b = c.
Proof. induction a as [|ch a IH]; [auto|]. cbn [String.append]. intros E. injection E as E. auto. Qed.
Lemma ids_differ tc : NoDup [tpl_id tc; bcc_id tc; ex_id tc].
Proof.
  unfold tpl_id, bcc_id, ex_id. repeat constructor; cbn [In]; intros E;
    repeat match goal with H : _ \/ _ |- _ => destruct H as [H|H] | H : False |- _ => destruct H end;
    apply append_cancel, append_cancel in E; discriminate E.
Qed.

Lemma generic_known p n kd tc env t : generic_class p n kd tc env None = Ok t -> exists ext, artifact_ext (k_id tc) kd = Some ext.
Proof.
  intros G. destruct (k_id tc) eqn:E; try (destruct kd; eexists; reflexivity).
  all: rewrite generic_other in G by (rewrite E; reflexivity); discriminate.
Qed.
Record env_facts (tc : toolchain) (kd : target_kind) (n : string) (e : tenv) : Prop := {
  ef_templates : templates_ok e;
  ef_out : exists d ext, artifact_ext (k_id tc) kd = Some ext /\ out_file e = to_path_string (path_div d (n +++ ext)) }.
Lemma generic_facts p n kd tc env t : generic_class p n kd tc env None = Ok t -> env_facts tc kd n (g_env t) /\ g_unique_id t = "[" +++ k_name tc +++ "] " +++ n.
Proof.
  intros G. split; [|exact (proj2 (proj2 (proj2 (proj2 (proj2 (created_fields _ _ _ _ _ _ (by_generic _ _ _ _ _ _ None G)))))))].
  constructor; [exact (templates_generic _ _ _ _ _ _ G)|]. destruct (generic_known _ _ _ _ _ _ G) as (ext & X).
  exists (build_dir env tc n), ext. split; [exact X|]. unfold out_file. rewrite (proj1 (artifact_of _ _ _ _ _ _ _ G X)). reflexivity.
Qed.

(** Names of outputs are names of no sources and no headers; they differ. *)
Lemma out_named tc kd n e : env_facts tc kd n e -> (forall id ext, artifact_ext id kd = Some ext -> simple (n +++ ext)) ->
  exists ext, artifact_ext (k_id tc) kd = Some ext /\ filename (out_file e) = n +++ ext.
Proof. intros [_ (d & ext & X & ->)] Q. exists ext. split; [exact X|]. apply out_name. exact (Q _ _ X). Qed.
Lemma out_invalid tc kd n e : env_facts tc kd n e -> (forall id ext, artifact_ext id kd = Some ext -> simple (n +++ ext)) ->
  (forall id ext, artifact_ext id kd = Some ext -> existsb (String.eqb (extension_of (n +++ ext))) [".c"; ".cpp"; ".cxx"; ".cc"; ".s"; ".S"; ".asm"; ".h"; ".hpp"] = false) ->
  k_config tc = usual_config (k_id tc) ->
  is_valid_source (k_config tc) (out_file e) = false /\ is_valid_header (k_config tc) (out_file e) = false.
Proof.
  intros F Q V K. destruct (out_named tc kd n e F Q) as (ext & X & E). specialize (V _ _ X). rewrite K.
  unfold is_valid_source, is_valid_header, path_extension. cbv zeta. rewrite E.
  assert (A : forall l, incl l [".c"; ".cpp"; ".cxx"; ".cc"; ".s"; ".S"; ".asm"; ".h"; ".hpp"] -> mem_str (extension_of (n +++ ext)) l = false).
  { intros l L. apply mem_str_false. intros C. apply L in C.
    assert (Y : existsb (String.eqb (extension_of (n +++ ext))) [".c"; ".cpp"; ".cxx"; ".cc"; ".s"; ".S"; ".asm"; ".h"; ".hpp"] = true); [|congruence].
    apply existsb_exists. exists (extension_of (n +++ ext)). split; [exact C|apply String.eqb_refl]. }
  assert (H1 : incl (tc_c (usual_config (k_id tc))) [".c"; ".cpp"; ".cxx"; ".cc"; ".s"; ".S"; ".asm"; ".h"; ".hpp"]) by (destruct (k_id tc); intros y Y; cbn in Y |- *; tauto).
  assert (H2 : incl (tc_cpp (usual_config (k_id tc))) [".c"; ".cpp"; ".cxx"; ".cc"; ".s"; ".S"; ".asm"; ".h"; ".hpp"]) by (destruct (k_id tc); intros y Y; cbn in Y |- *; tauto).
  assert (H3 : incl (tc_asm (usual_config (k_id tc))) [".c"; ".cpp"; ".cxx"; ".cc"; ".s"; ".S"; ".asm"; ".h"; ".hpp"]) by (destruct (k_id tc); intros y Y; cbn in Y |- *; tauto).
  assert (H4 : incl (tc_header (usual_config (k_id tc))) [".c"; ".cpp"; ".cxx"; ".cc"; ".s"; ".S"; ".asm"; ".h"; ".hpp"]) by (destruct (k_id tc); intros y Y; cbn in Y |- *; tauto).
  rewrite (A _ H1), (A _ H2), (A _ H3), (A _ H4). destruct (String.eqb _ ""); split; reflexivity.
Qed.

(** ** The registry *)

Lemma bootstrap_reg n clean build test a b e r : NoDup [a; b; e] -> registers n (bootstrap_prog clean build test a b e) r ->
  if build then rg_built r = [a; b; e] /\ rg_edges r = [(a, b); (b, e)] else rg_built r = [] /\ rg_edges r = [].
Proof.
  intros D (calls & H).
  assert (N1 : a <> b) by (inversion D as [|? ? I _]; intros ->; apply I; left; reflexivity).
  assert (N2 : a <> e) by (inversion D as [|? ? I _]; intros ->; apply I; right; left; reflexivity).
  assert (N3 : b <> e) by (inversion D as [|? ? _ D1]; inversion D1 as [|? ? I _]; intros ->; apply I; left; reflexivity).
  apply String.eqb_neq in N1, N2, N3. pose proof N1 as M1. pose proof N2 as M2. pose proof N3 as M3. rewrite String.eqb_sym in M1, M2, M3.
  unfold bootstrap_prog, package_prog in H. destruct build.
  - destruct n as [|[|n]].
    + destruct clean; cbn -[String.eqb] in H; repeat (rewrite ?M1, ?M2, ?M3, ?N1, ?N2, ?N3, ?String.eqb_refl in H; cbn -[String.eqb] in H); discriminate H.
    + destruct clean; cbn -[String.eqb] in H; repeat (rewrite ?M1, ?M2, ?M3, ?N1, ?N2, ?N3, ?String.eqb_refl in H; cbn -[String.eqb] in H); discriminate H.
    + destruct clean; cbn -[String.eqb] in H; repeat (rewrite ?M1, ?M2, ?M3, ?N1, ?N2, ?N3, ?String.eqb_refl in H; cbn -[String.eqb] in H).
      all: injection H as <- _; split; reflexivity.
  - destruct clean; cbn in H; injection H as <- _; split; reflexivity.
Qed.
(** The callbacks, in the order in which they run. *)
Lemma bootstrap_calls n clean build test a b e s : NoDup [a; b; e] -> run_apis n (bootstrap_prog clean build test a b e) rs_init = RDone s ->
  rs_calls s = (if clean then ["clean_cb"] else []) ++
    if build then ["verify"; "package"] ++ library_callbacks ++ ["hybrid_simple_example_cb"] else [].
Proof.
  intros D H.
  assert (N1 : a <> b) by (inversion D as [|? ? I _]; intros ->; apply I; left; reflexivity).
  assert (N2 : a <> e) by (inversion D as [|? ? I _]; intros ->; apply I; right; left; reflexivity).
  assert (N3 : b <> e) by (inversion D as [|? ? _ D1]; inversion D1 as [|? ? I _]; intros ->; apply I; left; reflexivity).
  apply String.eqb_neq in N1, N2, N3. pose proof N1 as M1. pose proof N2 as M2. pose proof N3 as M3. rewrite String.eqb_sym in M1, M2, M3.
  unfold bootstrap_prog, package_prog in H. destruct build.
  - destruct n as [|[|n]].
    + destruct clean; cbn -[String.eqb] in H; repeat (rewrite ?M1, ?M2, ?M3, ?N1, ?N2, ?N3, ?String.eqb_refl in H; cbn -[String.eqb] in H); discriminate H.
    + destruct clean; cbn -[String.eqb] in H; repeat (rewrite ?M1, ?M2, ?M3, ?N1, ?N2, ?N3, ?String.eqb_refl in H; cbn -[String.eqb] in H); discriminate H.
    + destruct clean; cbn -[String.eqb] in H; repeat (rewrite ?M1, ?M2, ?M3, ?N1, ?N2, ?N3, ?String.eqb_refl in H; cbn -[String.eqb] in H).
      all: injection H as <-; reflexivity.
  - destruct clean; cbn in H; injection H as <-; reflexivity.
Qed.
