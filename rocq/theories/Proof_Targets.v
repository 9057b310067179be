(** Proofs about created targets. *)
From Verif Require Import Prelude Model_Path Model_Json Model_Schema Model_Command Spec_Command Proof_Command Model_ToolchainConfig Model_Target Model_Gcc
  Model_Find Model_Sync Model_Api Model_Toolchains Model_Targets
  Spec_Path Spec_Sync Spec_Shell Spec_Gcc Spec_Api Spec_Toolchains Spec_Targets
  Proof_Prelude Proof_Path Proof_TargetBase Proof_ObjectPath Proof_Sync Proof_Api Proof_Shell Proof_Gcc.

(** ** The generic classes *)

Definition mk (p : project) (name : string) (k : target_kind) (tc : toolchain) (env : target_env) (cf : target_config) : target :=
  match construct_target (project_init (pr_root p) (pr_build p)) name (Some k) tc env cf with
  | Ok t => t
  | Fatal => TGT (TE "" "" "" "" (k_config tc) "" "" "" "" "" "" "" "") tc k "" "" "" (new_target (k_flags tc))
  end.
Lemma construct_mk p name k tc env cf :
  construct_target p name (Some k) tc env cf = if pr_init p then Ok (mk p name k tc env cf) else Fatal.
Proof. unfold mk, construct_target, project_init. cbn [pr_init pr_root pr_build negb]. destruct (pr_init p); reflexivity. Qed.
Lemma mk_user p name k tc env cf : g_user (mk p name k tc env cf) = new_target (k_flags tc).
Proof. reflexivity. Qed.
Lemma mk_header p name k tc env cf cf' : header_of (mk p name k tc env cf) = header_of (mk p name k tc env cf').
Proof. reflexivity. Qed.
Lemma mk_pch p name k tc env cf cf' : pch_of (mk p name k tc env cf) = pch_of (mk p name k tc env cf').
Proof. reflexivity. Qed.

(** The options a class adds. *)
Definition gnu_user (k : target_kind) (inc : string) (u : tschema) : tschema :=
  add_flag (add_flag (match k with KDynamic => add_flag u FCommon "-fpic" | _ => u end) FPchObject inc) FPchObject "-H".
Definition msvc_user (yu fi fp : string) (u : tschema) : tschema :=
  add_flag (add_flag (add_flag (add_flag (add_flag (add_flag (add_flag u FC "/nologo") FCpp "/nologo") FCpp "/EHsc") FLink "/nologo")
    FPchObject yu) FPchObject fi) FPchObject fp.
Definition gnu_flag (t : target) : string := "-include " +++ to_display_string (replace_extension (pch_of t) "").
Definition yu_flag (t : target) : string := "/Yu" +++ to_display_string (header_of t).
Definition fi_flag (t : target) : string := "/FI" +++ to_display_string (header_of t).
Definition fp_flag (t : target) : string := "/Fp" +++ to_display_string (pch_of t).

Lemma gnu_opts (k : target_kind) t :
  default_gcc_options (match k with KDynamic => add_flag_to t FCommon "-fpic" | _ => t end) = with_user t (gnu_user k (gnu_flag t) (g_user t)).
Proof. destruct k; reflexivity. Qed.
Lemma msvc_opts t : default_msvc_options t = with_user t (msvc_user (yu_flag t) (fi_flag t) (fp_flag t) (g_user t)).
Proof. unfold default_msvc_options, yu_flag, fi_flag, fp_flag. generalize (to_display_string (header_of t)) (to_display_string (pch_of t)). intros a b.
  generalize ("/Yu" +++ a) ("/FI" +++ a) ("/Fp" +++ b). intros. destruct t; reflexivity. Qed.

Lemma gnu_copy k f u : fst (copy ByMove u (gnu_user k f u) generic_copy_options) = gnu_user k f u.
Proof. destruct u, k; vm_compute; reflexivity. Qed.
Lemma msvc_copy a b c u : fst (copy ByMove u (msvc_user a b c u) generic_copy_options) = msvc_user a b c u.
Proof. destruct u. vm_compute. reflexivity. Qed.

Lemma gcc_class_eq p name k tc env cf : gcc_class p name k tc env cf =
  if pr_init p then Ok (with_user (mk p name k tc env cf) (gnu_user k (gnu_flag (mk p name k tc env cf)) (new_target (k_flags tc)))) else Fatal.
Proof. unfold gcc_class. rewrite construct_mk. destruct (pr_init p); [|reflexivity]. cbn [bind_target]. exact (f_equal (@Ok _) (gnu_opts k _)). Qed.
Lemma msvc_class_eq p name k tc env cf : msvc_class p name k tc env cf =
  if pr_init p then Ok (with_user (mk p name k tc env cf)
    (msvc_user (yu_flag (mk p name k tc env cf)) (fi_flag (mk p name k tc env cf)) (fp_flag (mk p name k tc env cf)) (new_target (k_flags tc)))) else Fatal.
Proof. unfold msvc_class. rewrite construct_mk. destruct (pr_init p); [|reflexivity]. cbn [bind_target]. exact (f_equal (@Ok _) (msvc_opts _)). Qed.

Lemma gnu_flag_mk p name k tc env cf cf' : gnu_flag (mk p name k tc env cf) = gnu_flag (mk p name k tc env cf').
Proof. unfold gnu_flag. rewrite (mk_pch _ _ _ _ _ cf cf'). reflexivity. Qed.
Lemma msvc_flag_mk p name k tc env cf cf' : yu_flag (mk p name k tc env cf) = yu_flag (mk p name k tc env cf') /\
  fi_flag (mk p name k tc env cf) = fi_flag (mk p name k tc env cf') /\ fp_flag (mk p name k tc env cf) = fp_flag (mk p name k tc env cf').
Proof. unfold yu_flag, fi_flag, fp_flag. rewrite (mk_pch _ _ _ _ _ cf cf'), (mk_header _ _ _ _ _ cf cf'). split; [|split]; reflexivity. Qed.

Lemma gnu_from p name k tc env cf cf' : pr_init p = true ->
  copy_from (mk p name k tc env cf) (gcc_class p name k tc env cf') = gcc_class p name k tc env cf.
Proof.
  intros I. rewrite !gcc_class_eq, I. cbn [copy_from]. apply (f_equal (@Ok _)). cbn [with_user g_user].
  rewrite mk_user, (gnu_flag_mk _ _ _ _ _ cf' cf), gnu_copy. reflexivity.
Qed.
Lemma msvc_from p name k tc env cf cf' : pr_init p = true ->
  copy_from (mk p name k tc env cf) (msvc_class p name k tc env cf') = msvc_class p name k tc env cf.
Proof.
  intros I. rewrite !msvc_class_eq, I. cbn [copy_from]. apply (f_equal (@Ok _)). cbn [with_user g_user].
  destruct (msvc_flag_mk p name k tc env cf' cf) as (-> & -> & ->). rewrite mk_user, msvc_copy. reflexivity.
Qed.

Definition class_of (id : toolchain_id) p name k tc env cf :=
  match id with Msvc => msvc_class p name k tc env cf | _ => gcc_class p name k tc env cf end.

Lemma generic_eq p name k tc env op def : generic_config k (k_id tc) = Ok def ->
  generic_class p name k tc env op = class_of (k_id tc) p name k tc env (value_or op def).
Proof.
  intros D. unfold generic_class. rewrite D, construct_mk. destruct (pr_init p) eqn:I.
  - unfold gcc_target, mingw_target, msvc_target. destruct (k_id tc); cbn [generic_config] in D; try discriminate D;
      cbn [class_of]; first [apply gnu_from; exact I | apply msvc_from; exact I].
  - destruct (k_id tc); cbn [class_of]; rewrite ?gcc_class_eq, ?msvc_class_eq, I; reflexivity.
Qed.
Lemma generic_gcc p name k tc env op : k_id tc = Gcc ->
  generic_class p name k tc env op = gcc_class p name k tc env (value_or op (gcc_config k)).
Proof. intros E. rewrite (generic_eq _ _ _ _ _ _ (gcc_config k)); rewrite E; reflexivity. Qed.
Lemma generic_mingw p name k tc env op : k_id tc = MinGW ->
  generic_class p name k tc env op = gcc_class p name k tc env (value_or op (mingw_config k)).
Proof. intros E. rewrite (generic_eq _ _ _ _ _ _ (mingw_config k)); rewrite E; reflexivity. Qed.
Lemma generic_msvc p name k tc env op : k_id tc = Msvc ->
  generic_class p name k tc env op = msvc_class p name k tc env (value_or op (msvc_config k)).
Proof. intros E. rewrite (generic_eq _ _ _ _ _ _ (msvc_config k)); rewrite E; reflexivity. Qed.
Lemma generic_other p name k tc env op : class_for (k_id tc) = None -> generic_class p name k tc env op = Fatal.
Proof. unfold generic_class. destruct (k_id tc); cbn [class_for generic_config]; try discriminate; reflexivity. Qed.

Lemma target_generic_eq p name k tc env op : target_generic p name (Some k) tc env op = generic_class p name k tc env op.
Proof.
  unfold target_generic. destruct (generic_config k (k_id tc)) as [def|] eqn:D.
  - rewrite construct_mk, !(generic_eq _ _ _ _ _ _ def D). destruct (pr_init p) eqn:I.
    + destruct (k_id tc); cbn [generic_config] in D; try discriminate D;
        cbn [class_of]; first [apply gnu_from; exact I | apply msvc_from; exact I].
    + destruct (k_id tc); cbn [class_of]; rewrite ?gcc_class_eq, ?msvc_class_eq, I; reflexivity.
  - unfold generic_class. rewrite D. reflexivity.
Qed.

(** ** Options of new targets *)

Definition base p name k tc env cf t0 := construct_target p name (Some k) tc env cf = Ok t0.

Lemma flag_entries t kd f x : entries x (g_user (add_flag_to t kd f)) =
  entries x (g_user t) ++ (if option_eq_dec (flag_option kd) x then [(f, None)] else []).
Proof.
  unfold add_flag_to, with_user. cbn [g_user]. exact (add_flags_entries kd x [f] (g_user t)).
Qed.
Lemma flag_rest t kd f : rest (g_user (add_flag_to t kd f)) = rest (g_user t).
Proof. exact (add_flags_rest kd [f] (g_user t)). Qed.

Lemma pch_files build id : 
  pch_header_path build (tc_pch_header_ext (usual_config id)) = path_div build "buildcc_pch.h" /\
  pch_compile_path build (tc_pch_header_ext (usual_config id)) (tc_pch_compile_ext (usual_config id)) =
    path_div build (match id with Msvc => "buildcc_pch.h.pch" | _ => "buildcc_pch.h.gch" end).
Proof.
  split; [destruct id; reflexivity|].
  assert (G : forall c, str_mem ch_slash c = false ->
    pch_compile_path build ".h" c = path_div build ("buildcc_pch.h" +++ c)).
  { intros c Hc. unfold pch_compile_path. rewrite header_path. unfold replace_extension. rewrite dir_of, file_of by reflexivity.
    rewrite path_div_rel by reflexivity. reflexivity. }
  destruct id; cbn [usual_config tc_pch_header_ext tc_pch_compile_ext]; rewrite G by reflexivity; reflexivity.
Qed.

Lemma new_flags p name k tc env cf t0 x : base p name k tc env cf t0 ->
  entries x (g_user t0) = map plain_entry (toolchain_flags (k_flags tc) x) /\ rest (g_user t0) = ("", TUndefined, false, false) /\
  te_build (g_env t0) = path_div (path_div (en_build env) (k_name tc)) name /\ te_tc (g_env t0) = k_config tc.
Proof.
  unfold base, construct_target. destruct (pr_init p); cbn [negb]; [|discriminate]. intros H. injection H as <-. cbn [g_user g_env te_build te_tc].
  split; [apply new_target_entries|]. split; [apply new_target_rest|]. split; reflexivity.
Qed.

Lemma gcc_flags p name k tc env cf t id : gcc_class p name k tc env cf = Ok t -> k_config tc = usual_config id -> id <> Msvc ->
  forall x, entries x (g_user t) = map plain_entry (toolchain_flags (k_flags tc) x ++ class_flags GnuTarget k (build_dir env tc name) x).
Proof.
  intros H C N x. unfold gcc_class in H. destruct (construct_target p name (Some k) tc env cf) as [t0|] eqn:B; [|discriminate].
  cbn [bind_target] in H. injection H as <-. destruct (new_flags p name k tc env cf t0 x B) as (E & _ & Bd & Tc).
  unfold default_gcc_options. rewrite !flag_entries.
  assert (P : pch_of (match k with KDynamic => add_flag_to t0 FCommon "-fpic" | _ => t0 end) = path_div (build_dir env tc name) "buildcc_pch.h.gch").
  { unfold pch_of. destruct k; cbn [add_flag_to with_user g_env]; rewrite Bd, Tc, C; destruct (pch_files (build_dir env tc name) id) as [_ K];
      unfold build_dir in *; rewrite K; destruct id; try reflexivity; destruct (N eq_refl). }
  rewrite P.
  assert (R : replace_extension (path_div (build_dir env tc name) "buildcc_pch.h.gch") "" = path_div (build_dir env tc name) "buildcc_pch.h").
  { rewrite !path_div_rel by reflexivity. unfold replace_extension. rewrite dir_of, file_of by reflexivity. reflexivity. }
  rewrite R. rewrite map_app, <- E. rewrite <- !app_assoc.
  destruct k; rewrite ?flag_entries; destruct x; cbn [flag_option option_eq_dec class_flags map app];
    rewrite <- ?app_assoc; cbn [app]; reflexivity.
Qed.
Lemma msvc_flags p name k tc env cf t : msvc_class p name k tc env cf = Ok t -> k_config tc = usual_config Msvc ->
  forall x, entries x (g_user t) = map plain_entry (toolchain_flags (k_flags tc) x ++ class_flags MsvcTarget k (build_dir env tc name) x).
Proof.
  intros H C x. unfold msvc_class in H. destruct (construct_target p name (Some k) tc env cf) as [t0|] eqn:B; [|discriminate].
  cbn [bind_target] in H. injection H as <-. destruct (new_flags p name k tc env cf t0 x B) as (E & _ & Bd & Tc).
  unfold default_msvc_options. rewrite !flag_entries.
  assert (P : pch_of t0 = path_div (build_dir env tc name) "buildcc_pch.h.pch" /\ header_of t0 = path_div (build_dir env tc name) "buildcc_pch.h").
  { unfold pch_of, header_of. rewrite Bd, Tc, C. destruct (pch_files (build_dir env tc name) Msvc) as [K1 K2]. unfold build_dir in *. split; [exact K2|exact K1]. }
  destruct P as [-> ->]. rewrite map_app, <- E, <- !app_assoc.
  destruct x; cbn [flag_option option_eq_dec class_flags map app]; rewrite ?app_nil_r; reflexivity.
Qed.

(** ** Every way of creating a target *)

Lemma Ok_inj {A} (x y : A) : Ok x = Ok y -> x = y.
Proof. intros H. injection H as H. exact H. Qed.

Lemma created_mk p name k tc env t : created p name k tc env t ->
  pr_init p = true /\ exists cf u, t = with_user (mk p name k tc env cf) u.
Proof.
  assert (C : forall cf, class_of (k_id tc) p name k tc env cf = Ok t -> pr_init p = true /\ exists cf u, t = with_user (mk p name k tc env cf) u).
  { intros cf H. unfold class_of in H. destruct (pr_init p) eqn:I.
    - split; [reflexivity|]. exists cf. rewrite gcc_class_eq, msvc_class_eq, I in H.
      destruct (k_id tc); apply Ok_inj in H; eexists; symmetry; exact H.
    - rewrite gcc_class_eq, msvc_class_eq, I in H. destruct (k_id tc); discriminate H. }
  assert (G : forall op, generic_class p name k tc env op = Ok t -> pr_init p = true /\ exists cf u, t = with_user (mk p name k tc env cf) u).
  { intros op H. destruct (generic_config k (k_id tc)) as [def|] eqn:D.
    - rewrite (generic_eq _ _ _ _ _ _ def D) in H. exact (C _ H).
    - unfold generic_class in H. rewrite D in H. discriminate. }
  intros [cf H|cf H|cf H|op H|op H].
  - rewrite construct_mk in H. destruct (pr_init p); [|discriminate]. apply Ok_inj in H. split; [reflexivity|].
    exists cf, (g_user t). rewrite <- H. symmetry. destruct (mk p name k tc env cf); reflexivity.
  - rewrite gcc_class_eq in H. destruct (pr_init p); [|discriminate]. apply Ok_inj in H. split; [reflexivity|]. exists cf. eexists. symmetry. exact H.
  - rewrite msvc_class_eq in H. destruct (pr_init p); [|discriminate]. apply Ok_inj in H. split; [reflexivity|]. exists cf. eexists. symmetry. exact H.
  - exact (G op H).
  - rewrite target_generic_eq in H. exact (G op H).
Qed.

Lemma created_fields p name k tc env t : created p name k tc env t ->
  te_build (g_env t) = build_dir env tc name /\ te_name (g_env t) = name /\ te_tc (g_env t) = k_config tc /\
  te_root (g_env t) = en_root env /\ g_binary t = path_div (build_dir env tc name) (name +++ ".bin") /\
  g_unique_id t = "[" +++ k_name tc +++ "] " +++ name.
Proof.
  intros H. apply created_mk in H as (_ & cf & u & ->). unfold mk, construct_target. repeat split; reflexivity.
Qed.

Lemma describe_fields t ls cs t' : describe t ls cs = Ok t' ->
  g_env t' = g_env t /\ g_binary t' = g_binary t /\ g_unique_id t' = g_unique_id t /\ api_run (call_env t ls) (g_user t) cs = Ok (g_user t').
Proof.
  unfold describe. destruct (api_run (call_env t ls) (g_user t) cs) as [u|]; [|discriminate]. intros H. apply Ok_inj in H. subst t'.
  repeat split; reflexivity.
Qed.

(** ** Where a target writes *)

Definition inner (r : string) : Prop :=
  starts_slash r = false /\ ~ In ".." (names r) /\ exists n, In n (names r) /\ n <> ".".

Lemma walk_inner (D l : list string) : ~ In ".." l -> walk D l = rev (filter (fun n => negb (String.eqb n ".")) l) ++ D.
Proof.
  revert D. induction l as [|n l IH]; intros D H; [reflexivity|].
  unfold walk. cbn [fold_left]. fold (walk (walk1 D n) l). rewrite IH by (intros K; apply H; right; exact K).
  unfold walk1. cbn [filter]. destruct (String.eqb n ".") eqn:E1; [reflexivity|].
  destruct (String.eqb n "..") eqn:E2; [exfalso; apply H; left; apply String.eqb_eq in E2; exact E2|].
  cbn [negb rev]. rewrite <- app_assoc. reflexivity.
Qed.

Lemma leads_inner cwd b r : starts_slash r = false -> leads_to cwd (dir_open b +++ r) = walk (leads_to cwd b) (names r).
Proof.
  intros H. rewrite !leads_to_abs, (names_open _ _ (dir_open_open b)), names_dir_open, walk_app.
  assert (S : starts_slash (dir_open b +++ r) = starts_slash b).
  { destruct b as [|a b]; [exact H|]. rewrite starts_slash_app; [apply starts_slash_dir_open; discriminate|].
    unfold dir_open. destruct (has_filename (String a b)); discriminate. }
  rewrite S. reflexivity.
Qed.

Lemma below_inner b r : inner r -> below_dir b (dir_open b +++ r).
Proof.
  intros (H1 & H2 & n & H3 & H4) cwd. exists (rev (filter (fun n => negb (String.eqb n ".")) (names r))). split.
  - intros E. assert (K : In n (filter (fun n => negb (String.eqb n ".")) (names r))).
    { apply filter_In. split; [exact H3|]. apply String.eqb_neq in H4. rewrite H4. reflexivity. }
    apply in_rev in K. rewrite E in K. destruct K.
  - rewrite leads_inner by exact H1. apply walk_inner. exact H2.
Qed.

Lemma simple_names n : simple n -> names n = [n].
Proof. intros (H1 & _ & _ & H2). rewrite <- (names_join [n]) at 1; [reflexivity|]. constructor; [split; assumption|constructor]. Qed.
Lemma simple_inner n : simple n -> inner n.
Proof.
  intros H. pose proof (simple_names n H) as E. destruct H as (H1 & H2 & H3 & H4). split; [apply starts_slash_nosep; exact H4|].
  rewrite E. split; [intros [K|[]]; exact (H3 K)|]. exists n. split; [left; reflexivity|exact H2].
Qed.
Lemma simple_ext n e : simple n -> str_mem "/"%char e = false -> simple (n +++ e).
Proof.
  intros (H1 & H2 & H3 & H4) He. unfold simple. rewrite str_mem_app, H4, He.
  destruct n as [|a n]; [congruence|]. split; [discriminate|]. split; [|split; [|reflexivity]]; intros E.
  - destruct n as [|b n]; [|discriminate E]. injection E as -> _. congruence.
  - destruct n as [|b n]; [injection E as -> _; congruence|]. destruct n as [|c n]; [|discriminate E]. injection E as -> -> _. congruence.
Qed.

(** lexically_relative never gives an absolute path. *)
Lemma fold_div_starts (l : list string) : Forall (fun x => starts_slash x = false) l -> forall acc, starts_slash acc = false ->
  starts_slash (fold_left path_div l acc) = false.
Proof.
  induction 1 as [|x l Hx H IH]; intros acc Ha; [exact Ha|]. cbn [fold_left]. apply IH.
  unfold path_div. rewrite Hx. destruct acc as [|a acc]; [exact Hx|]. destruct (has_filename (String a acc)); exact Ha.
Qed.
Lemma relative_not_absolute s root : starts_slash (lexically_relative s root) = false.
Proof.
  unfold lexically_relative. destruct (Bool.eqb (pp_abs (parse_path s)) (pp_abs (parse_path root))) eqn:E; cbn [negb]; [|reflexivity].
  apply Bool.eqb_prop in E. unfold path_elems. rewrite <- E.
  set (x := pp_comps (parse_path s) ++ (if pp_trail (parse_path s) then [""] else [])).
  set (y := pp_comps (parse_path root) ++ (if pp_trail (parse_path root) then [""] else [])).
  rewrite (mismatch_common (if pp_abs (parse_path s) then ["/"] else []) x y).
  destruct (mismatch_spec x y) as (c & E1 & _). destruct (mismatch x y) as [a b]. cbn [fst snd] in E1.
  assert (F : Forall (fun n => starts_slash n = false) a).
  { assert (G : Forall (fun n => starts_slash n = false) x).
    { unfold x. apply Forall_app. split.
      - eapply Forall_impl; [|apply (parse_wf s)]. intros n [_ K]. apply starts_slash_nosep, K.
      - destruct (pp_trail (parse_path s)); repeat constructor. }
    rewrite E1 in G. apply Forall_app in G as [_ G]. exact G. }
  cbv zeta. assert (R : starts_slash (if (depth b =? 0)%Z && match a with [] => true | z :: _ => negb (nonempty_str z) end then "."
        else if (depth b <? 0)%Z then "" else fold_left path_div (repeat ".." (Z.to_nat (depth b)) ++ a) "") = false).
  { destruct (_ && _); [reflexivity|]. destruct (depth b <? 0)%Z; [reflexivity|]. apply fold_div_starts; [|reflexivity].
    apply Forall_app. split; [|exact F]. apply Forall_forall. intros n K. apply repeat_spec in K. subst n. reflexivity. }
  destruct a; [destruct b; [reflexivity|exact R]|exact R].
Qed.

Lemma piece_sub c x : forall s, In x (pieces c s) -> exists a b, s = a +++ x +++ b.
Proof.
  intros s H. apply in_split in H as (l1 & l2 & E). pose proof (join_pieces c s) as J. rewrite E in J. clear E.
  revert s J. induction l1 as [|y l1 IH]; intros s J.
  - destruct l2 as [|z l2]; cbn [app join] in J; [exists "", ""; rewrite <- J; symmetry; apply sapp_nil|].
    exists "". eexists. symmetry. exact J.
  - cbn [app] in J. rewrite join_cons in J by (destruct l1; discriminate).
    destruct (IH _ eq_refl) as (a & b & K). rewrite K in J. exists (y +++ str1 c +++ a), b. rewrite <- J, !sapp_assoc. reflexivity.
Qed.
Lemma name_sub n s : In n (names s) -> exists a b, s = a +++ n +++ b.
Proof. intros H. apply filter_In in H as [H _]. exact (piece_sub _ _ _ H). Qed.

Lemma has_dotdot_app a b : has_dotdot (a +++ ".." +++ b) = true.
Proof.
  induction a as [|x a IH]; [reflexivity|]. change (String x a +++ ".." +++ b) with (String x (a +++ ".." +++ b)).
  cbn [has_dotdot]. destruct (a +++ ".." +++ b); [discriminate IH|]. rewrite IH. apply orb_true_r.
Qed.
Lemma dots_none s : str_mem ch_dot (dots_to_unders s) = false.
Proof.
  unfold dots_to_unders. induction s as [|a s IH]; [reflexivity|]. cbn [str_map str_mem]. rewrite IH, orb_false_r.
  destruct (Ascii.eqb a ch_dot) eqn:E; [reflexivity|exact E].
Qed.
Lemma flat_no_dotdot rel : ~ In ".." (names (flat rel)).
Proof.
  intros H. apply name_sub in H as (a & b & E). unfold flat in E. destruct (has_dotdot rel) eqn:D.
  - pose proof (dots_none rel) as N. rewrite E, !str_mem_app in N. cbn [str_mem] in N. rewrite orb_true_r in N. discriminate.
  - rewrite E, has_dotdot_app in D. discriminate.
Qed.

Lemma ext_simple x id : str_mem "/"%char x = false -> simple (x +++ tc_obj_ext (usual_config id)).
Proof.
  intros H. assert (G : forall e, e = ".o" \/ e = ".obj" -> simple (x +++ e)).
  { intros e He. unfold simple. rewrite str_mem_app, H.
    destruct x as [|a [|b [|c x]]]; destruct He as [-> | ->]; repeat split; discriminate. }
  destruct id; apply G; auto.
Qed.

Lemma object_inner root build id s : exists r, object_path root build (tc_obj_ext (usual_config id)) s = dir_open build +++ r /\ inner r.
Proof.
  assert (N : str_mem ch_slash (tc_obj_ext (usual_config id)) = false) by (destruct id; reflexivity).
  rewrite object_path_text by (apply relative_not_absolute || exact N). set (rel := lexically_relative s root).
  exists (dir_prefix (flat rel) +++ filename s +++ tc_obj_ext (usual_config id)). split; [reflexivity|].
  pose proof (ext_simple (filename s) id (filename_nosep s)) as S. pose proof (simple_names _ S) as E.
  unfold inner. rewrite (names_open _ _ (dir_prefix_open _)), E. split; [|split].
  - destruct (dir_prefix (flat rel)) as [|a d] eqn:D; [apply starts_slash_nosep, S|]. rewrite starts_slash_app by discriminate.
    pose proof (starts_slash_flat rel (relative_not_absolute s root)) as F. rewrite (dir_prefix_filename (flat rel)), D in F. exact F.
  - intros K. apply in_app_or in K as [K|[K|[]]]; [|exact (proj1 (proj2 (proj2 S)) K)].
    apply (flat_no_dotdot rel). rewrite (dir_prefix_filename (flat rel)), (names_open _ _ (dir_prefix_open _)). apply in_or_app. left. exact K.
  - eexists. split; [apply in_or_app; right; left; reflexivity|]. apply S.
Qed.

(** Normalising keeps blanks out. *)
Lemma join_mem c l : Forall (fun x => str_mem c x = false) l -> Ascii.eqb c ch_slash = false -> str_mem c (join "/" l) = false.
Proof.
  intros H Hc. induction H as [|x l Hx H IH]; [reflexivity|]. destruct l as [|y l]; [exact Hx|].
  change "/" with (str1 ch_slash). rewrite join_cons by discriminate. rewrite !str_mem_app, Hx. change (str1 ch_slash) with "/". rewrite IH.
  cbn [str_mem]. rewrite orb_false_r. change "/"%char with ch_slash. rewrite Ascii.eqb_sym, Hc. reflexivity.
Qed.
Lemma normal_keeps (P : string -> Prop) ab : P ".." -> forall cs stk tr, Forall P cs -> Forall P stk -> Forall P (fst (fold_left (normal_step ab) cs (stk, tr))).
Proof.
  intros H0. induction cs as [|c cs IH]; intros stk tr H1 H2; [exact H2|]. inversion H1 as [|? ? Hc Hr]; subst. cbn [fold_left].
  assert (K : Forall P (fst (normal_step ab (stk, tr) c))).
  { unfold normal_step. destruct (is_dot c); [exact H2|]. destruct (is_dotdot c).
    - destruct stk as [|t r]; [destruct ab; repeat constructor; exact Hc|]. destruct (is_dotdot t); [constructor; assumption|].
      inversion H2; assumption.
    - constructor; assumption. }
  destruct (normal_step ab (stk, tr) c) as [stk' tr']. exact (IH stk' tr' Hr K).
Qed.
Lemma sub_mem c a x b : str_mem c (a +++ x +++ b) = false -> str_mem c x = false.
Proof. rewrite !str_mem_app. intros H. apply orb_false_iff in H as [_ H]. apply orb_false_iff in H as [H _]. exact H. Qed.
Lemma no_blank_normal s : str_mem ch_space s = false -> str_mem ch_space (to_path_string s) = false.
Proof.
  intros H. destruct s as [|a0 s0]; [reflexivity|]. remember (String a0 s0) as s. assert (N : s <> "") by (subst; discriminate). clear Heqs a0 s0.
  rewrite to_path_string_nonempty by exact N.
  assert (F : Forall (fun x => str_mem ch_space x = false) (pp_comps (parse_path s))).
  { rewrite <- names_eq. apply Forall_forall. intros n K. apply name_sub in K as (a & b & ->). exact (sub_mem _ _ _ _ H). }
  assert (G : Forall (fun x => str_mem ch_space x = false) (pp_comps (normal (parse_path s)))).
  { unfold normal. pose proof (normal_keeps (fun x => str_mem ch_space x = false) (pp_abs (parse_path s)) eq_refl (pp_comps (parse_path s)) [] false F (Forall_nil _)) as K.
    destruct (fold_left (normal_step (pp_abs (parse_path s))) (pp_comps (parse_path s)) ([], false)) as [stk tr]. cbn [fst] in K.
    destruct stk as [|t stk]; [destruct (pp_abs (parse_path s)); repeat constructor|]. cbn [pp_comps]. apply Forall_rev. exact K. }
  unfold print_path. rewrite !str_mem_app, join_mem by (exact G || reflexivity).
  destruct (pp_abs (normal (parse_path s))), (pp_trail (normal (parse_path s))); reflexivity.
Qed.

Lemma pch_path_inner build id f : str_mem "/"%char f = false ->
  replace_extension (pch_header_path build (tc_pch_header_ext (usual_config id))) ("." +++ f) = dir_open build +++ "buildcc_pch." +++ f /\
  inner ("buildcc_pch." +++ f).
Proof.
  intros H. split.
  - replace (tc_pch_header_ext (usual_config id)) with ".h" by (destruct id; reflexivity).
    rewrite header_path. unfold replace_extension. rewrite dir_of, file_of by reflexivity. reflexivity.
  - apply simple_inner. apply simple_ext; [|exact H]. repeat split; discriminate.
Qed.

Lemma blanks_div a b : no_blanks a -> no_blanks b -> no_blanks (path_div a b).
Proof.
  unfold no_blanks, path_div. intros Ha Hb. destruct (starts_slash b); [exact Hb|].
  destruct (has_filename a); rewrite !str_mem_app, Ha, Hb; reflexivity.
Qed.
Lemma blanks_open a : no_blanks a -> no_blanks (dir_open a).
Proof. unfold no_blanks, dir_open. intros Ha. destruct (has_filename a); [|exact Ha]. rewrite str_mem_app, Ha. reflexivity. Qed.

Lemma writes_below p name k tc env t id ls cs t' :
  created p name k tc env t -> describe t ls cs = Ok t' ->
  k_config tc = usual_config id -> simple name -> str_mem "/"%char (te_ext (g_env t)) = false ->
  (ts_pchs (g_user t') = [] \/ no_blanks (build_dir env tc name)) ->
  forall f, In f (target_writes t') -> below_dir (build_dir env tc name) f.
Proof.
  intros C D K N X B f H. apply created_fields in C as (F1 & F2 & F3 & F4 & F5 & _).
  apply describe_fields in D as (G1 & G2 & _ & _). unfold target_writes in H. cbv zeta in H. unfold header_of, pch_of, obj_of in H.
  rewrite G1, G2, F1, F2, F3, F4, F5, K in H. set (b := build_dir env tc name) in *. cbn [In] in H.
  assert (S : forall e, str_mem "/"%char e = false -> below_dir b (path_div b (name +++ e))).
  { intros e He. pose proof (simple_inner _ (simple_ext name e N He)) as I. rewrite path_div_rel by apply I. apply below_inner, I. }
  destruct H as [<-|[<-|H]]; [apply S; reflexivity|apply S; exact X|].
  apply in_app_or in H as [H|H].
  - apply in_map_iff in H as (s & <- & _). destruct (object_inner (en_root env) b id s) as (r & -> & I). apply below_inner, I.
  - destruct (ts_pchs (g_user t')) as [|q0 q] eqn:Q; [destruct H|]. destruct B as [B|B]; [discriminate B|].
    assert (P : forall g, str_mem "/"%char g = false -> below_dir b (replace_extension (pch_header_path b (tc_pch_header_ext (usual_config id))) ("." +++ g))).
    { intros g Hg. destruct (pch_path_inner b id g Hg) as [-> I]. apply below_inner, I. }
    cbn [In] in H. destruct H as [<-|[<-|[<-|[<-|[]]]]].
    + replace (tc_pch_header_ext (usual_config id)) with ".h" by (destruct id; reflexivity). rewrite header_path. apply below_inner, simple_inner.
      repeat split; discriminate.
    + unfold pch_compile_path. destruct id; first [exact (P "h.pch" eq_refl) | exact (P "h.gch" eq_refl)].
    + unfold pch_object_path. destruct id; first [exact (P "obj" eq_refl) | exact (P "o" eq_refl)].
    + match goal with |- below_dir _ (pch_source_saved_as _ _ ?h) => set (hc := h) end.
      assert (W : pch_source_saved_as b (tc_pch_header_ext (usual_config id)) hc =
                  to_path_string (pch_source_path b (tc_pch_header_ext (usual_config id)) hc)).
      { apply saved_as_iff. apply no_blank_normal. unfold pch_source_path.
        assert (Z : forall g, str_mem "/"%char g = false -> str_mem " "%char g = false ->
          str_mem ch_space (replace_extension (pch_header_path b (tc_pch_header_ext (usual_config id))) ("." +++ g)) = false).
        { intros g Hg1 Hg2. destruct (pch_path_inner b id g Hg1) as [-> _]. rewrite !str_mem_app.
          pose proof (blanks_open b B) as Bo. unfold no_blanks in Bo. change ch_space with " "%char. rewrite Bo, Hg2. reflexivity. }
        destruct hc; [exact (Z "cpp" eq_refl eq_refl)|exact (Z "c" eq_refl eq_refl)]. }
      rewrite W. intros cwd. rewrite to_path_string_location.
      assert (U : below_dir b (pch_source_path b (tc_pch_header_ext (usual_config id)) hc)).
      { unfold pch_source_path. destruct hc; [exact (P "cpp" eq_refl)|exact (P "c" eq_refl)]. }
      exact (U cwd).
Qed.

(** ** Different targets *)

Lemma leads_simple cwd d n : simple n -> leads_to cwd (path_div d n) = n :: leads_to cwd d.
Proof.
  intros H. pose proof (simple_inner n H) as I. pose proof (simple_names n H) as E. rewrite path_div_rel by apply I.
  rewrite leads_inner, E by apply I. destruct H as (_ & H2 & H3 & _). unfold walk. cbn [fold_left]. unfold walk1.
  apply String.eqb_neq in H2, H3. rewrite H2, H3. reflexivity.
Qed.
Lemma build_leads cwd env tc name : simple (k_name tc) -> simple name ->
  leads_to cwd (build_dir env tc name) = name :: k_name tc :: leads_to cwd (en_build env).
Proof. intros H1 H2. unfold build_dir. rewrite leads_simple, leads_simple by assumption. reflexivity. Qed.

Lemma below_apart cwd env1 env2 tc1 tc2 n1 n2 f1 f2 :
  en_build env1 = en_build env2 -> simple (k_name tc1) -> simple (k_name tc2) -> simple n1 -> simple n2 ->
  (k_name tc1, n1) <> (k_name tc2, n2) ->
  below_dir (build_dir env1 tc1 n1) f1 -> below_dir (build_dir env2 tc2 n2) f2 -> leads_to cwd f1 <> leads_to cwd f2.
Proof.
  intros E T1 T2 N1 N2 D B1 B2 H. destruct (B1 cwd) as (l1 & _ & L1). destruct (B2 cwd) as (l2 & _ & L2).
  rewrite L1, L2, !build_leads, E in H by assumption. apply (f_equal (@rev string)) in H. rewrite !rev_app_distr in H. cbn [rev] in H.
  rewrite <- !app_assoc in H. apply app_inv_head in H. cbn [app] in H. injection H as H1 H2 _. apply D. rewrite H1, H2. reflexivity.
Qed.

(** ** The unique id *)

Lemma bracket_split a b x y : str_mem "]"%char a = false -> str_mem "]"%char b = false -> a +++ "] " +++ x = b +++ "] " +++ y -> a = b /\ x = y.
Proof.
  revert b. induction a as [|c a IH]; intros [|d b] Ha Hb H.
  - injection H as H. auto.
  - cbn [String.append] in H. injection H as H _. subst d. discriminate Hb.
  - cbn [String.append] in H. injection H as H _. subst c. discriminate Ha.
  - cbn [String.append] in H. injection H as -> H. cbn [str_mem] in Ha, Hb. apply orb_false_iff in Ha as [_ Ha], Hb as [_ Hb].
    destruct (IH b Ha Hb H) as [-> ->]. auto.
Qed.

(** ** msvc commands *)

Lemma pch_object_eq e c : (if contains_pch c then to_display_string (pch_object_path (te_build e) (tc_pch_header_ext (te_tc e)) (tc_obj_ext (te_tc e))) else "")
  = pch_object_group e c.
Proof. unfold contains_pch, pch_object_group, user_of. cbn [ts_pchs]. rewrite infos_map. destruct (c_pchs c); reflexivity. Qed.

Lemma msvc_compile_text e c s : te_compile_command e = msvc_compile_command ->
  compile_command e c s = FOk (join " " (msvc_compile_groups e c s)).
Proof.
  intros T. unfold compile_command. rewrite T, default_args_eq.
  change msvc_compile_command with (render ([F "compiler"] ++ L " " ++ [F "preprocessor_flags"] ++ L " " ++ [F "include_dirs"] ++ L " " ++
    [F "common_compile_flags"] ++ L " " ++ [F "pch_object_flags"] ++ L " " ++ [F "compile_flags"] ++ L " /Fo" ++ [F "output"] ++ L " /c " ++ [F "input"])).
  rewrite construct_tokens by reflexivity.
  cbv [expand app F L first_value List.find option_map fst snd String.eqb Ascii.eqb Bool.eqb to_fres].
  rewrite sapp_nil, prefixed_eq, pch_only_eq, select_flags_eq. change (select_compiler e) with (compiler_for e).
  unfold msvc_compile_groups, group, aggregate. reflexivity.
Qed.
Lemma msvc_pch_text e c : te_pch_command e = msvc_pch_command -> pch_command e c = FOk (join " " (msvc_pch_groups e c)).
Proof.
  intros T. unfold pch_command. rewrite T, default_args_eq.
  change msvc_pch_command with (render ([F "compiler"] ++ L " " ++ [F "preprocessor_flags"] ++ L " " ++ [F "include_dirs"] ++ L " " ++
    [F "common_compile_flags"] ++ L " /Yc" ++ [F "input"] ++ L " /FI" ++ [F "input"] ++ L " /Fp" ++ [F "output"] ++ L " " ++ [F "pch_compile_flags"] ++ L " " ++
    [F "compile_flags"] ++ L " /Fo" ++ [F "pch_object_output"] ++ L " /c " ++ [F "input_source"])).
  rewrite construct_tokens by reflexivity.
  cbv [expand app F L first_value List.find option_map fst snd String.eqb Ascii.eqb Bool.eqb to_fres].
  rewrite sapp_nil, prefixed_eq, pch_only_eq, select_flags_eq, pch_object_eq, contains_cpp_eq.
  replace (if contains_cpp e c then te_cxx e else te_cc e) with (compiler_for e (pch_language e c))
    by (rewrite <- contains_cpp_eq; destruct (contains_cpp e c); reflexivity).
  replace (contains_cpp e c) with (match pch_language e c with ExtCpp => true | _ => false end)
    by (rewrite <- contains_cpp_eq; destruct (contains_cpp e c); reflexivity).
  unfold msvc_pch_groups, group, aggregate. reflexivity.
Qed.
Lemma msvc_link_text k e c ord : te_link_command e = Model_Gcc.tf_link (msvc_config k) -> link_command e c ord = FOk (join " " (msvc_link_groups k e c ord)).
Proof.
  assert (Lb : il_paths (ts_libs (user_of c)) = map to_path_string (c_libs c)).
  { unfold user_of. cbn [ts_libs]. rewrite infos_map. unfold il_paths. rewrite map_map. reflexivity. }
  intros T. unfold link_command. rewrite T, default_args_eq, Lb. destruct k; cbn [msvc_config Model_Gcc.tf_link].
  - change msvc_executable_link with (render ([F "linker"] ++ L " " ++ [F "link_flags"] ++ L " " ++ [F "lib_dirs"] ++ L " /OUT:" ++ [F "output"] ++ L " " ++
      [F "lib_deps"] ++ L " " ++ [F "compiled_sources"] ++ L " " ++ [F "pch_object_output"])).
    rewrite construct_tokens by reflexivity.
    cbv [expand app F L first_value List.find option_map fst snd String.eqb Ascii.eqb Bool.eqb to_fres].
    rewrite sapp_nil, prefixed_eq, pch_object_eq. unfold msvc_link_groups, group, aggregate. cbn [app join]. rewrite !sapp_assoc. reflexivity.
  - change msvc_static_link with (render ([F "archiver"] ++ L " " ++ [F "link_flags"] ++ L " /OUT:" ++ [F "output"] ++ L " " ++
      [F "compiled_sources"] ++ L " " ++ [F "pch_object_output"])).
    rewrite construct_tokens by reflexivity.
    cbv [expand app F L first_value List.find option_map fst snd String.eqb Ascii.eqb Bool.eqb to_fres].
    rewrite sapp_nil, pch_object_eq. unfold msvc_link_groups, group, aggregate. cbn [app join]. rewrite ?sapp_assoc. reflexivity.
  - change msvc_dynamic_link with (render ([F "linker"] ++ L " /DLL " ++ [F "link_flags"] ++ L " /OUT:" ++ [F "output"] ++ L ".dll /IMPLIB:" ++ [F "output"] ++ L " " ++
      [F "compiled_sources"] ++ L " " ++ [F "pch_object_output"])).
    rewrite construct_tokens by reflexivity.
    cbv [expand app F L first_value List.find option_map fst snd String.eqb Ascii.eqb Bool.eqb to_fres].
    rewrite sapp_nil, pch_object_eq. unfold msvc_link_groups, group, aggregate. cbn [app join]. rewrite ?sapp_assoc. reflexivity.
Qed.

(** ** The compile command of a described gcc target *)

Lemma map_fst_plain l : map fst (map plain_entry l) = l.
Proof. rewrite map_map. apply map_id. Qed.

Lemma strings_entries (l : list string) : map fst (strings_of l) = l.
Proof. unfold strings_of. rewrite map_map. apply map_id. Qed.

Lemma gcc_described p name k tc env cf t id ls cs t' x :
  gcc_class p name k tc env cf = Ok t -> k_config tc = usual_config id -> id <> Msvc -> describe t ls cs = Ok t' ->
  map fst (entries x (g_user t')) = all_flags GnuTarget k tc (build_dir env tc name) (call_env t ls) cs x.
Proof.
  intros H K N D. apply describe_fields in D as (_ & _ & _ & D). apply run_adds in D as [_ D].
  rewrite D, map_app, (gcc_flags _ _ _ _ _ _ _ id H K N), map_fst_plain. unfold all_flags. rewrite <- app_assoc. reflexivity.
Qed.
Lemma msvc_described p name k tc env cf t ls cs t' x :
  msvc_class p name k tc env cf = Ok t -> k_config tc = usual_config Msvc -> describe t ls cs = Ok t' ->
  map fst (entries x (g_user t')) = all_flags MsvcTarget k tc (build_dir env tc name) (call_env t ls) cs x.
Proof.
  intros H K D. apply describe_fields in D as (_ & _ & _ & D). apply run_adds in D as [_ D].
  rewrite D, map_app, (msvc_flags _ _ _ _ _ _ _ H K), map_fst_plain. unfold all_flags. rewrite <- app_assoc. reflexivity.
Qed.
Lemma plain_described p name k tc env cf t ls cs t' x :
  construct_target p name (Some k) tc env cf = Ok t -> describe t ls cs = Ok t' ->
  map fst (entries x (g_user t')) = toolchain_flags (k_flags tc) x ++ map fst (added (call_env t ls) x cs).
Proof.
  intros H D. apply describe_fields in D as (_ & _ & _ & D). apply run_adds in D as [_ D].
  destruct (new_flags _ _ _ _ _ _ _ x H) as [E _]. rewrite D, map_app, E, map_fst_plain. reflexivity.
Qed.

Lemma language_flags u x : flags_for (cfg_of u) x = match language_option x with Some o => map fst (entries o u) | None => [] end.
Proof. destruct x; cbn [flags_for language_option cfg_of c_asm_flags c_c_flags c_cpp_flags entries]; rewrite ?strings_entries; reflexivity. Qed.

Lemma gcc_compile_end p name k tc env cf t id ls cs t' s cmd wp wc wo wl :
  gcc_class p name k tc env cf = Ok t -> tf_compile cf = gcc_compile_command ->
  k_config tc = usual_config id -> id <> Msvc -> describe t ls cs = Ok t' ->
  let e := g_env t' in let u := g_user t' in let x := get_file_ext (k_config tc) s in
  let flags := all_flags GnuTarget k tc (build_dir env tc name) (call_env t ls) cs in
  let dirs := map fst (added (call_env t ls) IncludeDirs cs) in
  compile_command e (cfg_of u) s = FOk cmd ->
  words_of (flags PreprocessorFlags) = Some wp -> words_of (flags CommonCompileFlags) = Some wc ->
  words_of (match added (call_env t ls) PchFiles cs with [] => [] | _ => flags PchObjectFlags end) = Some wo ->
  words_of (match language_option x with Some o => flags o | None => [] end) = Some wl ->
  Forall plain_word (map (fun d => "-I" +++ to_path_string d) dirs) ->
  plain_path (to_path_string (compiler_for e x)) -> plain_path (to_path_string (obj_of e s)) -> plain_word s ->
  shell_words cmd = Some ([to_path_string (compiler_for e x)] ++ wp ++ map (fun d => "-I" +++ to_path_string d) dirs ++ wc ++ wo ++ wl ++
    ["-o"; to_path_string (obj_of e s); "-c"; s]).
Proof.
  intros H T K N D e u x flags dirs Hc Wp Wc Wo Wl Hd Hcomp Hobj Hs.
  pose proof (fun y => gcc_described p name k tc env cf t id ls cs t' y H K N D) as A.
  assert (Te : te_compile_command e = gcc_compile_command /\ te_tc e = k_config tc).
  { pose proof (describe_fields _ _ _ _ D) as (G & _). unfold e. rewrite G. rewrite gcc_class_eq in H. destruct (pr_init p); [|discriminate].
    apply Ok_inj in H. rewrite <- H. split; [exact T|reflexivity]. }
  destruct Te as [Te Tt].
  assert (P : tc_prefix_include (te_tc e) = "-I") by (rewrite Tt, K; destruct id; try reflexivity; destruct (N eq_refl)).
  assert (I : include_args e (cfg_of u) = map (fun d => "-I" +++ to_path_string d) dirs).
  { unfold include_args. rewrite P. f_equal. cbn [cfg_of c_include_dirs]. pose proof (A IncludeDirs) as B. cbn [entries] in B. rewrite strings_entries in B.
    unfold u. rewrite B. unfold all_flags. cbn [toolchain_flags class_flags app]. reflexivity. }
  rewrite <- I in *. unfold x in *. rewrite <- Tt in *.
  apply (compile_words e (cfg_of u) s cmd wp wc wo wl Te Hc); try assumption.
  - cbn [cfg_of c_preprocessor]. pose proof (A PreprocessorFlags) as B. cbn [entries] in B. rewrite strings_entries in B. unfold u. rewrite B. exact Wp.
  - cbn [cfg_of c_common]. pose proof (A CommonCompileFlags) as B. cbn [entries] in B. rewrite strings_entries in B. unfold u. rewrite B. exact Wc.
  - unfold with_pch_only. cbn [cfg_of c_pch_object c_pchs]. pose proof (A PchObjectFlags) as B. cbn [entries] in B. rewrite strings_entries in B.
    pose proof (A PchFiles) as Q. unfold all_flags in Q. cbn [entries toolchain_flags class_flags app] in Q. unfold u in *. rewrite B.
    destruct (added (call_env t ls) PchFiles cs) as [|q0 q]; destruct (ts_pchs (g_user t')) as [|r0 r]; try discriminate Q; exact Wo.
  - rewrite language_flags. destruct (language_option _) as [o|]; [|exact Wl]. unfold u. rewrite A. exact Wl.
Qed.

(** ** In the form of the properties *)

Lemma options_of_targets : forall p name k tc env ls cs,
  (forall cf t t', construct_target p name (Some k) tc env cf = Ok t -> describe t ls cs = Ok t' ->
    forall x, map fst (entries x (g_user t')) = toolchain_flags (k_flags tc) x ++ map fst (added (call_env t ls) x cs)) /\
  (forall cf t id t', gcc_class p name k tc env cf = Ok t -> k_config tc = usual_config id -> id <> Msvc -> describe t ls cs = Ok t' ->
    forall x, map fst (entries x (g_user t')) = all_flags GnuTarget k tc (build_dir env tc name) (call_env t ls) cs x) /\
  (forall cf t t', msvc_class p name k tc env cf = Ok t -> k_config tc = usual_config Msvc -> describe t ls cs = Ok t' ->
    forall x, map fst (entries x (g_user t')) = all_flags MsvcTarget k tc (build_dir env tc name) (call_env t ls) cs x) /\
  (forall c op t t', class_for (k_id tc) = Some c -> generic_class p name k tc env op = Ok t -> k_config tc = usual_config (k_id tc) -> describe t ls cs = Ok t' ->
    forall x, map fst (entries x (g_user t')) = all_flags c k tc (build_dir env tc name) (call_env t ls) cs x).
Proof.
  intros p name k tc env ls cs. split; [|split; [|split]].
  - intros cf t t' H D x. exact (plain_described p name k tc env cf t ls cs t' x H D).
  - intros cf t id t' H K N D x. exact (gcc_described p name k tc env cf t id ls cs t' x H K N D).
  - intros cf t t' H K D x. exact (msvc_described p name k tc env cf t ls cs t' x H K D).
  - intros c op t t' C H K D x. destruct (k_id tc) eqn:E; try discriminate C; injection C as <-.
    + rewrite (generic_gcc _ _ _ _ _ _ E) in H. exact (gcc_described _ _ _ _ _ _ _ Gcc _ _ _ x H K ltac:(discriminate) D).
    + rewrite (generic_msvc _ _ _ _ _ _ E) in H. exact (msvc_described _ _ _ _ _ _ _ _ _ _ x H K D).
    + rewrite (generic_mingw _ _ _ _ _ _ E) in H. exact (gcc_described _ _ _ _ _ _ _ MinGW _ _ _ x H K ltac:(discriminate) D).
Qed.

Lemma writes_apart : forall p1 p2 n1 n2 k1 k2 tc1 tc2 env1 env2 t1 t2 id1 id2 ls1 ls2 cs1 cs2 t1' t2',
  created p1 n1 k1 tc1 env1 t1 -> created p2 n2 k2 tc2 env2 t2 -> describe t1 ls1 cs1 = Ok t1' -> describe t2 ls2 cs2 = Ok t2' ->
  en_build env1 = en_build env2 -> (k_name tc1, n1) <> (k_name tc2, n2) ->
  simple n1 -> simple n2 -> simple (k_name tc1) -> simple (k_name tc2) ->
  k_config tc1 = usual_config id1 -> k_config tc2 = usual_config id2 ->
  str_mem "/"%char (te_ext (g_env t1)) = false -> str_mem "/"%char (te_ext (g_env t2)) = false ->
  (ts_pchs (g_user t1') = [] \/ no_blanks (build_dir env1 tc1 n1)) -> (ts_pchs (g_user t2') = [] \/ no_blanks (build_dir env2 tc2 n2)) ->
  forall cwd f1 f2, In f1 (target_writes t1') -> In f2 (target_writes t2') -> leads_to cwd f1 <> leads_to cwd f2.
Proof.
  intros. eapply (below_apart cwd env1 env2 tc1 tc2 n1 n2 f1 f2); try assumption.
  - eapply (writes_below p1 n1 k1 tc1 env1 t1 id1); eassumption.
  - eapply (writes_below p2 n2 k2 tc2 env2 t2 id2); eassumption.
Qed.

Lemma unique_ids : forall p1 p2 n1 n2 k1 k2 tc1 tc2 env1 env2 t1 t2 ls1 ls2 cs1 cs2 t1' t2',
  created p1 n1 k1 tc1 env1 t1 -> created p2 n2 k2 tc2 env2 t2 -> describe t1 ls1 cs1 = Ok t1' -> describe t2 ls2 cs2 = Ok t2' ->
  str_mem "]"%char (k_name tc1) = false -> str_mem "]"%char (k_name tc2) = false ->
  (g_unique_id t1' = g_unique_id t2' <-> k_name tc1 = k_name tc2 /\ n1 = n2).
Proof.
  intros p1 p2 n1 n2 k1 k2 tc1 tc2 env1 env2 t1 t2 ls1 ls2 cs1 cs2 t1' t2' C1 C2 D1 D2 B1 B2.
  apply created_fields in C1 as (_ & _ & _ & _ & _ & U1), C2 as (_ & _ & _ & _ & _ & U2).
  apply describe_fields in D1 as (_ & _ & V1 & _), D2 as (_ & _ & V2 & _). rewrite V1, V2, U1, U2. split.
  - intros H. cbn [String.append] in H. injection H as H. exact (bracket_split _ _ _ _ B1 B2 H).
  - intros [-> ->]. reflexivity.
Qed.

Lemma msvc_commands : forall k e c,
  te_compile_command e = tf_compile (msvc_config k) -> te_pch_command e = tf_pch (msvc_config k) -> te_link_command e = Model_Gcc.tf_link (msvc_config k) ->
  (forall s, compile_command e c s = FOk (join " " (msvc_compile_groups e c s))) /\
  pch_command e c = FOk (join " " (msvc_pch_groups e c)) /\
  (forall ord, link_command e c ord = FOk (join " " (msvc_link_groups k e c ord))).
Proof.
  intros k e c H1 H2 H3. split; [|split].
  - intros s. apply msvc_compile_text. rewrite H1. destruct k; reflexivity.
  - apply msvc_pch_text. rewrite H2. destruct k; reflexivity.
  - intros ord. apply msvc_link_text. exact H3.
Qed.

(** ** Counterexamples *)

Definition ct p name k tc env cf cs : target := with_user (mk p name k tc env cf)
  (match api_run (call_env (mk p name k tc env cf) no_listing) (new_target (k_flags tc)) cs with Ok u => u | Fatal => new_target (k_flags tc) end).
Lemma ct_created p name k tc env cf cs : pr_init p = true ->
  match api_run (call_env (mk p name k tc env cf) no_listing) (new_target (k_flags tc)) cs with Ok _ => true | Fatal => false end = true ->
  created p name k tc env (mk p name k tc env cf) /\ describe (mk p name k tc env cf) no_listing cs = Ok (ct p name k tc env cf cs).
Proof.
  intros I A. split.
  - apply (by_target _ _ _ _ _ _ cf). rewrite construct_mk, I. reflexivity.
  - unfold describe, ct. rewrite mk_user. destruct (api_run _ _ cs); [reflexivity|discriminate A].
Qed.

Lemma written_outside : exists p name k tc env t cs t' f,
  created p name k tc env t /\ describe t no_listing cs = Ok t' /\ k_config tc = usual_config Gcc /\ simple name /\ simple (k_name tc) /\
  absolute (en_build env) /\ In f (target_writes t') /\ ~ below_dir (build_dir env tc name) f.
Proof.
  set (p := project_init "/p" "/p/my build"). set (tc := sample_toolchain Gcc "gcc"). set (cs := [AddPch "all.h" ""]).
  exists p, "app"%string, KExecutable, tc, (env_relative p ""), (mk p "app" KExecutable tc (env_relative p "") (gcc_config KExecutable)), cs,
    (ct p "app" KExecutable tc (env_relative p "") (gcc_config KExecutable) cs), """/p/my build/gcc/app/buildcc_pch.c"""%string.
  destruct (ct_created p "app" KExecutable tc (env_relative p "") (gcc_config KExecutable) cs eq_refl ltac:(vm_compute; reflexivity)) as [C D].
  split; [exact C|]. split; [exact D|]. split; [reflexivity|]. split; [repeat split; discriminate|]. split; [repeat split; discriminate|].
  split; [exists "p/my build"%string; reflexivity|]. split.
  - assert (E : target_writes (ct p "app" KExecutable tc (env_relative p "") (gcc_config KExecutable) cs) =
      ["/p/my build/gcc/app/app.bin"; "/p/my build/gcc/app/app"; "/p/my build/gcc/app/buildcc_pch.h"; "/p/my build/gcc/app/buildcc_pch.h.gch";
       "/p/my build/gcc/app/buildcc_pch.o"; """/p/my build/gcc/app/buildcc_pch.c"""]) by (vm_compute; reflexivity).
    rewrite E. cbn [In]. auto 10.
  - intros B. destruct (B ["w"%string]) as (l & _ & E). apply (f_equal (@rev string)) in E. rewrite rev_app_distr in E. vm_compute in E. discriminate E.
Qed.

Lemma written_twice : exists p k tc1 tc2 env t1 t2 cs1 cs2 t1' t2' n1 n2 f,
  created p n1 k tc1 env t1 /\ created p n2 k tc2 env t2 /\ simple n1 /\ simple n2 /\ (k_name tc1, n1) <> (k_name tc2, n2) /\
  g_unique_id t1 <> g_unique_id t2 /\ describe t1 no_listing cs1 = Ok t1' /\ describe t2 no_listing cs2 = Ok t2' /\
  In f (target_writes t1') /\ In f (target_writes t2').
Proof.
  set (p := sample_project). set (tc1 := sample_toolchain Gcc "gcc"). set (tc2 := sample_toolchain Gcc "gcc/app"). set (env := env_relative p "").
  set (cf := gcc_config KExecutable). set (cs1 := [AddSource "x.c" "core"]). set (cs2 := [AddSource "x.c" ""]).
  exists p, KExecutable, tc1, tc2, env, (mk p "app" KExecutable tc1 env cf), (mk p "core" KExecutable tc2 env cf), cs1, cs2,
    (ct p "app" KExecutable tc1 env cf cs1), (ct p "core" KExecutable tc2 env cf cs2), "app"%string, "core"%string, "/p/_build/gcc/app/core/x.c.o"%string.
  destruct (ct_created p "app" KExecutable tc1 env cf cs1 eq_refl ltac:(vm_compute; reflexivity)) as [C1 D1].
  destruct (ct_created p "core" KExecutable tc2 env cf cs2 eq_refl ltac:(vm_compute; reflexivity)) as [C2 D2].
  split; [exact C1|]. split; [exact C2|]. split; [repeat split; discriminate|]. split; [repeat split; discriminate|]. split; [discriminate|].
  split; [vm_compute; discriminate|]. split; [exact D1|]. split; [exact D2|]. split.
  - assert (E : nth_error (target_writes (ct p "app" KExecutable tc1 env cf cs1)) 2 = Some "/p/_build/gcc/app/core/x.c.o"%string) by (vm_compute; reflexivity).
    exact (nth_error_In _ _ E).
  - assert (E : nth_error (target_writes (ct p "core" KExecutable tc2 env cf cs2)) 2 = Some "/p/_build/gcc/app/core/x.c.o"%string) by (vm_compute; reflexivity).
    exact (nth_error_In _ _ E).
Qed.

Lemma same_unique_id : exists p k env tc1 tc2 n1 n2 t1 t2, created p n1 k tc1 env t1 /\ created p n2 k tc2 env t2 /\
  simple n1 /\ simple n2 /\ simple (k_name tc1) /\ simple (k_name tc2) /\ n1 <> n2 /\ k_name tc1 <> k_name tc2 /\ g_unique_id t1 = g_unique_id t2.
Proof.
  set (p := sample_project). set (tc1 := sample_toolchain Gcc "a] b"). set (tc2 := sample_toolchain Gcc "a"). set (env := env_relative p "").
  exists p, KStatic, env, tc1, tc2, "c"%string, "b] c"%string, (mk p "c" KStatic tc1 env (gcc_config KStatic)), (mk p "b] c" KStatic tc2 env (gcc_config KStatic)).
  split; [exact (proj1 (ct_created p "c" KStatic tc1 env (gcc_config KStatic) [] eq_refl eq_refl))|].
  split; [exact (proj1 (ct_created p "b] c" KStatic tc2 env (gcc_config KStatic) [] eq_refl eq_refl))|].
  do 4 (split; [repeat split; discriminate|]). split; [discriminate|]. split; [discriminate|]. vm_compute. reflexivity.
Qed.

Lemma artifact_of p name k tc env t ext :
  generic_class p name k tc env None = Ok t -> artifact_ext (k_id tc) k = Some ext ->
  let e := g_env t in
  target_output_path (te_build e) (te_name e) (te_ext e) = path_div (build_dir env tc name) (name +++ ext) /\
  In (target_output_path (te_build e) (te_name e) (te_ext e)) (target_writes t).
Proof.
  intros H X. cbv zeta. split; [|right; left; reflexivity].
  pose proof (created_fields _ _ _ _ _ _ (by_generic _ _ _ _ _ _ None H)) as (F1 & F2 & F3 & F4 & F5 & _).
  assert (E : te_name (g_env t) = name /\ te_build (g_env t) = build_dir env tc name /\ te_ext (g_env t) = ext).
  { unfold generic_class in H. destruct (k_id tc), k; cbn [artifact_ext] in X; try discriminate X; injection X as <-;
      cbn [generic_config value_or] in H; unfold construct_target, copy_from in H; destruct (pr_init p) eqn:I; cbn [negb] in H; try discriminate H;
      match type of H with match ?x with _ => _ end = _ => destruct x; [|discriminate H] end; injection H as <-; repeat split; reflexivity. }
  destruct E as (-> & -> & ->). reflexivity.
Qed.

Lemma pch_names build id cpp :
  let x := usual_config id in
  pch_header_path build (tc_pch_header_ext x) = path_div build "buildcc_pch.h" /\
  pch_compile_path build (tc_pch_header_ext x) (tc_pch_compile_ext x) =
    path_div build (match id with Msvc => "buildcc_pch.h.pch" | _ => "buildcc_pch.h.gch" end) /\
  pch_object_path build (tc_pch_header_ext x) (tc_obj_ext x) =
    path_div build (match id with Msvc => "buildcc_pch.obj" | _ => "buildcc_pch.o" end) /\
  pch_source_path build (tc_pch_header_ext x) cpp = path_div build (if cpp then "buildcc_pch.cpp" else "buildcc_pch.c").
Proof.
  cbv zeta. split; [exact (proj1 (pch_files build id))|]. split; [exact (proj2 (pch_files build id))|].
  assert (G : forall ext, match ext with String "."%char _ => True | _ => False end -> str_mem ch_slash ext = false ->
    replace_extension (pch_header_path build ".h") ext = path_div build ("buildcc_pch" +++ ext)).
  { intros ext D Hc. rewrite header_path. unfold replace_extension. rewrite dir_of, file_of by reflexivity.
    destruct ext as [|a r]; [destruct D|]. destruct (Ascii.eqb a ch_dot) eqn:E.
    - rewrite path_div_rel by reflexivity. reflexivity.
    - apply Ascii.eqb_neq in E. exfalso. destruct a as [[] [] [] [] [] [] [] []]; try exact D; exact (E eq_refl). }
  split.
  - unfold pch_object_path. destruct id; cbn [usual_config tc_pch_header_ext tc_obj_ext]; rewrite G by (exact Logic.I || reflexivity); reflexivity.
  - unfold pch_source_path. destruct cpp, id; cbn [usual_config tc_pch_header_ext]; rewrite G by (exact Logic.I || reflexivity); reflexivity.
Qed.
