(** Proofs about buildexe. *)
From Verif Require Import Prelude Proof_Prelude Model_Path Model_Json Model_Schema Model_Command Model_ToolchainConfig Model_Target Model_Gcc
  Model_Find Model_Sync Model_Api Model_Toolchains Model_Targets Model_BuildExe
  Spec_Path Spec_Sync Spec_Shell Spec_Gcc Spec_Api Spec_Toolchains Spec_Targets Spec_BuildExe Spec_Target
  Proof_Path Proof_ObjectPath Proof_Sync Proof_Api Proof_Shell Proof_Gcc Proof_TargetBase Proof_Targets Proof_TargetCase Properties_Target.

(** ** Options of the user target *)

Lemma added_app a x c1 c2 : added a x (c1 ++ c2) = added a x c1 ++ added a x c2.
Proof. unfold added. rewrite flat_map_app, filter_app, map_app. reflexivity. Qed.
Lemma added_map {A} a x (f : A -> call) y g l : (forall s, adds a (f s) = [(y, g s)]) ->
  added a x (map f l) = if option_eq_dec y x then map g l else [].
Proof.
  intros H. induction l as [|s l IH]; cbn [map].
  - destruct (option_eq_dec y x); reflexivity.
  - change (f s :: map f l) with ([f s] ++ map f l). rewrite added_app, IH. unfold added. cbn [flat_map]. rewrite app_nil_r, H. cbn [filter fst].
    destruct (option_eq_dec y x); reflexivity.
Qed.

Lemma div_empty r s : path_div (path_div r "") s = path_div r s.
Proof.
  unfold path_div. destruct (starts_slash s) eqn:S; [reflexivity|]. cbn [starts_slash].
  destruct (has_filename r) eqn:R.
  - rewrite ?sapp_nil_r.
    assert (E : has_filename (r +++ "/") = false).
    { unfold has_filename. replace (ends_slash (r +++ "/")) with true; [apply andb_false_r|].
      symmetry. clear. induction r as [|c r IH]; [reflexivity|]. cbn [append ends_slash].
      destruct (r +++ "/") eqn:K; [destruct r; discriminate|exact IH]. }
    rewrite E, sapp_assoc. reflexivity.
  - rewrite sapp_nil_r, R. reflexivity.
Qed.

Lemma input_added t ls a x : added (call_env t ls) x (input_calls a) = command_line_entries (te_root (g_env t)) a x.
Proof.
  unfold input_calls. rewrite !added_app.
  rewrite (added_map _ x (fun s => AddSource s "") SourceFiles (fun s => file_entry (path_div (te_root (g_env t)) s)))
    by (intros s; cbn [adds below2 call_env ae_root]; unfold below2; rewrite div_empty; reflexivity).
  rewrite (added_map _ x (fun s => AddIncludeDir s false) IncludeDirs (fun s => dir_entry (path_div (te_root (g_env t)) s))) by reflexivity.
  rewrite (added_map _ x AddLibDir LibDirs (fun s => dir_entry (path_div (te_root (g_env t)) s))) by reflexivity.
  rewrite (added_map _ x AddLibDep ExternalLibDeps plain_entry) by reflexivity.
  rewrite (added_map _ x (AddFlag FPre) PreprocessorFlags plain_entry) by reflexivity.
  rewrite (added_map _ x (AddFlag FCommon) CommonCompileFlags plain_entry) by reflexivity.
  rewrite (added_map _ x (AddFlag FAsm) AsmCompileFlags plain_entry) by reflexivity.
  rewrite (added_map _ x (AddFlag FC) CCompileFlags plain_entry) by reflexivity.
  rewrite (added_map _ x (AddFlag FCpp) CppCompileFlags plain_entry) by reflexivity.
  rewrite (added_map _ x (AddFlag FLink) LinkFlags plain_entry) by reflexivity.
  destruct x; cbn [option_eq_dec command_line_entries]; rewrite ?app_nil_r; reflexivity.
Qed.

Lemma generic_entries p name k tc env t x : generic_class p name k tc env None = Ok t -> k_config tc = usual_config (k_id tc) ->
  entries x (g_user t) = initial_entries tc k (build_dir env tc name) x.
Proof.
  intros H K. unfold initial_entries. destruct (k_id tc) eqn:E; cbn [class_for].
  - rewrite (generic_gcc _ _ _ _ _ _ E) in H. exact (gcc_flags _ _ _ _ _ _ _ Gcc H K ltac:(discriminate) x).
  - rewrite (generic_msvc _ _ _ _ _ _ E) in H. exact (msvc_flags _ _ _ _ _ _ _ H K x).
  - rewrite (generic_other _ _ _ _ _ _) in H by (rewrite E; reflexivity). discriminate.
  - rewrite (generic_mingw _ _ _ _ _ _ E) in H. exact (gcc_flags _ _ _ _ _ _ _ MinGW H K ltac:(discriminate) x).
  - rewrite (generic_other _ _ _ _ _ _) in H by (rewrite E; reflexivity). discriminate.
  - rewrite (generic_other _ _ _ _ _ _) in H by (rewrite E; reflexivity). discriminate.
Qed.

Lemma user_facts p tc a ls t : user_target p tc a ls = Ok t ->
  te_build (g_env t) = user_dir p tc a /\ te_root (g_env t) = path_div (pr_root p) (xa_relative a) /\ te_name (g_env t) = xa_name a /\
  te_tc (g_env t) = k_config tc /\
  (k_config tc = usual_config (k_id tc) -> forall x, entries x (g_user t) =
     initial_entries tc (xa_type a) (user_dir p tc a) x ++ command_line_entries (path_div (pr_root p) (xa_relative a)) a x).
Proof.
  unfold user_target. rewrite target_generic_eq.
  destruct (generic_class p (xa_name a) (xa_type a) tc (env_relative p (xa_relative a)) None) as [t0|] eqn:G; [|discriminate]. intros D.
  pose proof (created_fields p (xa_name a) (xa_type a) tc (env_relative p (xa_relative a)) t0 (by_generic _ _ _ _ _ _ _ G)) as (F1 & F2 & F3 & F4 & _ & _).
  apply describe_fields in D as (E & _ & _ & D). rewrite E. split; [exact F1|]. split; [exact F4|]. split; [exact F2|]. split; [exact F3|].
  intros K x. apply run_adds in D as [_ D]. rewrite D, input_added, (generic_entries _ _ _ _ _ _ x G K). rewrite F4. reflexivity.
Qed.

Lemma user_toolchain p tc a ls t : user_target p tc a ls = Ok t -> g_toolchain t = tc.
Proof.
  unfold user_target. rewrite target_generic_eq.
  destruct (generic_class p (xa_name a) (xa_type a) tc (env_relative p (xa_relative a)) None) as [t0|] eqn:G; [|discriminate].
  unfold describe. destruct (api_run (call_env t0 ls) (g_user t0) (input_calls a)) as [u|]; [|discriminate]. intros H. apply Ok_inj in H. subst t.
  apply (by_generic _ _ _ _ _ _ None) in G. apply created_mk in G as (_ & cf & u0 & ->). reflexivity.
Qed.

Lemma with_buildcc_env t b : g_env (with_buildcc t b) = g_env t.
Proof. unfold with_buildcc. destruct (k_id (g_toolchain t)); reflexivity. Qed.
Lemma put_libs_entries u p x : entries x (put_libs u (il_emplace (ts_libs u) p "")) = entries x u ++ match x with LibDeps => [file_entry p] | _ => [] end.
Proof.
  destruct x; cbn [entries put_libs ts_sources ts_headers ts_pchs ts_libs ts_include_dirs ts_lib_dirs ts_external_libs ts_preprocessor_flags
    ts_common_compile_flags ts_pch_compile_flags ts_pch_object_flags ts_asm_compile_flags ts_c_compile_flags ts_cpp_compile_flags ts_link_flags
    ts_compile_deps ts_link_deps]; rewrite ?app_nil_r; try reflexivity.
  unfold il_emplace. rewrite infos_app. reflexivity.
Qed.
Lemma with_buildcc_entries t b x :
  entries x (g_user (with_buildcc t b)) = entries x (g_user t) ++ buildcc_entries (g_toolchain t) b x.
Proof.
  unfold with_buildcc, buildcc_entries.
  set (u1 := put_libs (g_user t) _).
  assert (E : entries x (fst (insert ByRef u1 (g_user b) buildcc_options)) = entries x (g_user t) ++
    match x with LibDeps => [file_entry (target_output_path (te_build (g_env b)) (te_name (g_env b)) (te_ext (g_env b)))] | _ => [] end ++
    over (times buildcc_options x) (entries x (g_user b))).
  { destruct (insert_exact ByRef u1 (g_user b) buildcc_options (or_introl eq_refl)) as (I & _). rewrite I.
    unfold u1. rewrite put_libs_entries, <- app_assoc. reflexivity. }
  set (u2 := fst (insert ByRef u1 (g_user b) buildcc_options)) in *.
  assert (O : over (times buildcc_options x) (entries x (g_user b)) = (if shared_with_scripts x then entries x (g_user b) else []) ++
    match x with IncludeDirs => entries x (g_user b) | _ => [] end).
  { destruct x; cbn; rewrite ?app_nil_r; reflexivity. }
  rewrite O in E. clear O. clearbody u2.
  destruct (k_id (g_toolchain t)) eqn:Id; cbn [with_user g_user];
    try (rewrite E; destruct x; cbn [app]; rewrite ?app_nil_r; reflexivity).
  rewrite flag_entries. cbn [with_user g_user flag_option]. rewrite E, <- !app_assoc.
  destruct x; cbn [option_eq_dec]; rewrite ?app_nil_r; reflexivity.
Qed.

Lemma lib_added t ls cfg files x : added (call_env t ls) x (lib_file_calls cfg files) = library_entries cfg files x.
Proof.
  unfold lib_file_calls. induction files as [|f files IH]; [destruct x; reflexivity|]. cbn [flat_map]. rewrite !added_app, IH. clear IH.
  destruct (is_valid_source cfg f) eqn:S, (is_valid_header cfg f) eqn:H; destruct x; cbn [library_entries filter map]; rewrite ?S, ?H; reflexivity.
Qed.
Lemma dir_added t ls build x : added (call_env t ls) x [AddIncludeDirAbsolute build true] =
  generated_entries (te_tc (g_env t)) build ls x.
Proof.
  unfold added. cbn [flat_map adds]. rewrite app_nil_r. cbn [filter fst].
  assert (F : forall y, map snd (filter (fun e : sync_option * (string * option string) => if option_eq_dec (fst e) y then true else false)
    (map (fun e => (HeaderFiles, e)) (map file_entry (headers_in (call_env t ls) build)))) =
    if option_eq_dec HeaderFiles y then map file_entry (headers_in (call_env t ls) build) else []).
  { intros y. induction (map file_entry (headers_in (call_env t ls) build)) as [|e l IH]; cbn [map filter fst]; [destruct (option_eq_dec HeaderFiles y); reflexivity|].
    destruct (option_eq_dec HeaderFiles y); cbn [map snd]; rewrite ?IH; reflexivity. }
  destruct (option_eq_dec IncludeDirs x) as [<-|N]; cbn [map snd]; rewrite F; [reflexivity|].
  destruct x; try reflexivity. destruct (N eq_refl).
Qed.

Lemma script_facts p tc a b files ls t : script_target p tc a b files ls = Ok t ->
  te_build (g_env t) = user_dir p tc a /\ te_tc (g_env t) = k_config tc /\
  (k_config tc = usual_config (k_id tc) -> forall x, entries x (g_user t) =
     initial_entries tc (xa_type a) (user_dir p tc a) x ++ command_line_entries (path_div (pr_root p) (xa_relative a)) a x ++
     buildcc_entries tc b x ++ generated_entries (k_config tc) (user_dir p tc a) ls x ++ library_entries (k_config tc) files x).
Proof.
  unfold script_target. destruct (user_target p tc a ls) as [t0|] eqn:U; [|discriminate]. intros D.
  pose proof (user_toolchain _ _ _ _ _ U) as Tc. apply user_facts in U as (B & R & _ & C & E).
  apply describe_fields in D as (G & _ & _ & D). rewrite with_buildcc_env in G. rewrite G. split; [exact B|]. split; [exact C|].
  intros K x. apply run_adds in D as [_ D]. rewrite D, with_buildcc_entries, (E K), Tc.
  change (AddIncludeDirAbsolute ?d true :: ?l) with ([AddIncludeDirAbsolute d true] ++ l).
  rewrite added_app, dir_added, lib_added, with_buildcc_env, C, B, <- !app_assoc. reflexivity.
Qed.

Lemma construct_init p name k tc env op : generic_class p name k tc env op = Fatal <-> pr_init p = false \/ class_for (k_id tc) = None.
Proof.
  destruct (k_id tc) eqn:E; cbn [class_for].
  - rewrite (generic_gcc _ _ _ _ _ _ E), gcc_class_eq. destruct (pr_init p); split; try discriminate; auto; intros [H|H]; discriminate.
  - rewrite (generic_msvc _ _ _ _ _ _ E), msvc_class_eq. destruct (pr_init p); split; try discriminate; auto; intros [H|H]; discriminate.
  - rewrite (generic_other _ _ _ _ _ _) by (rewrite E; reflexivity). split; auto.
  - rewrite (generic_mingw _ _ _ _ _ _ E), gcc_class_eq. destruct (pr_init p); split; try discriminate; auto; intros [H|H]; discriminate.
  - rewrite (generic_other _ _ _ _ _ _) by (rewrite E; reflexivity). split; auto.
  - rewrite (generic_other _ _ _ _ _ _) by (rewrite E; reflexivity). split; auto.
Qed.

Lemma describe_fatal t ls cs : describe t ls cs = Fatal <-> exists c, In c cs /\ refused (call_env t ls) c.
Proof.
  unfold describe. rewrite <- (run_refused (call_env t ls) cs (g_user t)).
  destruct (api_run (call_env t ls) (g_user t) cs); split; try discriminate; reflexivity.
Qed.

Lemma input_refused t ls a : (exists c, In c (input_calls a) /\ refused (call_env t ls) c) <->
  exists s, In s (xa_sources a) /\ is_valid_source (te_tc (g_env t)) (path_div (te_root (g_env t)) s) = false.
Proof.
  unfold input_calls. split.
  - intros (c & H & R). rewrite !in_app_iff, !in_map_iff in H.
    destruct H as [(s & <- & H)|H].
    { exists s. split; [exact H|]. cbn [refused call_env ae_tc ae_root] in R. unfold below2 in R. cbn [ae_root call_env] in R. rewrite div_empty in R. exact R. }
    exfalso. destruct H as [(s & <- & _)|[(s & <- & _)|[(s & <- & _)|[(s & <- & _)|[(s & <- & _)|[(s & <- & _)|[(s & <- & _)|[(s & <- & _)|(s & <- & _)]]]]]]]]; exact R.
  - intros (s & H & R). exists (AddSource s ""). split; [apply in_or_app; left; apply (in_map (fun x => AddSource x "")); exact H|].
    cbn [refused call_env ae_tc]. unfold below2. cbn [ae_root call_env]. rewrite div_empty. exact R.
Qed.

Lemma user_fatal p tc a ls : user_target p tc a ls = Fatal <->
  pr_init p = false \/ class_for (k_id tc) = None \/
  exists s, In s (xa_sources a) /\ is_valid_source (k_config tc) (path_div (path_div (pr_root p) (xa_relative a)) s) = false.
Proof.
  unfold user_target. rewrite target_generic_eq. set (env := env_relative p (xa_relative a)).
  pose proof (construct_init p (xa_name a) (xa_type a) tc env None) as G.
  destruct (generic_class p (xa_name a) (xa_type a) tc env None) as [t|] eqn:C.
  - pose proof (created_fields p (xa_name a) (xa_type a) tc env t (by_generic _ _ _ _ _ _ _ C)) as (_ & _ & F3 & F4 & _ & _).
    rewrite describe_fatal, input_refused, F3, F4. split; [auto|].
    intros [H|[H|H]]; [|discriminate (proj2 G (or_intror H))|exact H]. discriminate (proj2 G (or_introl H)).
  - split; [|reflexivity]. intros _. destruct (proj1 G eq_refl) as [H|H]; auto.
Qed.

(** ** The generated header *)

Lemma char_normal c s : Ascii.eqb c ch_slash = false -> Ascii.eqb c ch_dot = false ->
  str_mem c s = false -> str_mem c (to_path_string s) = false.
Proof.
  intros C1 C2 H. destruct s as [|a0 s0]; [reflexivity|]. remember (String a0 s0) as s. assert (N : s <> "") by (subst; discriminate). clear Heqs a0 s0.
  rewrite to_path_string_nonempty by exact N.
  assert (D : Ascii.eqb ch_dot c = false) by (rewrite Ascii.eqb_sym; exact C2).
  assert (S : Ascii.eqb ch_slash c = false) by (rewrite Ascii.eqb_sym; exact C1).
  assert (DD : str_mem c ".." = false /\ str_mem c "." = false).
  { cbn [str_mem]. change "."%char with ch_dot. rewrite ?C2, ?D. split; reflexivity. }
  assert (F : Forall (fun x => str_mem c x = false) (pp_comps (parse_path s))).
  { rewrite <- names_eq. apply Forall_forall. intros n K. apply name_sub in K as (a & b & ->). exact (sub_mem _ _ _ _ H). }
  assert (G : Forall (fun x => str_mem c x = false) (pp_comps (normal (parse_path s)))).
  { unfold normal. pose proof (normal_keeps (fun x => str_mem c x = false) (pp_abs (parse_path s)) (proj1 DD) (pp_comps (parse_path s)) [] false F (Forall_nil _)) as K.
    destruct (fold_left (normal_step (pp_abs (parse_path s))) (pp_comps (parse_path s)) ([], false)) as [stk tr]. cbn [fst] in K.
    destruct stk as [|t stk]; [destruct (pp_abs (parse_path s)); repeat constructor; apply DD|]. cbn [pp_comps]. apply Forall_rev. exact K. }
  assert (SL : str_mem c "/" = false) by (cbn [str_mem]; change "/"%char with ch_slash; rewrite ?C1, ?S; reflexivity).
  unfold print_path. rewrite !str_mem_app, join_mem by (exact G || exact C1).
  destruct (pp_abs (normal (parse_path s))), (pp_trail (normal (parse_path s))); rewrite ?SL; reflexivity.
Qed.

Lemma mem_div c a b : str_mem c a = false -> str_mem c b = false -> Ascii.eqb c ch_slash = false -> str_mem c (path_div a b) = false.
Proof.
  intros A B C. unfold path_div. destruct (starts_slash b); [exact B|]. destruct (has_filename a); rewrite !str_mem_app, A, B; [|reflexivity].
  cbn [str_mem]. change "/"%char with ch_slash. rewrite ?C, (Ascii.eqb_sym ch_slash c), ?C. reflexivity.
Qed.

Lemma lex_id : forall n a c r, all_chars id_char n = true -> id_char c = false ->
  clex (CInId a) (n +++ String c r) = option_map (cons (CId (a +++ n))) (clex CNone (String c r)).
Proof.
  induction n as [|d n IH]; intros a c r H C.
  - cbn [String.append]. rewrite sapp_nil_r. cbn [clex]. rewrite C. reflexivity.
  - cbn [all_chars] in H. apply andb_true_iff in H as [H1 H2]. change (String d n +++ String c r) with (String d (n +++ String c r)).
    cbn [clex]. rewrite H1, (IH _ _ _ H2 C). rewrite sapp_assoc. reflexivity.
Qed.
Lemma letter_start c : letter c = true -> white c = false /\ Ascii.eqb c ch_quote = false /\ Ascii.eqb c "#" = false /\ Ascii.eqb c "/" = false.
Proof. destruct c as [[] [] [] [] [] [] [] []]; vm_compute; intros H; try discriminate H; repeat split. Qed.
Lemma lex_name n c r : identifier n = true -> id_char c = false ->
  clex CNone (n +++ String c r) = option_map (cons (CId n)) (clex CNone (String c r)).
Proof.
  destruct n as [|d n]; [discriminate|]. cbn [identifier]. intros H C. apply andb_true_iff in H as [L H].
  destruct (letter_start d L) as (W & Q & S1 & S2). change (String d n +++ String c r) with (String d (n +++ String c r)).
  cbn [clex]. rewrite W, Q, S1, S2, L, (lex_id _ _ _ _ H C). reflexivity.
Qed.
Lemma lex_str : forall v a r, str_mem ch_quote v = false -> str_mem ch_backslash v = false -> str_mem ch_lf v = false ->
  clex (CInStr a) (v +++ String ch_quote r) = option_map (cons (CStr (a +++ v))) (clex CNone r).
Proof.
  induction v as [|d v IH]; intros a r Q B L.
  - cbn [String.append]. rewrite sapp_nil_r. cbn [clex]. rewrite Ascii.eqb_refl. reflexivity.
  - cbn [str_mem] in Q, B, L. apply orb_false_iff in Q as [Q1 Q2]. apply orb_false_iff in B as [B1 B2]. apply orb_false_iff in L as [L1 L2].
    change (String d v +++ String ch_quote r) with (String d (v +++ String ch_quote r)). cbn [clex].
    rewrite Q1, B1, L1. cbn [orb]. rewrite (IH _ _ Q2 B2 L2), sapp_assoc. reflexivity.
Qed.

Lemma lex_white c r : white c = true -> clex CNone (String c r) = clex CNone r.
Proof. intros H. cbn [clex]. rewrite H. reflexivity. Qed.
Lemma lex_quote r : clex CNone (String ch_quote r) = clex (CInStr "") r.
Proof. reflexivity. Qed.
Lemma lex_punct c r : negb (white c) && negb (Ascii.eqb c ch_quote) && negb (Ascii.eqb c "#") && negb (Ascii.eqb c "/") && negb (letter c) = true ->
  clex CNone (String c r) = option_map (cons (CPunct c)) (clex CNone r).
Proof.
  intros H. repeat (apply andb_true_iff in H as [H ?]). repeat match goal with K : negb _ = true |- _ => apply negb_true_iff in K end.
  cbn [clex]. repeat match goal with K : _ = false |- _ => rewrite K end. reflexivity.
Qed.
Lemma lex_line : forall s r, str_mem ch_lf s = false -> clex CLine (s +++ String ch_lf r) = clex CNone r.
Proof.
  induction s as [|c s IH]; intros r H; [reflexivity|]. cbn [str_mem] in H. apply orb_false_iff in H as [H1 H2].
  change (String c s +++ String ch_lf r) with (String c (s +++ String ch_lf r)). cbn [clex]. rewrite H1. exact (IH r H2).
Qed.

Definition member_tokens (l : string * string) : list ctoken := member_start ++ [CId (fst l); CPunct "="; CStr (snd l); CPunct ";"].
Definition good_lib (l : string * string) : Prop :=
  identifier (fst l) = true /\ str_mem ch_quote (snd l) = false /\ str_mem ch_backslash (snd l) = false /\ str_mem ch_lf (snd l) = false.
Lemma lex_member l r : good_lib l -> clex CNone (lib_constant l +++ r) = option_map (app (member_tokens l)) (clex CNone r).
Proof.
  intros (I & Q & B & L). destruct l as [n v]. cbn [fst snd] in *. unfold lib_constant. cbn [fst snd].
  rewrite !sapp_assoc.
  change ("static constexpr const char *const " +++ ?x) with
    ("static" +++ String " " ("constexpr" +++ String " " ("const" +++ String " " ("char" +++ String " " (String "*" ("const" +++ String " " x)))))).
  rewrite (lex_name "static" " " _ eq_refl eq_refl), (lex_white " " _ eq_refl), (lex_name "constexpr" " " _ eq_refl eq_refl), (lex_white " " _ eq_refl), (lex_name "const" " " _ eq_refl eq_refl), (lex_white " " _ eq_refl), (lex_name "char" " " _ eq_refl eq_refl), (lex_white " " _ eq_refl).
  rewrite (lex_punct "*" _ eq_refl), (lex_name "const" " " _ eq_refl eq_refl), (lex_white " " _ eq_refl).
  change (" = " +++ ?x) with (String " " (String "=" (String " " x))).
  rewrite (lex_name n " " _ I eq_refl), (lex_white " " _ eq_refl), (lex_punct "=" _ eq_refl), (lex_white " " _ eq_refl).
  change (str1 ch_quote +++ ?x) with (String ch_quote x). rewrite lex_quote.
  change (v +++ str1 ch_quote +++ ?x) with (v +++ String ch_quote x). rewrite (lex_str v "" _ Q B L).
  change (";" +++ r) with (String ";" r). rewrite (lex_punct ";" _ eq_refl). change ("" +++ v) with v.
  unfold member_tokens, member_start. cbn [fst snd]. destruct (clex CNone r); reflexivity.
Qed.

Definition header_end : string := newline +++ "};" +++ newline.
Lemma lex_members : forall ls, Forall good_lib ls ->
  clex CNone (join crlf (map lib_constant ls) +++ header_end) = Some (flat_map member_tokens ls ++ [CPunct "}"; CPunct ";"]).
Proof.
  induction ls as [|l ls IH]; intros H; [reflexivity|]. inversion H as [|? ? G F]; subst. cbn [map flat_map].
  destruct ls as [|l2 ls].
  - cbn [map join flat_map]. rewrite (lex_member l _ G), app_nil_r. reflexivity.
  - specialize (IH F). cbn [map] in IH |- *. rewrite (join_cons crlf (lib_constant l)) by discriminate. rewrite !sapp_assoc, (lex_member l _ G).
    assert (P : forall x, clex CNone (crlf +++ x) = clex CNone x) by reflexivity.
    rewrite P, IH. cbn [option_map]. rewrite <- !app_assoc. reflexivity.
Qed.
Lemma read_all : forall ls, Forall (fun l => member_name (fst l) = true) ls ->
  read_members (flat_map member_tokens ls ++ [CPunct "}"; CPunct ";"]) = Some ls.
Proof.
  induction ls as [|[n v] ls IH]; intros H; [reflexivity|]. inversion H as [|? ? G F]; subst. cbn [fst] in G.
  change (flat_map member_tokens ((n, v) :: ls) ++ [CPunct "}"; CPunct ";"]) with
    (CId "static" :: CId "constexpr" :: CId "const" :: CId "char" :: CPunct "*" :: CId "const" :: CId n :: CPunct "=" :: CStr v :: CPunct ";" ::
      (flat_map member_tokens ls ++ [CPunct "}"; CPunct ";"])).
  cbn [read_members]. change (ctokens_eqb _ member_start) with true. change (Ascii.eqb "=" "=") with true. change (Ascii.eqb ";" ";") with true.
  rewrite G. cbn [andb]. rewrite (IH F). reflexivity.
Qed.
Lemma distinct_true : forall l, NoDup l -> distinct l = true.
Proof.
  induction l as [|x l IH]; intros H; [reflexivity|]. inversion H as [|? ? N D]; subst. cbn [distinct].
  apply mem_str_false in N. rewrite N, (IH D). reflexivity.
Qed.
Lemma header_back ls : Forall good_lib ls -> Forall (fun l => member_name (fst l) = true) ls -> NoDup (map fst ls) ->
  read_header (lib_dirs_text ls) = Some ls.
Proof.
  intros G M D. unfold read_header, lib_dirs_text. fold header_end.
  assert (P : forall x, clex CNone ("// Generated by BuildCC" +++ newline +++ "#pragma once" +++ newline +++ newline +++ "struct BuildExeLibDir {" +++ newline +++ x) =
    option_map (app [CId "struct"; CId "BuildExeLibDir"; CPunct "{"]) (clex CNone x)).
  { intros x.
    change ("// Generated by BuildCC" +++ newline +++ "#pragma once" +++ newline +++ newline +++ "struct BuildExeLibDir {" +++ newline +++ x) with
      (String "/" (String "/" (" Generated by BuildCC" +++ String ch_lf (String "#" ("pragma once" +++ String ch_lf (String ch_lf
        ("struct" +++ String " " ("BuildExeLibDir" +++ String " " (String "{" (String ch_lf x)))))))))).
    assert (C1 : forall y, clex CNone (String "/" (String "/" y)) = clex CLine y) by reflexivity.
    assert (C2 : forall y, clex CNone (String "#" y) = clex CLine y) by reflexivity.
    rewrite C1, (lex_line " Generated by BuildCC" _ eq_refl), C2, (lex_line "pragma once" _ eq_refl), (lex_white ch_lf _ eq_refl).
    rewrite (lex_name "struct" " " _ eq_refl eq_refl), (lex_white " " _ eq_refl), (lex_name "BuildExeLibDir" " " _ eq_refl eq_refl), (lex_white " " _ eq_refl).
    rewrite (lex_punct "{" _ eq_refl), (lex_white ch_lf _ eq_refl). destruct (clex CNone x); reflexivity. }
  rewrite P, (lex_members ls G). cbn [option_map app].
  change (ctokens_eqb [CId "struct"; CId "BuildExeLibDir"; CPunct "{"] [CId "struct"; CId "BuildExeLibDir"; CPunct "{"]) with true. cbn iota.
  rewrite (read_all ls M), (distinct_true _ D). reflexivity.
Qed.

Lemma id_char_ok c n : id_char c = false -> all_chars id_char n = true -> str_mem c n = false.
Proof.
  intros C. induction n as [|d n IH]; [reflexivity|]. cbn [all_chars str_mem]. intros H. apply andb_true_iff in H as [H1 H2].
  rewrite (IH H2), orb_false_r. destruct (Ascii.eqb_spec d c) as [<-|N]; [congruence|reflexivity].
Qed.
Lemma letter_id c : letter c = true -> id_char c = true.
Proof. unfold id_char. intros ->. reflexivity. Qed.
Lemma identifier_ok c n : id_char c = false -> identifier n = true -> str_mem c n = false.
Proof.
  intros C H. apply (id_char_ok c n C). destruct n as [|d n]; [discriminate|]. cbn [identifier all_chars] in *. apply andb_true_iff in H as [H1 H2].
  rewrite (letter_id d H1), H2. reflexivity.
Qed.

Lemma lib_name libs n : str_mem ch_slash n = false -> filename (path_div libs n) = n.
Proof.
  intros H. assert (S : starts_slash n = false).
  { destruct n as [|c n]; [reflexivity|]. cbn [str_mem] in H. apply orb_false_iff in H as [H _]. cbn [starts_slash]. rewrite Ascii.eqb_sym. exact H. }
  rewrite path_div_rel by exact S. exact (file_of libs n H).
Qed.

Lemma header_of_libs libs ents infos : lib_infos libs (Some ents) = Ok infos -> literal_text libs ->
  NoDup (libraries ents) -> Forall (fun n => identifier n = true /\ member_name n = true) (libraries ents) ->
  read_header (lib_dirs_text infos) = Some (map (fun n => (n, to_path_string (path_div libs n))) (libraries ents)).
Proof.
  intros H (L1 & L2 & L3 & L4) D F. cbn [lib_infos] in H. apply Ok_inj in H. subst infos.
  assert (E : map (fun e : string * bool => (filename (path_div libs (fst e)), to_display_string (path_div libs (fst e)))) (filter snd ents) =
              map (fun n => (n, to_path_string (path_div libs n))) (libraries ents)).
  { unfold libraries in *. rewrite map_map. apply map_ext_in. intros e He. rewrite Forall_forall in F.
    destruct (F (fst e) (in_map fst _ _ He)) as [I _]. rewrite (lib_name libs (fst e)) by exact (identifier_ok ch_slash _ eq_refl I).
    unfold to_display_string. rewrite (char_normal ch_space); [reflexivity|reflexivity|reflexivity|].
    apply mem_div; [exact L1|exact (identifier_ok ch_space _ eq_refl I)|reflexivity]. }
  rewrite E. apply header_back.
  - apply Forall_map. rewrite Forall_forall in F |- *. intros n Hn. destruct (F n Hn) as [I _]. unfold good_lib. cbn [fst snd].
    split; [exact I|]. split; [|split]; (apply char_normal; [reflexivity|reflexivity|]; apply mem_div; [assumption|apply identifier_ok; [reflexivity|exact I]|reflexivity]).
  - apply Forall_map. rewrite Forall_forall in F |- *. intros n Hn. exact (proj2 (F n Hn)).
  - rewrite map_map. cbn [fst]. rewrite map_id. exact D.
Qed.

(** ** The commands executed *)

Lemma run_words t configs : let out := target_output_path (te_build (g_env t)) (te_name (g_env t)) (te_ext (g_env t)) in
  plain_path (to_path_string out) -> Forall plain_word configs ->
  shell_words (run_command t configs) = Some (to_path_string out :: flat_map (fun c => ["--config"; c]) configs).
Proof.
  intros out P F. unfold run_command. fold out.
  change (to_path_string out :: ?l) with ([to_path_string out] ++ l). apply words_app; [exact (display_one out P)|]. apply words_join.
  induction F as [|c l Hc F IH]; [reflexivity|]. cbn [map words_of flat_map].
  change ("--config " +++ c) with ("--config" +++ " " +++ c). rewrite (words_app "--config" c ["--config"] [c] eq_refl (plain_one c Hc)), IH. reflexivity.
Qed.
Lemma host_words t : plain_word (target_output_path (te_build (g_env t)) (te_name (g_env t)) (te_ext (g_env t))) ->
  shell_words (host_command t) = Some [target_output_path (te_build (g_env t)) (te_name (g_env t)) (te_ext (g_env t))].
Proof. exact (plain_one _). Qed.
