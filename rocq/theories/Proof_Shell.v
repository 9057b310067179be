(** Word splitting of the generated commands. *)
From Verif Require Import Prelude Model_Path Model_Json Model_Schema Model_Command Model_ToolchainConfig Model_Target
  Spec_Command Proof_Prelude Proof_Command Proof_Path Proof_TargetBase Model_Gcc Spec_Shell Spec_Gcc.

Lemma sapp_assoc (a b c : string) : (a +++ b) +++ c = a +++ b +++ c.
Proof. induction a as [|x a IH]; cbn; [reflexivity|now rewrite IH]. Qed.
Lemma sapp_nil (a : string) : a +++ "" = a.
Proof. induction a as [|x a IH]; cbn; [reflexivity|now rewrite IH]. Qed.

Lemma scan_blank_app b wb : shell_words b = Some wb -> forall a st wa, sh_scan st a = Some wa ->
  sh_scan st (a +++ String ch_space b) = Some (wa ++ wb).
Proof.
  intros Hb. induction a as [|c a IH]; intros st wa H.
  - destruct st as [|x|x]; cbn in H; try discriminate; injection H as <-; cbn; change (sh_scan SBlank b) with (shell_words b);
      rewrite Hb; reflexivity.
  - cbn [String.append]. cbn [sh_scan] in *. destruct st as [|x|x].
    + destruct (sh_blank c); [exact (IH _ _ H)|]. destruct (Ascii.eqb c ch_quote); [exact (IH _ _ H)|].
      destruct (sh_special c); [discriminate|exact (IH _ _ H)].
    + destruct (sh_blank c).
      * destruct (sh_scan SBlank a) as [w|] eqn:E; [|discriminate]. cbn in H. injection H as <-.
        rewrite (IH _ _ E). reflexivity.
      * destruct (Ascii.eqb c ch_quote); [exact (IH _ _ H)|].
        destruct (sh_special c); [discriminate|exact (IH _ _ H)].
    + destruct (Ascii.eqb c ch_quote); [exact (IH _ _ H)|].
      destruct (sh_special_quoted c); [discriminate|exact (IH _ _ H)].
Qed.
Lemma words_app a b wa wb : shell_words a = Some wa -> shell_words b = Some wb ->
  shell_words (a +++ " " +++ b) = Some (wa ++ wb).
Proof. intros A B. exact (scan_blank_app b wb B a _ _ A). Qed.

Lemma words_join : forall l w, words_of l = Some w -> shell_words (join " " l) = Some w.
Proof.
  induction l as [|x r IH]; intros w H; [exact H|]. cbn [words_of] in H.
  destruct (shell_words x) as [a|] eqn:A; [|discriminate]. destruct (words_of r) as [b|] eqn:B; [|discriminate].
  injection H as <-. destruct r as [|y r].
  - cbn in *. injection B as <-. rewrite app_nil_r. exact A.
  - change (join " " (x :: y :: r)) with (x +++ " " +++ join " " (y :: r)). apply words_app; [exact A|]. exact (IH _ eq_refl).
Qed.

Lemma special_quoted c : sh_special c = false -> sh_special_quoted c = false.
Proof.
  unfold sh_special, sh_special_quoted. cbn [str_mem]. intros H. repeat rewrite orb_false_iff in *.
  intuition.
Qed.
Lemma scan_quoted : forall p a r, sh_plain p = true ->
  sh_scan (SQuote a) (p +++ String ch_quote r) = sh_scan (SWord (a +++ p)) r.
Proof.
  induction p as [|c p IH]; intros a r H.
  - cbn. now rewrite sapp_nil.
  - cbn [sh_plain] in H. apply andb_true_iff in H. destruct H as [H P].
    apply andb_true_iff in H. destruct H as [H T]. apply andb_true_iff in H. destruct H as [S Q].
    apply negb_true_iff in S, Q, T. cbn [String.append sh_scan]. rewrite Q, (special_quoted c S).
    rewrite (IH _ r P), sapp_assoc. reflexivity.
Qed.
Lemma blank_false c : Ascii.eqb c ch_space = false -> Ascii.eqb c ch_tab = false -> sh_blank c = false.
Proof. unfold sh_blank. intros -> ->. reflexivity. Qed.
Lemma scan_plain : forall p a, sh_plain p = true -> str_mem ch_space p = false -> sh_scan (SWord a) p = Some [a +++ p].
Proof.
  induction p as [|c p IH]; intros a H M; [cbn; now rewrite sapp_nil|].
  cbn [sh_plain] in H. apply andb_true_iff in H. destruct H as [H P].
  apply andb_true_iff in H. destruct H as [H T]. apply andb_true_iff in H. destruct H as [S Q].
  apply negb_true_iff in S, Q, T. cbn [str_mem] in M. apply orb_false_iff in M. destruct M as [M1 M2].
  cbn [sh_scan]. rewrite (blank_false c M1 T), Q, S, (IH _ P M2), sapp_assoc. reflexivity.
Qed.
Lemma plain_one p : plain_word p -> shell_words p = Some [p].
Proof.
  intros [[N H] M]. destruct p as [|c p]; [destruct (N eq_refl)|].
  pose proof (scan_plain (String c p) "" H M) as K. cbn [String.append] in K. rewrite <- K. unfold shell_words.
  cbn [sh_scan]. cbn [sh_plain] in H. apply andb_true_iff in H. destruct H as [H P].
  apply andb_true_iff in H. destruct H as [H T]. apply andb_true_iff in H. destruct H as [S Q].
  apply negb_true_iff in S, Q, T. cbn [str_mem] in M. apply orb_false_iff in M. destruct M as [M1 M2].
  rewrite (blank_false c M1 T), Q, S. reflexivity.
Qed.
(** A path printed as fs::path is one word. *)
Lemma display_one p : plain_path (to_path_string p) -> shell_words (to_display_string p) = Some [to_path_string p].
Proof.
  intros [N H]. unfold to_display_string. destruct (str_mem ch_space (to_path_string p)) eqn:M.
  - unfold shell_words. change (str1 ch_quote +++ to_path_string p +++ str1 ch_quote) with (String ch_quote (to_path_string p +++ String ch_quote "")).
    cbn [sh_scan]. change (sh_blank ch_quote) with false. rewrite Ascii.eqb_refl. cbn iota.
    rewrite (scan_quoted _ "" "" H). reflexivity.
  - apply plain_one. split; [split; assumption|exact M].
Qed.
Lemma display_words_of l : Forall (fun p => plain_path (to_path_string p)) l ->
  words_of (map to_display_string l) = Some (map to_path_string l).
Proof.
  induction 1 as [|p l P _ IH]; [reflexivity|]. cbn [map words_of]. rewrite (display_one p P), IH. reflexivity.
Qed.
Lemma plain_words_of l : Forall plain_word l -> words_of l = Some l.
Proof. induction 1 as [|p l P _ IH]; [reflexivity|]. cbn [words_of]. rewrite (plain_one p P), IH. reflexivity. Qed.

(** ** The command texts *)

Lemma dirs_eq l : dirs l = map to_path_string l.
Proof.
  unfold dirs. assert (G : forall l acc, fold_left pl_emplace l acc = acc ++ map to_path_string l).
  { clear l. induction l as [|x l IH]; intros acc; cbn; [now rewrite app_nil_r|]. rewrite IH. unfold pl_emplace. now rewrite <- app_assoc. }
  exact (G l []).
Qed.

Definition pch_only (c : cfg) (l : list string) : list string := if contains_pch c then l else [].
Lemma default_args_eq e c : default_args e c =
    [ ("include_dirs", aggregate_with_prefix (tc_prefix_include (te_tc e)) (map to_path_string (c_include_dirs c)));
      ("lib_dirs", aggregate_with_prefix (tc_prefix_lib (te_tc e)) (map to_path_string (c_lib_dirs c)));
      ("preprocessor_flags", aggregate (c_preprocessor c));
      ("common_compile_flags", aggregate (c_common c));
      ("link_flags", aggregate (c_link c));
      ("asm_compiler", to_display_string (te_asm e));
      ("c_compiler", to_display_string (te_cc e));
      ("cpp_compiler", to_display_string (te_cxx e));
      ("archiver", to_display_string (te_ar e));
      ("linker", to_display_string (te_ld e));
      ("pch_compile_flags", aggregate (pch_only c (c_pch_compile c)));
      ("pch_object_flags", aggregate (pch_only c (c_pch_object c)));
      ("pch_object_output", if contains_pch c then to_display_string (pch_object_path (te_build e) (tc_pch_header_ext (te_tc e)) (tc_obj_ext (te_tc e))) else "") ].
Proof.
  unfold default_args, pch_only. rewrite <- !dirs_eq. destruct (contains_pch c); reflexivity.
Qed.

(** Construct by tokens, with the lookups done. *)
Ltac toks := repeat (match goal with |- Forall _ (_ :: _) => constructor; [try exact Logic.I; cbn; intuition|] | |- Forall _ [] => constructor end).
Definition F (n : string) : token := Field n.
Fixpoint L (s : string) : list token := match s with EmptyString => [] | String c r => Lit c :: L r end.
Lemma construct_tokens c args l : forallb token_okb l = true ->
  construct c (render l) args = to_fres (expand (fun k => first_value k (c ++ args)) l).
Proof. intros H. apply construct_render. apply tokens_okb_sound. exact H. Qed.

Lemma compile_text e c s : te_compile_command e = gcc_compile_command ->
  compile_command e c s = FOk
    (to_display_string (select_compiler e (get_file_ext (te_tc e) s)) +++ " " +++ aggregate (c_preprocessor c) +++ " " +++
     aggregate_with_prefix (tc_prefix_include (te_tc e)) (map to_path_string (c_include_dirs c)) +++ " " +++
     aggregate (c_common c) +++ " " +++ aggregate (pch_only c (c_pch_object c)) +++ " " +++
     select_flags c (get_file_ext (te_tc e) s) +++ " " +++ "-o" +++ " " +++ to_display_string (obj_of e s) +++ " " +++
     "-c" +++ " " +++ s).
Proof.
  intros T. unfold compile_command. rewrite T, default_args_eq.
  change gcc_compile_command with (render ([F "compiler"] ++ L " " ++ [F "preprocessor_flags"] ++ L " " ++ [F "include_dirs"] ++ L " " ++
    [F "common_compile_flags"] ++ L " " ++ [F "pch_object_flags"] ++ L " " ++ [F "compile_flags"] ++ L " -o " ++ [F "output"] ++ L " -c " ++ [F "input"])).
  rewrite construct_tokens by reflexivity.
  cbv [expand app F L first_value find option_map fst snd String.eqb Ascii.eqb Bool.eqb to_fres].
  now rewrite sapp_nil.
Qed.

Lemma pch_text e c : te_pch_command e = gcc_pch_command ->
  pch_command e c = FOk
    (to_display_string (if contains_cpp e c then te_cxx e else te_cc e) +++ " " +++ aggregate (c_preprocessor c) +++ " " +++
     aggregate_with_prefix (tc_prefix_include (te_tc e)) (map to_path_string (c_include_dirs c)) +++ " " +++
     aggregate (c_common c) +++ " " +++ aggregate (pch_only c (c_pch_compile c)) +++ " " +++
     select_flags c (if contains_cpp e c then ExtCpp else ExtC) +++ " " +++ "-o" +++ " " +++
     to_display_string (pch_compile_path (te_build e) (tc_pch_header_ext (te_tc e)) (tc_pch_compile_ext (te_tc e))) +++ " " +++
     "-c" +++ " " +++ to_display_string (pch_header_path (te_build e) (tc_pch_header_ext (te_tc e)))).
Proof.
  intros T. unfold pch_command. rewrite T, default_args_eq.
  change gcc_pch_command with (render ([F "compiler"] ++ L " " ++ [F "preprocessor_flags"] ++ L " " ++ [F "include_dirs"] ++ L " " ++
    [F "common_compile_flags"] ++ L " " ++ [F "pch_compile_flags"] ++ L " " ++ [F "compile_flags"] ++ L " -o " ++ [F "output"] ++ L " -c " ++ [F "input"])).
  rewrite construct_tokens by reflexivity.
  cbv [expand app F L first_value find option_map fst snd String.eqb Ascii.eqb Bool.eqb to_fres].
  now rewrite sapp_nil.
Qed.

Definition objs_text e ord := aggregate (map (fun s => to_display_string (obj_of e s)) ord).
Definition out_text e := to_display_string (target_output_path (te_build e) (te_name e) (te_ext e)).
Lemma exe_text e c ord : te_link_command e = gcc_executable_link ->
  link_command e c ord = FOk
    (to_display_string (te_cxx e) +++ " " +++ aggregate (c_link c) +++ " " +++ objs_text e ord +++ " " +++ "-o" +++ " " +++
     out_text e +++ " " +++ aggregate_with_prefix (tc_prefix_lib (te_tc e)) (map to_path_string (c_lib_dirs c)) +++ " " +++
     aggregate (map to_path_string (c_libs c)) +++ " " +++ aggregate (c_external_libs c)).
Proof.
  intros T. unfold link_command. rewrite T, default_args_eq.
  change gcc_executable_link with (render ([F "cpp_compiler"] ++ L " " ++ [F "link_flags"] ++ L " " ++ [F "compiled_sources"] ++ L " -o " ++
    [F "output"] ++ L " " ++ [F "lib_dirs"] ++ L " " ++ [F "lib_deps"])).
  rewrite construct_tokens by reflexivity.
  cbv [expand app F L first_value find option_map fst snd String.eqb Ascii.eqb Bool.eqb to_fres].
  rewrite sapp_nil. unfold objs_text, out_text.
  replace (il_paths (ts_libs (user_of c))) with (map to_path_string (c_libs c)); [reflexivity|].
  unfold user_of. cbn [ts_libs]. rewrite infos_map. unfold il_paths. rewrite map_map. reflexivity.
Qed.
Lemma static_text e c ord : te_link_command e = gcc_static_link ->
  link_command e c ord = FOk (to_display_string (te_ar e) +++ " " +++ "rcs" +++ " " +++ out_text e +++ " " +++ objs_text e ord).
Proof.
  intros T. unfold link_command. rewrite T, default_args_eq.
  change gcc_static_link with (render ([F "archiver"] ++ L " rcs " ++ [F "output"] ++ L " " ++ [F "compiled_sources"])).
  rewrite construct_tokens by reflexivity.
  cbv [expand app F L first_value find option_map fst snd String.eqb Ascii.eqb Bool.eqb to_fres].
  rewrite sapp_nil. reflexivity.
Qed.
Lemma dynamic_text e c ord : te_link_command e = gcc_dynamic_link ->
  link_command e c ord = FOk (to_display_string (te_cxx e) +++ " " +++ "-shared" +++ " " +++ aggregate (c_link c) +++ " " +++
    objs_text e ord +++ " " +++ "-o" +++ " " +++ out_text e).
Proof.
  intros T. unfold link_command. rewrite T, default_args_eq.
  change gcc_dynamic_link with (render ([F "cpp_compiler"] ++ L " -shared " ++ [F "link_flags"] ++ L " " ++ [F "compiled_sources"] ++ L " -o " ++ [F "output"])).
  rewrite construct_tokens by reflexivity.
  cbv [expand app F L first_value find option_map fst snd String.eqb Ascii.eqb Bool.eqb to_fres].
  rewrite sapp_nil. reflexivity.
Qed.
Lemma mingw_dynamic_text e c ord : te_link_command e = mingw_dynamic_link ->
  link_command e c ord = FOk (to_display_string (te_cxx e) +++ " " +++ "-shared" +++ " " +++ aggregate (c_link c) +++ " " +++
    objs_text e ord +++ " " +++ "-o" +++ " " +++ out_text e +++ " " +++ "-Wl,--out-implib," +++ out_text e +++ ".a").
Proof.
  intros T. unfold link_command. rewrite T, default_args_eq.
  change mingw_dynamic_link with (render ([F "cpp_compiler"] ++ L " -shared " ++ [F "link_flags"] ++ L " " ++ [F "compiled_sources"] ++ L " -o " ++ [F "output"] ++
    L " -Wl,--out-implib," ++ [F "output"] ++ L ".a")).
  rewrite construct_tokens by reflexivity.
  cbv [expand app F L first_value find option_map fst snd String.eqb Ascii.eqb Bool.eqb to_fres].
  reflexivity.
Qed.

(** ** The words *)
Lemma FOk_inj a b : FOk a = FOk b -> a = b.
Proof. congruence. Qed.
Lemma pch_only_eq c l : pch_only c l = with_pch_only c l.
Proof.
  unfold pch_only, with_pch_only, contains_pch, user_of. cbn [ts_pchs]. rewrite infos_map. destruct (c_pchs c); reflexivity.
Qed.
Lemma prefixed_eq pre l : aggregate_with_prefix pre (map to_path_string l) = join " " (map (fun d => pre +++ to_path_string d) l).
Proof. unfold aggregate_with_prefix, aggregate. now rewrite map_map. Qed.
Lemma select_flags_eq c x : select_flags c x = join " " (flags_for c x).
Proof. destruct x; reflexivity. Qed.
Lemma contains_cpp_eq e c : (if contains_cpp e c then ExtCpp else ExtC) = pch_language e c.
Proof.
  unfold contains_cpp, pch_language, sources, user_of. cbn [ts_sources]. rewrite infos_map. unfold il_paths. rewrite map_map.
  assert (G : forall l, existsb (fun s => match get_file_ext (te_tc e) s with ExtCpp => true | _ => false end) (map (fun p => to_path_string p) l) =
    existsb (fun s => match get_file_ext (te_tc e) (to_path_string s) with ExtCpp => true | _ => false end) l).
  { induction l as [|y l IH]; [reflexivity|]. cbn [map existsb]. now rewrite IH. }
  cbn [pi_path]. now rewrite G.
Qed.
Lemma objs_words e ord : Forall (fun s => plain_path (to_path_string (obj_of e s))) ord ->
  shell_words (objs_text e ord) = Some (map (fun s => to_path_string (obj_of e s)) ord).
Proof.
  intros H. apply words_join. rewrite <- (map_map (obj_of e) to_display_string), <- (map_map (obj_of e) to_path_string).
  apply display_words_of. rewrite Forall_map. exact H.
Qed.
Lemma lit_one w : (if str_mem ch_space w then false else sh_plain w) && negb (String.eqb w "") = true -> shell_words w = Some [w].
Proof.
  intros H. apply andb_true_iff in H. destruct H as [H N]. destruct (str_mem ch_space w) eqn:M; [discriminate|].
  apply plain_one. split; [split; [|exact H]|exact M]. intros ->. discriminate N.
Qed.

Lemma compile_words e c s cmd pp cf pf lf :
  te_compile_command e = gcc_compile_command -> compile_command e c s = FOk cmd ->
  words_of (c_preprocessor c) = Some pp -> words_of (c_common c) = Some cf ->
  words_of (with_pch_only c (c_pch_object c)) = Some pf -> words_of (flags_for c (get_file_ext (te_tc e) s)) = Some lf ->
  Forall plain_word (include_args e c) ->
  plain_path (to_path_string (compiler_for e (get_file_ext (te_tc e) s))) -> plain_path (to_path_string (obj_of e s)) -> plain_word s ->
  shell_words cmd = Some ([to_path_string (compiler_for e (get_file_ext (te_tc e) s))] ++ pp ++ include_args e c ++ cf ++ pf ++ lf ++
    ["-o"; to_path_string (obj_of e s); "-c"; s]).
Proof.
  intros T H W1 W2 W3 W4 Inc Cp Ob Sw. rewrite (compile_text e c s T) in H. apply FOk_inj in H. subst cmd.
  rewrite prefixed_eq, pch_only_eq, select_flags_eq. change (select_compiler e) with (compiler_for e).
  apply words_app; [apply display_one; exact Cp|]. apply words_app; [apply words_join; exact W1|].
  apply words_app; [apply words_join, plain_words_of; exact Inc|]. apply words_app; [apply words_join; exact W2|].
  apply words_app; [apply words_join; exact W3|]. apply words_app; [apply words_join; exact W4|].
  change ["-o"; to_path_string (obj_of e s); "-c"; s] with (["-o"] ++ [to_path_string (obj_of e s)] ++ ["-c"] ++ [s]).
  apply words_app; [reflexivity|]. apply words_app; [apply display_one; exact Ob|]. apply words_app; [reflexivity|].
  apply plain_one. exact Sw.
Qed.
Lemma pch_words e c cmd pp cf pf lf :
  te_pch_command e = gcc_pch_command -> pch_command e c = FOk cmd ->
  words_of (c_preprocessor c) = Some pp -> words_of (c_common c) = Some cf ->
  words_of (with_pch_only c (c_pch_compile c)) = Some pf -> words_of (flags_for c (pch_language e c)) = Some lf ->
  Forall plain_word (include_args e c) ->
  plain_path (to_path_string (compiler_for e (pch_language e c))) ->
  let out := to_path_string (pch_compile_path (te_build e) (tc_pch_header_ext (te_tc e)) (tc_pch_compile_ext (te_tc e))) in
  let inp := to_path_string (pch_header_path (te_build e) (tc_pch_header_ext (te_tc e))) in
  plain_path out -> plain_path inp ->
  shell_words cmd = Some ([to_path_string (compiler_for e (pch_language e c))] ++ pp ++ include_args e c ++ cf ++ pf ++ lf ++
    ["-o"; out; "-c"; inp]).
Proof.
  intros T H W1 W2 W3 W4 Inc Cp out inp Ob Sw. rewrite (pch_text e c T) in H. apply FOk_inj in H. subst cmd.
  rewrite prefixed_eq, pch_only_eq, select_flags_eq, contains_cpp_eq.
  replace (if contains_cpp e c then te_cxx e else te_cc e) with (compiler_for e (pch_language e c))
    by (rewrite <- contains_cpp_eq; destruct (contains_cpp e c); reflexivity).
  apply words_app; [apply display_one; exact Cp|]. apply words_app; [apply words_join; exact W1|].
  apply words_app; [apply words_join, plain_words_of; exact Inc|]. apply words_app; [apply words_join; exact W2|].
  apply words_app; [apply words_join; exact W3|]. apply words_app; [apply words_join; exact W4|].
  change ["-o"; out; "-c"; inp] with (["-o"] ++ [out] ++ ["-c"] ++ [inp]).
  apply words_app; [reflexivity|]. apply words_app; [apply display_one; exact Ob|]. apply words_app; [reflexivity|].
  apply display_one. exact Sw.
Qed.
Lemma exe_words e c ord cmd lf ef :
  te_link_command e = gcc_executable_link -> link_command e c ord = FOk cmd ->
  words_of (c_link c) = Some lf -> words_of (c_external_libs c) = Some ef ->
  Forall plain_word (lib_dir_args e c) -> Forall (fun l => plain_word (to_path_string l)) (c_libs c) ->
  plain_path (to_path_string (te_cxx e)) -> Forall (fun s => plain_path (to_path_string (obj_of e s))) ord ->
  let out := to_path_string (target_output_path (te_build e) (te_name e) (te_ext e)) in plain_path out ->
  shell_words cmd = Some ([to_path_string (te_cxx e)] ++ lf ++ map (fun s => to_path_string (obj_of e s)) ord ++ ["-o"; out] ++
    lib_dir_args e c ++ map to_path_string (c_libs c) ++ ef).
Proof.
  intros T H W1 W2 Ld Lb Cp Ob out Po. rewrite (exe_text e c ord T) in H. apply FOk_inj in H. subst cmd.
  rewrite prefixed_eq.
  apply words_app; [apply display_one; exact Cp|]. apply words_app; [apply words_join; exact W1|].
  apply words_app; [apply objs_words; exact Ob|]. change (["-o"; out] ++ ?x) with (["-o"] ++ [out] ++ x).
  apply words_app; [reflexivity|]. apply words_app; [apply display_one; exact Po|].
  apply words_app; [apply words_join, plain_words_of; exact Ld|].
  apply words_app; [apply words_join, plain_words_of; rewrite Forall_map; exact Lb|]. apply words_join. exact W2.
Qed.
Lemma static_words e c ord cmd : te_link_command e = gcc_static_link -> link_command e c ord = FOk cmd ->
  plain_path (to_path_string (te_ar e)) -> Forall (fun s => plain_path (to_path_string (obj_of e s))) ord ->
  let out := to_path_string (target_output_path (te_build e) (te_name e) (te_ext e)) in plain_path out ->
  shell_words cmd = Some ([to_path_string (te_ar e); "rcs"; out] ++ map (fun s => to_path_string (obj_of e s)) ord).
Proof.
  intros T H Cp Ob out Po. rewrite (static_text e c ord T) in H. apply FOk_inj in H. subst cmd.
  change ([to_path_string (te_ar e); "rcs"; out] ++ ?x) with ([to_path_string (te_ar e)] ++ ["rcs"] ++ [out] ++ x).
  apply words_app; [apply display_one; exact Cp|]. apply words_app; [reflexivity|].
  apply words_app; [apply display_one; exact Po|]. apply objs_words. exact Ob.
Qed.
Lemma dynamic_words e c ord cmd lf : te_link_command e = gcc_dynamic_link -> link_command e c ord = FOk cmd ->
  words_of (c_link c) = Some lf ->
  plain_path (to_path_string (te_cxx e)) -> Forall (fun s => plain_path (to_path_string (obj_of e s))) ord ->
  let out := to_path_string (target_output_path (te_build e) (te_name e) (te_ext e)) in plain_path out ->
  shell_words cmd = Some ([to_path_string (te_cxx e); "-shared"] ++ lf ++ map (fun s => to_path_string (obj_of e s)) ord ++ ["-o"; out]).
Proof.
  intros T H W1 Cp Ob out Po. rewrite (dynamic_text e c ord T) in H. apply FOk_inj in H. subst cmd.
  change ([to_path_string (te_cxx e); "-shared"] ++ ?x) with ([to_path_string (te_cxx e)] ++ ["-shared"] ++ x).
  apply words_app; [apply display_one; exact Cp|]. apply words_app; [reflexivity|].
  apply words_app; [apply words_join; exact W1|]. apply words_app; [apply objs_words; exact Ob|].
  change ["-o"; out] with (["-o"] ++ [out]). apply words_app; [reflexivity|]. apply display_one; exact Po.
Qed.

(** A path inside a word. *)
Lemma scan_prefix : forall w a r, sh_plain w = true -> str_mem ch_space w = false -> sh_scan (SWord a) (w +++ r) = sh_scan (SWord (a +++ w)) r.
Proof.
  induction w as [|c w IH]; intros a r H M; [cbn; now rewrite sapp_nil|].
  cbn [sh_plain] in H. apply andb_true_iff in H. destruct H as [H P].
  apply andb_true_iff in H. destruct H as [H T]. apply andb_true_iff in H. destruct H as [S Q].
  apply negb_true_iff in S, Q, T. cbn [str_mem] in M. apply orb_false_iff in M. destruct M as [M1 M2].
  cbn [String.append sh_scan]. rewrite (blank_false c M1 T), Q, S, (IH _ _ P M2), sapp_assoc. reflexivity.
Qed.
Lemma scan_display a p r : sh_plain (to_path_string p) = true ->
  sh_scan (SWord a) (to_display_string p +++ r) = sh_scan (SWord (a +++ to_path_string p)) r.
Proof.
  intros H. unfold to_display_string. destruct (str_mem ch_space (to_path_string p)) eqn:M.
  - change ((str1 ch_quote +++ to_path_string p +++ str1 ch_quote) +++ r) with (String ch_quote ((to_path_string p +++ str1 ch_quote) +++ r)).
    cbn [sh_scan]. change (sh_blank ch_quote) with false. rewrite Ascii.eqb_refl. cbn iota. rewrite sapp_assoc.
    exact (scan_quoted _ a r H).
  - apply scan_prefix; assumption.
Qed.
Lemma embedded_one w p x : plain_word w -> sh_plain (to_path_string p) = true -> sh_plain x = true -> str_mem ch_space x = false ->
  shell_words (w +++ to_display_string p +++ x) = Some [w +++ to_path_string p +++ x].
Proof.
  intros [[N H] M] P X Mx. destruct w as [|c w]; [destruct (N eq_refl)|]. unfold shell_words.
  cbn [sh_plain] in H. apply andb_true_iff in H. destruct H as [H Pw].
  apply andb_true_iff in H. destruct H as [H T]. apply andb_true_iff in H. destruct H as [S Q].
  apply negb_true_iff in S, Q, T. cbn [str_mem] in M. apply orb_false_iff in M. destruct M as [M1 M2].
  cbn [String.append sh_scan]. rewrite (blank_false c M1 T), Q, S.
  rewrite (scan_prefix w _ _ Pw M2), (scan_display _ p _ P), (scan_plain x _ X Mx), !sapp_assoc. reflexivity.
Qed.
Lemma mingw_dynamic_words e c ord cmd lf : te_link_command e = mingw_dynamic_link -> link_command e c ord = FOk cmd ->
  words_of (c_link c) = Some lf ->
  plain_path (to_path_string (te_cxx e)) -> Forall (fun s => plain_path (to_path_string (obj_of e s))) ord ->
  let out := to_path_string (target_output_path (te_build e) (te_name e) (te_ext e)) in plain_path out ->
  shell_words cmd = Some ([to_path_string (te_cxx e); "-shared"] ++ lf ++ map (fun s => to_path_string (obj_of e s)) ord ++
    ["-o"; out; "-Wl,--out-implib," +++ out +++ ".a"]).
Proof.
  intros T H W1 Cp Ob out Po. rewrite (mingw_dynamic_text e c ord T) in H. apply FOk_inj in H. subst cmd.
  change ([to_path_string (te_cxx e); "-shared"] ++ ?x) with ([to_path_string (te_cxx e)] ++ ["-shared"] ++ x).
  apply words_app; [apply display_one; exact Cp|]. apply words_app; [reflexivity|].
  apply words_app; [apply words_join; exact W1|]. apply words_app; [apply objs_words; exact Ob|].
  change ["-o"; out; ?y] with (["-o"] ++ [out] ++ [y]). apply words_app; [reflexivity|].
  apply words_app; [apply display_one; exact Po|].
  apply (embedded_one "-Wl,--out-implib," _ ".a"); [split; [split; [discriminate|]|]; reflexivity|exact (proj2 Po)|reflexivity|reflexivity].
Qed.
