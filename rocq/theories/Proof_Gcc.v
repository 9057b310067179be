(** gcc targets. *)
From Verif Require Import Prelude Model_Path Model_Json Model_Schema Model_Command Model_ToolchainConfig Model_Target
  Spec_Command Proof_Prelude Proof_Command Proof_Path Proof_ObjectPath Proof_TargetBase Model_Gcc Spec_Shell Spec_Gcc Proof_Shell.

Lemma sapp_inj a b c : a +++ b = a +++ c -> b = c.
Proof. induction a as [|x a IH]; cbn; [auto|]. intros H. injection H as H. exact (IH H). Qed.
Lemma dir_of b f : str_mem ch_slash f = false -> dir_prefix (dir_open b +++ f) = dir_open b.
Proof. intros H. rewrite (dir_prefix_app _ _ (dir_open_open b)), (dir_prefix_nosep f H). apply sapp_nil. Qed.
Lemma file_of b f : str_mem ch_slash f = false -> filename (dir_open b +++ f) = f.
Proof.
  intros H. pose proof (dir_prefix_filename (dir_open b +++ f)) as K. rewrite (dir_of b f H) in K.
  symmetry. exact (sapp_inj _ _ _ K).
Qed.
Lemma header_path b : pch_header_path b ".h" = dir_open b +++ "buildcc_pch.h".
Proof. unfold pch_header_path. apply path_div_rel. reflexivity. Qed.
Lemma gch_path b : pch_compile_path b ".h" ".gch" = pch_header_path b ".h" +++ ".gch".
Proof.
  unfold pch_compile_path. rewrite header_path. unfold replace_extension.
  rewrite dir_of, file_of, sapp_assoc by reflexivity. reflexivity.
Qed.
Lemma gch_stem b : replace_extension (pch_compile_path b ".h" ".gch") "" = pch_header_path b ".h".
Proof.
  rewrite gch_path, header_path, sapp_assoc. unfold replace_extension.
  change ("buildcc_pch.h" +++ ".gch") with "buildcc_pch.h.gch".
  rewrite dir_of, file_of by reflexivity. cbn. reflexivity.
Qed.

Lemma words_of_app a b wa wb : words_of a = Some wa -> words_of b = Some wb -> words_of (a ++ b) = Some (wa ++ wb).
Proof.
  revert wa. induction a as [|x a IH]; intros wa A B; cbn in *; [injection A as <-; exact B|].
  destruct (shell_words x) as [w|]; [|discriminate]. destruct (words_of a) as [v|]; [|discriminate].
  injection A as <-. rewrite (IH _ eq_refl B), app_assoc. reflexivity.
Qed.

(** The words of a gcc target's compile command, default options included. *)
Lemma gcc_compile_words e k c s cmd pp cf pf lf :
  let e' := configured e (gcc_config k) in let c' := gcc_options e' k c in
  let x := get_file_ext (te_tc e) s in let header := to_path_string (pch_header_path (te_build e) ".h") in
  tc_pch_header_ext (te_tc e) = ".h" -> tc_pch_compile_ext (te_tc e) = ".gch" ->
  compile_command e' c' s = FOk cmd ->
  words_of (c_preprocessor c) = Some pp -> words_of (c_common c) = Some cf -> words_of (c_pch_object c) = Some pf ->
  words_of (flags_for c x) = Some lf -> Forall plain_word (include_args e c) ->
  plain_path header -> plain_path (to_path_string (compiler_for e x)) -> plain_path (to_path_string (obj_of e s)) -> plain_word s ->
  shell_words cmd = Some ([to_path_string (compiler_for e x)] ++ pp ++ include_args e c ++
    match k with KDynamic => ["-fpic"] | _ => [] end ++ cf ++
    with_pch_only c (["-include"; header; "-H"] ++ pf) ++ lf ++ ["-o"; to_path_string (obj_of e s); "-c"; s]).
Proof.
  intros e' c' x header Hh Hc C W1 W2 W3 W4 Inc Ph Cp Ob Sw.
  assert (T : te_compile_command e' = gcc_compile_command) by (subst e'; destruct k; reflexivity).
  rewrite (compile_words e' c' s cmd pp (match k with KDynamic => ["-fpic"] | _ => [] end ++ cf)
    (with_pch_only c (["-include"; header; "-H"] ++ pf)) lf T C W1); try assumption.
  - rewrite <- app_assoc. reflexivity.
  - apply words_of_app; [destruct k; reflexivity|exact W2].
  - unfold with_pch_only. change (c_pchs c') with (c_pchs c). destruct (c_pchs c); [reflexivity|].
    apply words_of_app; [|exact W3]. unfold gcc_pch_object_flags. change (te_tc e') with (te_tc e). change (te_build e') with (te_build e).
    rewrite Hh, Hc, gch_stem. cbn [words_of].
    change ("-include " +++ ?y) with ("-include" +++ " " +++ y).
    rewrite (words_app "-include" _ ["-include"] [header] eq_refl (display_one _ Ph)). reflexivity.
Qed.

Definition without_libs (c : cfg) : cfg :=
  CFG (c_sources c) (c_headers c) (c_pchs c) [] [] (c_include_dirs c) []
      (c_preprocessor c) (c_common c) (c_pch_compile c) (c_pch_object c) (c_asm_flags c) (c_c_flags c) (c_cpp_flags c) (c_link c)
      (c_compile_deps c) (c_link_deps c).
Lemma libs_ignored e k c ord : k <> KExecutable -> 
  link_command (configured e (gcc_config k)) c ord = link_command (configured e (gcc_config k)) (without_libs c) ord.
Proof.
  intros K. destruct k; [destruct (K eq_refl)| |].
  - rewrite !static_text by reflexivity. reflexivity.
  - rewrite !dynamic_text by reflexivity. reflexivity.
Qed.

(** Concrete targets. *)
Definition env0 : tenv := configured (TE "/my p" "/my p/_b" "app" "" tconfig_default "as" "gcc" "g++" "ar" "ld" "" "" "") (gcc_config KExecutable).
Definition cfg0 : cfg := CFG ["/my p/a.c"] [] [] ["/my p/l.a"] ["-lm"] ["/my p/inc"] ["/my p/lib"] ["-DX"] ["-O2 -g"] [] [] [] ["-std=c11"] [] ["-s"] [] [].
Definition cfg1 : cfg := CFG ["/p/a.c"; "/p/b.cpp"] [] ["/p/x.h"] ["/p/l.a"] ["-lm"] ["/p/inc"] ["/p/lib"] ["-DX"] ["-O2 -g"] ["-v"] ["-w"] [] ["-std=c11"] ["-std=c++17"] ["-s"] [] [].
Definition env1 : tenv := TE "/p" "/my b" "app" "" tconfig_default "as" "gcc" "g++" "ar" "ld" "" "" "".
(** The words of a text, or none. *)
Definition ws (r : fres) : option (list string) := match r with FOk t => shell_words t | _ => None end.
