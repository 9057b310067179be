(** The generated header. *)
From Verif Require Import Prelude Model_Command Model_Json Model_Schema Model_ToolchainConfig Model_Target Spec_Pch.

Definition pch_line (f : string) : string := "#include " +++ str1 ch_quote +++ f +++ str1 ch_quote +++ crlf.
Definition pch_top : string :=
  "// Generated by BuildCC" +++ nl +++ "#ifndef BUILDCC_GENERATED_PCH_H_" +++ nl +++ "#define BUILDCC_GENERATED_PCH_H_" +++ nl +++ nl +++ "// clang-format off" +++ nl.
Definition pch_end : string := nl +++ nl +++ "#endif" +++ nl.
Lemma pch_text files : pch_header_text files = FOk (pch_top +++ join "" (map pch_line files) +++ pch_end).
Proof. reflexivity. Qed.

Lemma lines_app a b : has line_feed a = false -> lines (a +++ String line_feed b) = a :: lines b.
Proof.
  induction a as [|c a IH]; intros H; [reflexivity|]. cbn [has] in H. apply orb_false_iff in H as [H1 H2].
  change ((String c a) +++ String line_feed b) with (String c (a +++ String line_feed b)). cbn [lines]. rewrite H1, (IH H2). reflexivity.
Qed.
Lemma has_app c a b : has c (a +++ b) = has c a || has c b.
Proof. induction a as [|x a IH]; [reflexivity|]. change ((String x a) +++ b) with (String x (a +++ b)). cbn [has]. rewrite IH. apply orb_assoc. Qed.
Lemma upto_app f r : has quotation f = false -> upto_quotation (f +++ String quotation r) = Some f.
Proof.
  induction f as [|c f IH]; intros H; [reflexivity|]. cbn [has] in H. apply orb_false_iff in H as [H1 H2].
  change ((String c f) +++ String quotation r) with (String c (f +++ String quotation r)). cbn [upto_quotation]. rewrite H1, (IH H2). reflexivity.
Qed.
Lemma app_assoc_s (a b c : string) : (a +++ b) +++ c = a +++ (b +++ c).
Proof. induction a as [|x a IH]; [reflexivity|]. change ((String x a +++ b) +++ c) with (String x ((a +++ b) +++ c)). rewrite IH. reflexivity. Qed.

Lemma included_line f rest : has quotation f = false -> has line_feed f = false -> included (pch_line f +++ rest) = f :: included rest.
Proof.
  intros Q L. unfold included.
  assert (E : pch_line f +++ rest = ("#include " +++ String quotation (f +++ String quotation (String "013"%char ""))) +++ String line_feed rest).
  { unfold pch_line, crlf, nl, str1. change ch_quote with quotation. rewrite !app_assoc_s. cbn. rewrite app_assoc_s. reflexivity. }
  rewrite E, lines_app.
  - cbn [flat_map]. unfold directive at 1. cbn [after String.append]. rewrite !Ascii.eqb_refl. rewrite upto_app by exact Q. reflexivity.
  - rewrite has_app. cbn [has]. rewrite has_app, L. reflexivity.
Qed.
Lemma join_nil_cons a l : join "" (a :: l) = a +++ join "" l.
Proof.
  destruct l; cbn [join]; [|reflexivity]. induction a as [|c a IH]; [reflexivity|].
  change (String c a +++ "") with (String c (a +++ "")). rewrite <- IH. reflexivity.
Qed.

Theorem pch_includes files : Forall (fun f => has quotation f = false /\ has line_feed f = false) files ->
  exists text, pch_header_text files = FOk text /\ included text = files.
Proof.
  intros H. eexists. split; [apply pch_text|].
  assert (T : forall r, included (pch_top +++ r) = included r).
  { intros r. unfold included, pch_top, nl. rewrite !app_assoc_s.
    repeat match goal with |- context [lines (?a +++ (String "010"%char "" +++ ?b))] => change (a +++ (String "010"%char "" +++ b)) with (a +++ String line_feed b); rewrite (lines_app a b) by reflexivity end.
    cbn [flat_map]. match goal with |- context [lines (String "010"%char "" +++ ?b)] => change (String "010"%char "" +++ b) with ("" +++ String line_feed b) end.
    rewrite (lines_app "") by reflexivity. cbn [flat_map].
    repeat match goal with |- context [lines (?a +++ (String "010"%char "" +++ ?b))] => change (a +++ (String "010"%char "" +++ b)) with (a +++ String line_feed b); rewrite (lines_app a b) by reflexivity end.
    reflexivity. }
  rewrite T. clear T. induction H as [|f files [Q L] _ IH]; [reflexivity|].
  cbn [map]. rewrite join_nil_cons, app_assoc_s, included_line by assumption. rewrite IH. reflexivity.
Qed.

Lemma directives_line f rest : has line_feed f = false -> directives (pch_line f +++ rest) = include_line f :: directives rest.
Proof.
  intros L. unfold directives.
  assert (E : pch_line f +++ rest = include_line f +++ String line_feed rest).
  { unfold pch_line, include_line, crlf, nl, str1. change ch_quote with quotation. rewrite !app_assoc_s. cbn. rewrite app_assoc_s. reflexivity. }
  rewrite E, lines_app.
  - reflexivity.
  - unfold include_line. rewrite has_app. cbn [has]. rewrite has_app, L. reflexivity.
Qed.
Theorem pch_guarded files : Forall (fun f => has line_feed f = false) files ->
  exists text g, pch_header_text files = FOk text /\ g <> "" /\ has " "%char g = false /\
    directives text = ("#ifndef " +++ g) :: ("#define " +++ g) :: map include_line files ++ ["#endif"].
Proof.
  intros H. eexists. exists "BUILDCC_GENERATED_PCH_H_". split; [apply pch_text|]. split; [discriminate|]. split; [reflexivity|].
  assert (T : forall r, directives (pch_top +++ r) = "#ifndef BUILDCC_GENERATED_PCH_H_" :: "#define BUILDCC_GENERATED_PCH_H_" :: directives r).
  { intros r. unfold directives, pch_top, nl. rewrite !app_assoc_s.
    repeat match goal with |- context [lines (?a +++ (String "010"%char "" +++ ?b))] => change (a +++ (String "010"%char "" +++ b)) with (a +++ String line_feed b); rewrite (lines_app a b) by reflexivity end.
    match goal with |- context [lines (String "010"%char "" +++ ?b)] => change (String "010"%char "" +++ b) with ("" +++ String line_feed b) end.
    rewrite (lines_app "") by reflexivity.
    repeat match goal with |- context [lines (?a +++ (String "010"%char "" +++ ?b))] => change (a +++ (String "010"%char "" +++ b)) with (a +++ String line_feed b); rewrite (lines_app a b) by reflexivity end.
    reflexivity. }
  rewrite T. do 2 f_equal. clear T. induction H as [|f files L _ IH]; [reflexivity|].
  cbn [map]. rewrite join_nil_cons, app_assoc_s, directives_line by assumption. rewrite IH. reflexivity.
Qed.
