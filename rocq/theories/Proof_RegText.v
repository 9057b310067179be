From Verif Require Import Prelude Proof_Prelude Model_Command Spec_Command Proof_Command Model_Reg.

Lemma test_text_exact other id exe l args : Forall token_ok l ->
  test_text other id exe (render l) args = expand (fun k => first_value k (("executable", exe) :: args)) l.
Proof.
  intros H. unfold test_text, test_command. rewrite (construct_render _ _ _ H).
  change (add_default_arguments command_init [("executable", exe)] ++ args) with (("executable", exe) :: args).
  destruct (expand _ l); reflexivity.
Qed.
