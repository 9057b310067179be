(** Which tests have been executed when one of them fails. *)
From Verif Require Import Prelude Proof_Prelude Model_Command Model_Reg Spec_Reg.

Definition passes (other : string -> option string) (exe : string -> string) (res : string -> bool) (x : string * (string * list (string * string))) : Prop :=
  exists c, test_text other (fst x) (exe (fst x)) (fst (snd x)) (snd (snd x)) = Some c /\ c <> "" /\ res c = true.
Lemma tests_stop other exe res l : forall done ts, run_tests other exe res l done = RunFatalTest ts ->
  exists pre x post, l = pre ++ x :: post /\ ts = done ++ map fst pre ++ [fst x] /\ Forall (passes other exe res) pre /\ ~ passes other exe res x.
Proof.
  induction l as [|[id [cmd args]] l IH]; intros done ts H; cbn [run_tests] in H; [discriminate H|].
  destruct (test_text other id (exe id) cmd args) as [c|] eqn:T.
  - destruct (negb (String.eqb c "") && res c) eqn:R.
    + destruct (IH _ _ H) as (pre & x & post & A & B & C & D). exists ((id, (cmd, args)) :: pre), x, post. split; [rewrite A; reflexivity|].
      split; [rewrite B, <- app_assoc; reflexivity|]. split; [|exact D]. constructor; [|exact C]. apply andb_true_iff in R as [R1 R2].
      exists c. split; [exact T|]. split; [|exact R2]. intros ->. discriminate R1.
    + injection H as <-. exists [], (id, (cmd, args)), l. split; [reflexivity|]. split; [reflexivity|]. split; [constructor|].
      intros (c' & A & B & D). cbn [fst snd] in A. rewrite T in A. injection A as <-. rewrite D, andb_true_r in R. destruct (String.eqb_spec c ""); [contradiction|discriminate R].
  - injection H as <-. exists [], (id, (cmd, args)), l. split; [reflexivity|]. split; [reflexivity|]. split; [constructor|].
    intros (c' & A & _). cbn [fst snd] in A. rewrite T in A. discriminate A.
Qed.
Theorem first_failing other log exe res ord ts : reg_run other log exe res ord = RunFatalTest ts ->
  exists pre id cmd args post, ord = pre ++ (id, (cmd, args)) :: post /\ ts = map fst pre ++ [id] /\
    (forall i c a, In (i, (c, a)) pre -> exists t, test_text other i (exe i) c a = Some t /\ t <> "" /\ res t = true) /\
    ~ (exists t, test_text other id (exe id) cmd args = Some t /\ t <> "" /\ res t = true).
Proof.
  unfold reg_run. destruct (build_succeeded log); [|discriminate]. intros H. destruct (tests_stop _ _ _ _ _ _ H) as (pre & [id [cmd args]] & post & A & B & C & D).
  exists pre, id, cmd, args, post. split; [exact A|]. split; [exact B|]. split; [|exact D].
  intros i c a I. rewrite Forall_forall in C. exact (C _ I).
Qed.
