(** The inputs and outputs of a file generator are those of its calls. *)
From Verif Require Import Prelude Proof_Prelude Model_Path Model_Json Model_Schema Model_Command Model_Target Model_Gen Model_FileGen.

Lemma set_add_In l x y : In y (set_add l x) <-> In y l \/ y = x.
Proof.
  unfold set_add. destruct (mem_str x l) eqn:E.
  - split; [auto|]. intros [H|H]; [exact H|]. subst y. apply mem_str_In. exact E.
  - rewrite in_app_iff. cbn [In]. intuition.
Qed.
Lemma construct_all_In c l vs : construct_all c l = AOk vs ->
  forall x, In x vs <-> exists p, In p l /\ construct c p [] = FOk x.
Proof.
  revert vs. induction l as [|p l IH]; intros vs H x; cbn [construct_all] in H.
  - injection H as <-. split; [intros []|intros (p & [] & _)].
  - destruct (construct c p []) as [v| |] eqn:E; try discriminate H. destruct (construct_all c l) as [vs'| |]; try discriminate H.
    injection H as <-. cbn [In]. rewrite (IH vs' eq_refl x). split.
    + intros [<-|(q & A & B)]; [exists p; auto|exists q; auto].
    + intros (q & [<-|A] & B); [left; congruence|right; exists q; auto].
Qed.
Lemma fdo_all_sets calls : forall f f', fdo_all f calls = AOk f' ->
  (forall p, In p (fg_in f') <-> In p (fg_in f) \/ In (FInput p) calls) /\
  (forall p, In p (fg_out f') <-> In p (fg_out f) \/ In (FOutput p) calls) /\
  go_ids (fg_base f') = go_ids (fg_base f).
Proof.
  induction calls as [|c calls IH]; intros f f' H; cbn [fdo_all] in H.
  - injection H as <-. split; [intros p; cbn; tauto|]. split; [intros p; cbn; tauto|reflexivity].
  - destruct (fdo f c) as [f1| |] eqn:E; try discriminate H. destruct (IH _ _ H) as (A & B & C). clear IH H.
    destruct c as [k p|p|p|p args]; cbn [fdo] in E.
    + unfold add_pattern in E. destruct (construct _ _ _) in E; try discriminate E. injection E as <-. cbn [fg_in fg_out fg_base go_ids] in *.
      split; [intros q; rewrite A; cbn [In]; intuition discriminate|]. split; [intros q; rewrite B; cbn [In]; intuition discriminate|exact C].
    + injection E as <-. cbn [fg_in fg_out fg_base] in *.
      split; [intros q; rewrite A, set_add_In; cbn [In]; intuition congruence|]. split; [intros q; rewrite B; cbn [In]; intuition discriminate|exact C].
    + injection E as <-. cbn [fg_in fg_out fg_base] in *.
      split; [intros q; rewrite A; cbn [In]; intuition discriminate|]. split; [intros q; rewrite B, set_add_In; cbn [In]; intuition congruence|exact C].
    + destruct (construct _ p args) in E; try discriminate E. injection E as <-. cbn [fg_in fg_out fg_base] in *.
      split; [intros q; rewrite A; cbn [In]; intuition discriminate|]. split; [intros q; rewrite B; cbn [In]; intuition discriminate|exact C].
Qed.
Theorem file_inputs base calls f o :
  go_ids base = [] -> fdo_all (fgen_new base) calls = AOk f -> fbuild f = AOk o ->
  exists g, go_ids o = [("Generate", g)] /\
    (forall x, In x (gi_in g) <-> exists p, In (FInput p) calls /\ construct (go_args o) p [] = FOk x) /\
    (forall x, In x (gi_out g) <-> exists p, In (FOutput p) calls /\ construct (go_args o) p [] = FOk x).
Proof.
  intros Hb H K. destruct (fdo_all_sets _ _ _ H) as (A & B & C). cbn [fgen_new fg_in fg_out fg_base] in A, B, C. unfold fbuild, add_id_info in K.
  rewrite C, Hb in K. cbn [assoc] in K.
  destruct (construct_all (go_args (fg_base f)) (fg_in f)) as [ins| |] eqn:E1; try discriminate K.
  destruct (construct_all (go_args (fg_base f)) (fg_out f)) as [outs| |] eqn:E2; try discriminate K. injection K as <-.
  exists (GI ins outs (Some (strings_handler (fg_commands f)))). cbn [go_ids go_args gi_in gi_out app]. split; [reflexivity|]. split; intros x.
  - rewrite (construct_all_In _ _ _ E1). split; intros (p & P & Q); exists p; (split; [|exact Q]); apply A in P || apply A; cbn [In] in *; tauto.
  - rewrite (construct_all_In _ _ _ E2). split; intros (p & P & Q); exists p; (split; [|exact Q]); apply B in P || apply B; cbn [In] in *; tauto.
Qed.

(** The templates are those of the AddTemplate calls, in order. *)
Lemma template_infos calls : forall t t', tdo_all t calls = AOk t' ->
  tg_infos t' = tg_infos t ++ flat_map (fun c => match c with TTemplate i o => [(i, o)] | TPattern _ _ => [] end) calls.
Proof.
  induction calls as [|c calls IH]; intros t t' H; cbn [tdo_all flat_map] in *.
  - injection H as <-. symmetry. apply app_nil_r.
  - destruct (tdo t c) as [t1| |] eqn:E; try discriminate H. rewrite (IH _ _ H). destruct c as [k p|i o]; cbn [tdo] in E.
    + destruct (add_pattern _ _ _) in E; try discriminate E. injection E as <-. reflexivity.
    + injection E as <-. cbn [tg_infos]. rewrite <- app_assoc. reflexivity.
Qed.
