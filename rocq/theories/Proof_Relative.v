(** Going to a relative path and back. *)
From Verif Require Import Prelude Proof_Prelude Model_Path Spec_Path Proof_Path Proof_ObjectPath.

Lemma push_plain ab l : forall stk tr, Forall plain l ->
  fold_left (normal_step ab) l (stk, tr) = (rev l ++ stk, match l with [] => tr | _ => false end).
Proof.
  induction l as [|c l IH]; intros stk tr H; [reflexivity|]. inversion H as [|? ? (H1 & H2 & H3 & _) H4]; subst.
  cbn [fold_left]. unfold normal_step at 2. apply is_dot_false in H2. apply is_dotdot_false in H3. rewrite H2, H3.
  rewrite (IH _ _ H4). cbn [rev]. rewrite <- app_assoc. cbn [app]. destruct l; reflexivity.
Qed.
Lemma pop_plain ab b : forall stk tr, Forall plain b ->
  exists tr', fold_left (normal_step ab) (repeat ".." (length b)) (rev b ++ stk, tr) = (stk, tr').
Proof.
  induction b as [|x b IH] using rev_ind; intros stk tr H; [exists tr; reflexivity|]. apply Forall_app in H as [H1 H2].
  rewrite app_length, rev_app_distr. cbn [length rev app]. rewrite Nat.add_1_r. cbn [repeat fold_left]. unfold normal_step at 2.
  change (is_dot "..") with false. change (is_dotdot "..") with true. cbv iota. inversion H2 as [|? ? (_ & _ & Hx & _) _]; subst.
  apply is_dotdot_false in Hx. rewrite Hx. exact (IH stk true H1).
Qed.
Lemma abs_string l : Forall name_ok l -> parse_path ("/" +++ join "/" l) = PP true l false.
Proof.
  intros H. assert (W : wf (PP true l false)) by (split; simpl; [exact H|discriminate]).
  pose proof (parse_print _ W) as E. unfold print_path in E. cbn [pp_abs pp_comps pp_trail] in E. rewrite sapp_nil_r in E. exact E.
Qed.
Lemma below_abs bl rl : Forall plain bl -> Forall name_ok rl -> rl <> [] ->
  path_div ("/" +++ join "/" bl) (join "/" rl) = "/" +++ join "/" (bl ++ rl).
Proof.
  intros B R N. rewrite path_div_rel by (apply join_starts; exact R). unfold dir_open, has_filename.
  destruct bl as [|x bl]; [reflexivity|].
  change (nonempty_str ("/" +++ join "/" (x :: bl))) with true. rewrite ends_slash_app by (apply join_nonempty; [discriminate|apply plains_ok; exact B]).
  rewrite join_ends by (apply plains_ok; exact B). cbn [negb andb]. rewrite join_app by (discriminate || exact N). rewrite !sapp_assoc. reflexivity.
Qed.
Lemma below_open b x : path_div (path_div b "") x = path_div b x.
Proof.
  destruct (starts_slash x) eqn:E; [unfold path_div; rewrite E; reflexivity|]. rewrite !path_div_rel by (reflexivity || exact E).
  rewrite sapp_nil_r, (dir_open_id _ (dir_open_open b)). reflexivity.
Qed.

(** [f] is not [base] and not a directory above it. *)
Theorem relative_back base f : abs_canonical base -> abs_canonical f -> (forall t, names base <> names f ++ t) ->
  to_path_string (path_div base (lexically_relative f base)) = f.
Proof.
  intros (bl & -> & B) (fl & -> & F) N. rewrite (abs_names bl B), (abs_names fl F) in N.
  destruct (relative_abs fl bl F B) as (c & a & b & -> & -> & E & O). rewrite E.
  assert (A0 : a <> []) by (intros ->; apply (N b); rewrite app_nil_r; reflexivity).
  assert (R : rel_names a b = repeat ".." (length b) ++ a) by (destruct a; [congruence|reflexivity]). rewrite R in *.
  apply Forall_app in F as [Fc Fa]. pose proof B as B0. apply Forall_app in B as [_ Bb].
  rewrite below_abs; [|exact B0|exact O|destruct (length b); [exact A0|discriminate]].
  rewrite to_path_string_nonempty by discriminate.
  rewrite abs_string by (apply Forall_app; split; [apply plains_ok; exact B0|exact O]).
  unfold normal. cbn [pp_abs pp_comps pp_trail]. rewrite !fold_left_app, !push_plain by assumption.
  rewrite app_nil_r. destruct (pop_plain true b (rev c) (match b with [] => match c with [] => false | _ => false end | _ => false end) Bb) as (tr' & P).
  replace (match b with [] => match c with [] => false | _ :: _ => false end | _ :: _ => false end) with false in P by (destruct b, c; reflexivity).
  replace (match b with [] => match c with [] => false | _ :: _ => false end | _ :: _ => false end) with false by (destruct b, c; reflexivity).
  rewrite P, push_plain by exact Fa. replace (match a with [] => tr' | _ :: _ => false end) with false by (destruct a; [congruence|reflexivity]).
  rewrite <- rev_app_distr. destruct (rev (c ++ a)) as [|t r] eqn:Z.
  - apply (f_equal (@rev string)) in Z. rewrite rev_involutive in Z. destruct c; [|discriminate]. cbn in Z. congruence.
  - rewrite <- Z, rev_involutive. cbn [orb andb]. unfold print_path. cbn [pp_abs pp_comps pp_trail]. rewrite sapp_nil_r. reflexivity.
Qed.

Lemma abs_filename l d : l <> [] -> Forall name_ok l -> filename ("/" +++ join "/" l) = last l d.
Proof.
  intros N H. assert (W : wf (PP true l false)) by (split; simpl; [exact H|discriminate]).
  replace ("/" +++ join "/" l) with (print_path (PP true l false)) by (unfold print_path; cbn [pp_abs pp_comps pp_trail]; rewrite sapp_nil_r; reflexivity).
  unfold filename. rewrite (pieces_print _ W). cbn [pp_abs pp_comps pp_trail]. destruct (exists_last N) as (l0 & x & ->).
  replace (match l0 ++ [x] with [] => [""] | y :: r => y :: r end) with (l0 ++ [x]) by (destruct l0; reflexivity).
  rewrite app_nil_r, app_assoc, !last_last. reflexivity.
Qed.
(** ... and the way back ends in the name of the file. *)
Theorem relative_name base f : abs_canonical base -> abs_canonical f -> (forall t, names base <> names f ++ t) ->
  filename (path_div base (lexically_relative f base)) = filename f.
Proof.
  intros (bl & -> & B) (fl & -> & F) N. rewrite (abs_names bl B), (abs_names fl F) in N.
  destruct (relative_abs fl bl F B) as (c & a & b & -> & -> & E & O). rewrite E.
  assert (A0 : a <> []) by (intros ->; apply (N b); rewrite app_nil_r; reflexivity).
  assert (R : rel_names a b = repeat ".." (length b) ++ a) by (destruct a; [congruence|reflexivity]). rewrite R in *.
  rewrite below_abs; [|exact B|exact O|destruct (length b); [exact A0|discriminate]].
  destruct (exists_last A0) as (a0 & x & ->).
  rewrite !(abs_filename _ "").
  - rewrite !app_assoc, !last_last. reflexivity.
  - destruct c, a0; discriminate.
  - apply plains_ok. exact F.
  - destruct c, b, a0; discriminate.
  - apply Forall_app. split; [apply plains_ok; exact B|exact O].
Qed.
