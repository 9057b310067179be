From Verif Require Import Prelude Model_Path Spec_Path Proof_Prelude.

(** * Printing and parsing decomposed paths *)

Definition name_ok (n : string) : Prop := n <> "" /\ str_mem ch_slash n = false.

Definition wf (p : ppath) : Prop :=
  Forall name_ok (pp_comps p) /\ (pp_trail p = true -> pp_comps p <> []).

Lemma nonempty_str_true (s : string) : nonempty_str s = true <-> s <> "".
Proof. destruct s; simpl; split; congruence. Qed.

Lemma Forall_filter_nonempty (l : list string) :
  Forall (fun p => str_mem ch_slash p = false) l -> Forall name_ok (filter nonempty_str l).
Proof.
  intros H. apply Forall_forall. intros x Hx. apply filter_In in Hx as [H1 H2].
  rewrite Forall_forall in H. split; [apply nonempty_str_true; exact H2|apply H; exact H1].
Qed.

Lemma parse_wf (s : string) : wf (parse_path s).
Proof.
  split; simpl.
  - apply Forall_filter_nonempty, pieces_each_nosep.
  - intros H. apply andb_true_iff in H as [_ H].
    destruct (filter nonempty_str (pieces ch_slash s)); simpl in H; congruence.
Qed.

Lemma name_ok_filter (l : list string) : Forall name_ok l -> filter nonempty_str l = l.
Proof.
  intros H. apply filter_all. eapply Forall_impl; [|exact H].
  intros a [Ha _]. apply nonempty_str_true. exact Ha.
Qed.

Lemma name_ok_nosep (l : list string) :
  Forall name_ok l -> Forall (fun p => str_mem ch_slash p = false) l.
Proof. intros H. eapply Forall_impl; [|exact H]. intros a [_ Ha]. exact Ha. Qed.

Lemma starts_slash_app (a b : string) : a <> "" -> starts_slash (a +++ b) = starts_slash a.
Proof. destruct a; simpl; [congruence|reflexivity]. Qed.

Lemma ends_slash_app (a b : string) : b <> "" -> ends_slash (a +++ b) = ends_slash b.
Proof.
  intros Hb. induction a as [|x a IH]; [reflexivity|].
  simpl. destruct (a +++ b) eqn:E; [|exact IH].
  apply sapp_eq_nil in E as [_ E]. congruence.
Qed.

Lemma ends_slash_nosep (s : string) : str_mem ch_slash s = false -> ends_slash s = false.
Proof.
  induction s as [|a s IH]; [reflexivity|]. simpl. intros H.
  apply orb_false_iff in H as [H1 H2]. destruct s; [exact H1|auto].
Qed.

Lemma starts_slash_nosep (s : string) : str_mem ch_slash s = false -> starts_slash s = false.
Proof. destruct s as [|a s]; [reflexivity|]. simpl. intros H. apply orb_false_iff in H. tauto. Qed.

Lemma join_nonempty (l : list string) :
  l <> [] -> Forall name_ok l -> join "/" l <> "".
Proof.
  destruct l as [|x l]; [congruence|]. intros _ H. inversion H as [|? ? [H1 _] _]; subst.
  destruct l; [exact H1|]. rewrite join_cons by discriminate. destruct x; [congruence|discriminate].
Qed.

Lemma join_starts (l : list string) : Forall name_ok l -> starts_slash (join "/" l) = false.
Proof.
  destruct l as [|x l]; [reflexivity|]. intros H. inversion H as [|? ? [H1 H2] _]; subst.
  destruct l; [apply starts_slash_nosep; exact H2|].
  rewrite join_cons by discriminate. rewrite starts_slash_app by exact H1.
  apply starts_slash_nosep. exact H2.
Qed.

Lemma join_ends (l : list string) : Forall name_ok l -> ends_slash (join "/" l) = false.
Proof.
  induction l as [|x l IH]; [reflexivity|]. intros H. inversion H as [|? ? [H1 H2] H3]; subst.
  destruct l as [|y l]; [apply ends_slash_nosep; exact H2|].
  rewrite join_cons by discriminate.
  rewrite ends_slash_app by (simpl; discriminate).
  change ("/" +++ join "/" (y :: l)) with (str1 ch_slash +++ join "/" (y :: l)).
  rewrite ends_slash_app by (apply join_nonempty; [discriminate|exact H3]).
  apply IH. exact H3.
Qed.

Lemma pieces_join_names (l : list string) :
  l <> [] -> Forall name_ok l -> pieces ch_slash (join "/" l) = l.
Proof. intros H1 H2. apply (pieces_join ch_slash); [exact H1|apply name_ok_nosep; exact H2]. Qed.

Lemma pieces_print (p : ppath) :
  wf p -> pieces ch_slash (print_path p) =
          (if pp_abs p then [""] else []) ++
          (match pp_comps p with [] => [""] | l => l end) ++
          (if pp_trail p then [""] else []).
Proof.
  intros [H1 H2]. unfold print_path.
  assert (Hcore : pieces ch_slash (join "/" (pp_comps p) +++ (if pp_trail p then "/" else "")) =
          (match pp_comps p with [] => [""] | l => l end) ++ (if pp_trail p then [""] else [])).
  { destruct (pp_trail p).
    - change (join "/" (pp_comps p) +++ "/") with (join "/" (pp_comps p) +++ String ch_slash "").
      rewrite pieces_app_sep. simpl. specialize (H2 eq_refl).
      rewrite pieces_join_names by assumption. destruct (pp_comps p); [congruence|reflexivity].
    - rewrite sapp_nil_r, app_nil_r. destruct (pp_comps p) as [|x l] eqn:E; [reflexivity|].
      apply pieces_join_names; [discriminate|exact H1]. }
  destruct (pp_abs p).
  - change ("/" +++ join "/" (pp_comps p) +++ (if pp_trail p then "/" else ""))
      with ("" +++ String ch_slash (join "/" (pp_comps p) +++ (if pp_trail p then "/" else ""))).
    rewrite pieces_app_sep, Hcore. reflexivity.
  - exact Hcore.
Qed.

Lemma filter_pieces_print (p : ppath) :
  wf p -> filter nonempty_str (pieces ch_slash (print_path p)) = pp_comps p.
Proof.
  intros H. rewrite pieces_print by exact H. rewrite !filter_app.
  destruct H as [H1 _].
  replace (filter nonempty_str (if pp_abs p then [""] else [])) with (@nil string)
    by (destruct (pp_abs p); reflexivity).
  replace (filter nonempty_str (if pp_trail p then [""] else [])) with (@nil string)
    by (destruct (pp_trail p); reflexivity).
  rewrite app_nil_r. simpl. destruct (pp_comps p) as [|x l] eqn:E; [reflexivity|].
  apply name_ok_filter. exact H1.
Qed.

Lemma parse_print (p : ppath) : wf p -> parse_path (print_path p) = p.
Proof.
  intros H. unfold parse_path. rewrite (filter_pieces_print p H).
  destruct p as [ab cs tr]. destruct H as [H1 H2]. simpl in *. unfold print_path. simpl.
  f_equal.
  - destruct ab; [reflexivity|]. simpl. destruct cs as [|x cs].
    + destruct tr; [exfalso; apply H2; reflexivity|reflexivity].
    + rewrite starts_slash_app; [apply join_starts; exact H1|apply join_nonempty; [discriminate|exact H1]].
  - destruct cs as [|x cs].
    + destruct tr; [exfalso; apply H2; reflexivity|]. destruct ab; reflexivity.
    + cbn [is_nil negb]. rewrite andb_true_r.
      set (j := join "/" (x :: cs)).
      assert (Hj : j <> "") by (apply join_nonempty; [discriminate|exact H1]).
      destruct tr.
      * rewrite ends_slash_app; [rewrite ends_slash_app by discriminate; reflexivity|].
        intros E. apply sapp_eq_nil in E as [E _]. congruence.
      * rewrite sapp_nil_r.
        destruct ab; [|exact (join_ends (x :: cs) H1)].
        rewrite ends_slash_app by exact Hj.
        apply join_ends. exact H1.
Qed.

(** * Normal form *)

(** Shape of the stack built by [normal_step] (last name first): names that are
    neither "." nor "..", on top of a run of ".." (empty for absolute paths). *)
Definition stk_ok (ab : bool) (stk : list string) : Prop :=
  exists rest ups, stk = rest ++ ups /\
    Forall (fun n => name_ok n /\ n <> "." /\ n <> "..") rest /\
    Forall (fun n => n = "..") ups /\ (ab = true -> ups = []).

Lemma is_dot_true (c : string) : is_dot c = true <-> c = ".".
Proof. apply String.eqb_eq. Qed.
Lemma is_dot_false (c : string) : is_dot c = false <-> c <> ".".
Proof. apply String.eqb_neq. Qed.
Lemma is_dotdot_true (c : string) : is_dotdot c = true <-> c = "..".
Proof. apply String.eqb_eq. Qed.
Lemma is_dotdot_false (c : string) : is_dotdot c = false <-> c <> "..".
Proof. apply String.eqb_neq. Qed.

Lemma normal_step_ok (ab : bool) (stk : list string) (tr : bool) (c : string) :
  name_ok c -> stk_ok ab stk -> stk_ok ab (fst (normal_step ab (stk, tr) c)).
Proof.
  intros Hc (rest & ups & -> & Hr & Hu & Hab). unfold normal_step.
  destruct (is_dot c) eqn:Ed; [simpl; exists rest, ups; auto|].
  destruct (is_dotdot c) eqn:Edd.
  - apply is_dotdot_true in Edd. subst c.
    destruct rest as [|r rest]; simpl.
    + destruct ups as [|u ups]; simpl.
      * destruct ab; simpl.
        -- exists [], []. repeat split; auto.
        -- exists [], [".."]. repeat split; auto. congruence.
      * inversion Hu as [|? ? Hu1 Hu2]; subst. simpl.
        exists [], (".." :: ".." :: ups). repeat split; auto.
        intros Ha. specialize (Hab Ha). discriminate.
    + inversion Hr as [|? ? (H1 & H2 & H3) H4]; subst.
      apply is_dotdot_false in H3. rewrite H3. simpl. exists rest, ups. auto.
  - simpl. exists (c :: rest), ups. repeat split; auto.
    constructor; [|exact Hr]. apply is_dot_false in Ed. apply is_dotdot_false in Edd. auto.
Qed.

Lemma normal_fold_ok (ab : bool) (cs : list string) (stk : list string) (tr : bool) :
  Forall name_ok cs -> stk_ok ab stk -> stk_ok ab (fst (fold_left (normal_step ab) cs (stk, tr))).
Proof.
  revert stk tr; induction cs as [|c cs IH]; intros stk tr HF Hs; [exact Hs|].
  inversion HF as [|? ? H1 H2]; subst. cbn [fold_left].
  pose proof (normal_step_ok ab stk tr c H1 Hs) as Hn.
  destruct (normal_step ab (stk, tr) c) as [stk' tr']. apply IH; assumption.
Qed.

Lemma stk_ok_nil (ab : bool) : stk_ok ab [].
Proof. exists [], []. repeat split; auto. Qed.

(** Normal paths. *)
Definition nf (p : ppath) : Prop :=
  p = PP false ["."] false \/
  (stk_ok (pp_abs p) (rev (pp_comps p)) /\
   (pp_comps p = [] -> pp_abs p = true /\ pp_trail p = false) /\
   (pp_trail p = true -> exists t r, rev (pp_comps p) = t :: r /\ t <> "..")).

Lemma normal_nf (p : ppath) : wf p -> nf (normal p).
Proof.
  intros [H1 H2]. unfold normal.
  pose proof (normal_fold_ok (pp_abs p) (pp_comps p) [] false H1 (stk_ok_nil _)) as Hs.
  destruct (fold_left (normal_step (pp_abs p)) (pp_comps p) ([], false)) as [stk tr].
  simpl in Hs. destruct stk as [|t stk].
  - destruct (pp_abs p) eqn:E; [right|left; reflexivity].
    simpl. split; [apply stk_ok_nil|]. split; [auto|discriminate].
  - right. cbn [pp_abs pp_comps pp_trail]. rewrite rev_involutive. split; [exact Hs|]. split.
    + intros Hn. exfalso. apply (f_equal (@length string)) in Hn.
      rewrite rev_length in Hn. simpl in Hn. lia.
    + intros Ht. exists t, stk. split; [reflexivity|].
      apply andb_true_iff in Ht as [_ Ht]. apply negb_true_iff in Ht. apply is_dotdot_false. exact Ht.
Qed.

Lemma stk_ok_names (ab : bool) (stk : list string) : stk_ok ab stk -> Forall name_ok stk.
Proof.
  intros (rest & ups & -> & Hr & Hu & _). apply Forall_app. split.
  - eapply Forall_impl; [|exact Hr]. simpl. intros a Ha. apply Ha.
  - eapply Forall_impl; [|exact Hu]. intros a ->. split; [discriminate|reflexivity].
Qed.

Lemma nf_wf (p : ppath) : nf p -> wf p.
Proof.
  intros [->|(H1 & H2 & H3)].
  - split; simpl; [|discriminate]. repeat constructor; discriminate.
  - split.
    + apply stk_ok_names in H1. apply Forall_rev in H1. rewrite rev_involutive in H1. exact H1.
    + intros Ht Hn. destruct (H3 Ht) as (t & r & Hr & _). rewrite Hn in Hr. discriminate.
Qed.

Lemma stk_ok_app (ab : bool) (a b : list string) : stk_ok ab (a ++ b) -> stk_ok ab b.
Proof.
  intros (rest & ups & He & Hr & Hu & Hab). revert rest He Hr.
  induction a as [|x a IH]; intros rest He Hr; [exists rest, ups; auto|].
  destruct rest as [|r rest].
  - simpl in He. destruct ups as [|u ups]; [discriminate|]. simpl in He. injection He as -> He.
    inversion Hu as [|? ? Hu1 Hu2]; subst.
    exists [], b. repeat split; auto.
    + apply Forall_app in Hu2. tauto.
    + intros Ha. specialize (Hab Ha). discriminate.
  - simpl in He. injection He as -> He. inversion Hr; subst. eauto.
Qed.

(** Running [normal_step] over a list that is already in stack shape only pushes. *)
Lemma normal_fold_push (ab : bool) (l stk : list string) (tr : bool) :
  stk_ok ab (rev l ++ stk) ->
  fold_left (normal_step ab) l (stk, tr) = (rev l ++ stk, match l with [] => tr | _ => false end).
Proof.
  revert stk tr; induction l as [|c l IH]; intros stk tr H; [reflexivity|].
  cbn [fold_left]. simpl rev in H. rewrite <- app_assoc in H. simpl in H.
  assert (Hstep : normal_step ab (stk, tr) c = (c :: stk, false)).
  { apply stk_ok_app in H. destruct H as (rest & ups & He & Hr & Hu & Hab).
    unfold normal_step. destruct rest as [|r rest]; simpl in He.
    - destruct ups as [|u ups]; [discriminate|]. injection He as -> ->.
      inversion Hu as [|? ? Hu1 Hu2]; subst. simpl.
      destruct ups as [|u2 ups].
      + destruct ab; [specialize (Hab eq_refl); discriminate|reflexivity].
      + inversion Hu2; subst. reflexivity.
    - injection He as -> ->. inversion Hr as [|? ? (H1 & H2 & H3) H4]; subst.
      apply is_dot_false in H2. apply is_dotdot_false in H3. rewrite H2, H3. reflexivity. }
  rewrite Hstep. rewrite IH by exact H. simpl rev. rewrite <- app_assoc. simpl.
  destruct l; reflexivity.
Qed.

Lemma nf_normal (p : ppath) : nf p -> normal p = p.
Proof.
  intros [->|(H1 & H2 & H3)]; [reflexivity|].
  unfold normal. destruct p as [ab cs tr]. simpl in *.
  rewrite normal_fold_push by (rewrite app_nil_r; exact H1). rewrite app_nil_r.
  destruct (rev cs) as [|t r] eqn:E.
  - assert (Hc : cs = []) by (rewrite <- (rev_involutive cs), E; reflexivity).
    destruct (H2 Hc) as [-> ->]. subst. reflexivity.
  - assert (Hcs : cs <> []) by (intros ->; discriminate).
    rewrite <- E, rev_involutive. f_equal.
    destruct cs; [congruence|]. simpl. destruct tr; [|reflexivity].
    destruct (H3 eq_refl) as (t' & r' & Ht & Hne). injection Ht as -> ->.
    apply is_dotdot_false in Hne. rewrite Hne. reflexivity.
Qed.

Lemma print_nonempty (p : ppath) : nf p -> print_path p <> "".
Proof.
  intros [->|(H1 & H2 & H3)]; [discriminate|].
  unfold print_path. destruct (pp_abs p) eqn:Ea; [discriminate|]. simpl.
  intros H. apply sapp_eq_nil in H as [H _].
  destruct (pp_comps p) as [|x l] eqn:E; [destruct (H2 eq_refl); congruence|].
  revert H. apply join_nonempty; [discriminate|].
  apply stk_ok_names in H1. apply Forall_rev in H1. rewrite rev_involutive in H1. exact H1.
Qed.

Lemma to_path_string_nonempty (s : string) : s <> "" -> 
  to_path_string s = print_path (normal (parse_path s)).
Proof. destruct s; [congruence|reflexivity]. Qed.

Lemma to_path_string_idem (s : string) : to_path_string (to_path_string s) = to_path_string s.
Proof.
  destruct s as [|a s]; [reflexivity|].
  rewrite (to_path_string_nonempty (String a s)) by discriminate.
  set (p := normal (parse_path (String a s))).
  assert (Hnf : nf p) by apply normal_nf, parse_wf.
  rewrite to_path_string_nonempty by (apply print_nonempty; exact Hnf).
  rewrite parse_print by (apply nf_wf; exact Hnf). rewrite nf_normal by exact Hnf. reflexivity.
Qed.

(** * Canonical form at string level *)

Lemma names_eq (s : string) : names s = pp_comps (parse_path s).
Proof.
  unfold names, parse_path. simpl. apply filter_ext. intros x. destruct x; reflexivity.
Qed.

Lemma empty_piece_inner (c : ascii) (a b : string) :
  exists l1 l2, pieces c (a +++ String c (String c b)) = l1 ++ "" :: l2 /\ l1 <> [] /\ l2 <> [].
Proof.
  rewrite pieces_app_sep. change (String c b) with ("" +++ String c b). rewrite pieces_app_sep.
  exists (pieces c a), (pieces c b). repeat split; apply pieces_nonnil.
Qed.

Lemma print_no_double (p : ppath) : wf p -> (pp_comps p = [] -> pp_trail p = false) -> no_double_slash (print_path p).
Proof.
  intros Hw Hc a b E.
  destruct (empty_piece_inner ch_slash a b) as (l1 & l2 & Hp & Hn1 & Hn2).
  change (a +++ "//" +++ b) with (a +++ String ch_slash (String ch_slash b)) in E.
  rewrite <- E, pieces_print in Hp by exact Hw.
  destruct Hw as [H1 H2].
  destruct (pp_comps p) as [|x l] eqn:Ec.
  - rewrite (Hc eq_refl) in Hp. destruct (pp_abs p); simpl in Hp.
    + destruct l1 as [|y [|z l1]]; try congruence; simpl in Hp; injection Hp; intros; subst; try congruence.
      destruct l1; discriminate.
    + destruct l1 as [|y [|z l1]]; try congruence; simpl in Hp; discriminate.
  - assert (Hin : In "" (x :: l)).
    { destruct (pp_abs p).
      - destruct l1 as [|y l1]; [congruence|].
        change ((("" :: nil) ++ (x :: l) ++ (if pp_trail p then [""] else []))) with
               ("" :: ((x :: l) ++ (if pp_trail p then [""] else []))) in Hp.
        change ((y :: l1) ++ "" :: l2) with (y :: (l1 ++ "" :: l2)) in Hp.
        injection Hp as _ Hp.
        destruct (pp_trail p); [|rewrite app_nil_r in Hp].
        + destruct (exists_last Hn2) as (l2' & z & ->).
          change ("" :: l2' ++ [z]) with (("" :: l2') ++ [z]) in Hp. rewrite app_assoc in Hp.
          apply (app_inj_tail (x :: l)) in Hp as [Hp _]. rewrite Hp. apply in_or_app. right. left. reflexivity.
        + change (x :: l = l1 ++ "" :: l2) in Hp. rewrite Hp. apply in_or_app. right. left. reflexivity.
      - simpl app in Hp. change (x :: l ++ (if pp_trail p then [""] else [])) with ((x :: l) ++ (if pp_trail p then [""] else [])) in Hp.
        destruct (pp_trail p); [|rewrite app_nil_r in Hp].
        + destruct (exists_last Hn2) as (l2' & z & ->).
          change ("" :: l2' ++ [z]) with (("" :: l2') ++ [z]) in Hp. rewrite app_assoc in Hp.
          apply app_inj_tail in Hp as [Hp _]. rewrite Hp. apply in_or_app. right. left. reflexivity.
        + rewrite Hp. apply in_or_app. right. left. reflexivity. }
    rewrite Forall_forall in H1. apply H1 in Hin. destruct Hin as [Hin _]. congruence.
Qed.

Lemma print_absolute (p : ppath) : wf p -> absolute (print_path p) <-> pp_abs p = true.
Proof.
  intros Hw. rewrite <- (parse_print p Hw) at 2. unfold parse_path. cbn [pp_abs].
  unfold absolute. split.
  - intros [r ->]. reflexivity.
  - destruct (print_path p) as [|a r]; simpl; [discriminate|]. intros H.
    apply Ascii.eqb_eq in H. subst. exists r. reflexivity.
Qed.

Lemma to_path_string_canonical (s : string) : canonical (to_path_string s).
Proof.
  destruct s as [|a s]; [left; reflexivity|].
  rewrite to_path_string_nonempty by discriminate.
  assert (Hnf : nf (normal (parse_path (String a s)))) by apply normal_nf, parse_wf.
  set (p := normal (parse_path (String a s))) in *.
  pose proof (nf_wf p Hnf) as Hw.
  destruct Hnf as [->|(H1 & H2 & H3)]; [right; left; reflexivity|].
  right. right. split; [apply print_no_double; [exact Hw|intros Hc; apply H2, Hc]|].
  rewrite names_eq, parse_print by exact Hw.
  destruct H1 as (rest & ups & He & Hr & Hu & Hab).
  assert (Hc : pp_comps p = rev ups ++ rev rest).
  { rewrite <- rev_app_distr, <- He, rev_involutive. reflexivity. }
  rewrite Hc. rewrite Forall_forall in Hr, Hu. split.
  - intros Hin. apply in_app_or in Hin as [Hin|Hin]; apply in_rev in Hin.
    + apply Hu in Hin. discriminate.
    + apply Hr in Hin. tauto.
  - exists (rev ups), (rev rest). repeat split.
    + apply Forall_forall. intros x Hx. apply Hu. apply in_rev. exact Hx.
    + intros Hin. apply in_rev in Hin. apply Hr in Hin. tauto.
    + intros Habs. apply print_absolute in Habs; [|exact Hw]. rewrite (Hab Habs). reflexivity.
Qed.

(** * Normalisation keeps the location *)

Lemma walk_app (d : list string) (a b : list string) : walk d (a ++ b) = walk (walk d a) b.
Proof. apply fold_left_app. Qed.

Lemma walk_stack (cwd stk cs : list string) (ab tr : bool) (cwd0 : list string) :
  stk_ok ab stk -> Forall name_ok cs ->
  (ab = true -> cwd0 = []) -> cwd = walk cwd0 (rev stk) ->
  walk cwd0 (rev (fst (fold_left (normal_step ab) cs (stk, tr)))) = walk cwd cs.
Proof.
  revert stk tr cwd; induction cs as [|c cs IH]; intros stk tr cwd Hs HF Hab ->; [reflexivity|].
  inversion HF as [|? ? H1 H2]; subst. cbn [fold_left].
  pose proof (normal_step_ok ab stk tr c H1 Hs) as Hs'.
  destruct (normal_step ab (stk, tr) c) as [stk' tr'] eqn:E.
  rewrite (IH stk' tr' (walk cwd0 (rev stk')) Hs' H2 Hab eq_refl).
  change (walk (walk cwd0 (rev stk)) (c :: cs)) with (walk (walk1 (walk cwd0 (rev stk)) c) cs).
  f_equal. simpl in Hs'. unfold normal_step in E.
  destruct (is_dot c) eqn:Ed.
  { injection E as <- <-. unfold walk1. apply is_dot_true in Ed. subst c. reflexivity. }
  destruct (is_dotdot c) eqn:Edd.
  - apply is_dotdot_true in Edd. subst c. destruct Hs as (rest & ups & He & Hr & Hu & Hu').
    destruct stk as [|t r].
    + destruct ab.
      * injection E as <- <-. rewrite (Hab eq_refl). reflexivity.
      * injection E as <- <-. reflexivity.
    + destruct (is_dotdot t) eqn:Et.
      * injection E as <- <-. simpl rev at 1. rewrite walk_app. reflexivity.
      * injection E as <- <-. simpl. rewrite walk_app. simpl.
        assert (Ht : t <> "." /\ t <> "..").
        { destruct rest as [|r0 rest]; simpl in He.
          - subst ups. inversion Hu; subst. discriminate.
          - injection He as -> ->. inversion Hr; subst. tauto. }
        destruct Ht as [Ht1 Ht2]. apply String.eqb_neq in Ht1, Ht2.
        unfold walk1. rewrite Ht1, Ht2. reflexivity.
  - injection E as <- <-. simpl rev. rewrite walk_app. reflexivity.
Qed.

Lemma leads_to_abs (cwd : list string) (s : string) :
  leads_to cwd s = walk (if starts_slash s then [] else cwd) (names s).
Proof.
  destruct s as [|a s]; [reflexivity|]. unfold leads_to, starts_slash.
  destruct (Ascii.eqb a ch_slash) eqn:E.
  - apply Ascii.eqb_eq in E. subst a. reflexivity.
  - destruct a as [[] [] [] [] [] [] [] []]; try reflexivity; discriminate.
Qed.

Lemma to_path_string_location (cwd : list string) (s : string) :
  leads_to cwd (to_path_string s) = leads_to cwd s.
Proof.
  destruct s as [|a s]; [reflexivity|].
  rewrite to_path_string_nonempty by discriminate.
  set (q := parse_path (String a s)).
  assert (Hq : wf q) by apply parse_wf.
  assert (Hnf : nf (normal q)) by apply normal_nf, Hq.
  pose proof (nf_wf _ Hnf) as Hw.
  rewrite !leads_to_abs, !names_eq. rewrite parse_print by exact Hw.
  assert (Hst : starts_slash (print_path (normal q)) = pp_abs (normal q)).
  { rewrite <- (parse_print (normal q) Hw) at 2. reflexivity. }
  rewrite Hst. change (starts_slash (String a s)) with (pp_abs q).
  change (parse_path (String a s)) with q.
  assert (Hab : pp_abs (normal q) = pp_abs q).
  { unfold normal. destruct (fold_left _ _ _) as [[|t r] tr]; [|reflexivity].
    destruct (pp_abs q); reflexivity. }
  rewrite Hab.
  pose proof (walk_stack (if pp_abs q then [] else cwd) [] (pp_comps q) (pp_abs q) false
                (if pp_abs q then [] else cwd) (stk_ok_nil _) (proj1 Hq)) as HW.
  rewrite <- HW; [|intros ->; reflexivity|reflexivity].
  unfold normal. destruct (fold_left _ _ _) as [[|t r] tr]; [|reflexivity].
  destruct (pp_abs q); reflexivity.
Qed.

(** Two absolute spellings of the same location normalise to the same text, up
    to a trailing separator. *)
Lemma walk_names (l : list string) :
  ~ In "." l -> ~ In ".." l -> walk [] l = rev l.
Proof.
  intros H1 H2. rewrite <- (app_nil_r (rev l)). generalize (@nil string) as d.
  induction l as [|x l IH]; intros d; [reflexivity|].
  simpl in H1, H2. change (walk d (x :: l)) with (walk (walk1 d x) l).
  assert (Hx : walk1 d x = x :: d).
  { unfold walk1. destruct (String.eqb_spec x "."); [subst; tauto|].
    destruct (String.eqb_spec x ".."); [subst; tauto|]. reflexivity. }
  rewrite Hx, IH by tauto. simpl. rewrite <- app_assoc. reflexivity.
Qed.

Definition strip_slash (s : string) : string := print_path (PP (pp_abs (parse_path s)) (pp_comps (parse_path s)) false).

Lemma same_location_same_string (s s' : string) :
  absolute s -> absolute s' -> leads_to [] s = leads_to [] s' ->
  exists core, (to_path_string s = core \/ to_path_string s = core +++ "/") /\
               (to_path_string s' = core \/ to_path_string s' = core +++ "/").
Proof.
  assert (Hgen : forall s, absolute s -> 
     to_path_string s = "/" +++ join "/" (rev (leads_to [] s)) \/
     to_path_string s = ("/" +++ join "/" (rev (leads_to [] s))) +++ "/").
  { clear. intros s Ha. rewrite <- (to_path_string_location [] s).
    destruct Ha as [r ->]. rewrite to_path_string_nonempty by discriminate.
    set (q := parse_path (String "/" r)).
    assert (Hq : wf q) by apply parse_wf.
    assert (Hnf : nf (normal q)) by apply normal_nf, Hq.
    pose proof (nf_wf _ Hnf) as Hw.
    assert (Hab : pp_abs (normal q) = true).
    { unfold normal. destruct (fold_left _ _ _) as [[|t x] tr]; reflexivity. }
    rewrite leads_to_abs, names_eq, parse_print by exact Hw.
    assert (Hst : starts_slash (print_path (normal q)) = true).
    { change (starts_slash (print_path (normal q))) with (pp_abs (parse_path (print_path (normal q)))).
      rewrite parse_print by exact Hw. exact Hab. }
    rewrite Hst. destruct Hnf as [He|(H1 & H2 & H3)]; [rewrite He in Hab; discriminate|].
    rewrite Hab in H1. destruct H1 as (rest & ups & He & Hr & Hu & Hu'). rewrite (Hu' eq_refl), app_nil_r in He.
    assert (Hc : pp_comps (normal q) = rev rest) by (rewrite <- He, rev_involutive; reflexivity).
    rewrite Forall_forall in Hr.
    rewrite walk_names.
    - rewrite rev_involutive. unfold print_path. rewrite Hab. destruct (pp_trail (normal q)).
      + right. rewrite sapp_assoc. reflexivity.
      + left. rewrite sapp_nil_r. reflexivity.
    - rewrite Hc. intros Hin. apply in_rev in Hin. apply Hr in Hin. tauto.
    - rewrite Hc. intros Hin. apply in_rev in Hin. apply Hr in Hin. tauto. }
  intros Ha Ha' He. exists ("/" +++ join "/" (rev (leads_to [] s))). split; [apply Hgen, Ha|].
  rewrite He. apply Hgen, Ha'.
Qed.
