From Verif Require Import Prelude Model_Path Spec_Path Proof_Prelude Proof_Path.

(** * [operator/], [remove_filename], [filename] *)

Definition open_dir (P : string) : Prop := P = "" \/ ends_slash P = true.

(** [build/x] as text, for a non-absolute [x]. *)
Definition dir_open (b : string) : string := if has_filename b then b +++ "/" else b.

Lemma dir_open_open (b : string) : open_dir (dir_open b).
Proof.
  unfold dir_open, has_filename, open_dir. destruct b as [|a b]; [left; reflexivity|].
  cbn [nonempty_str andb]. destruct (ends_slash (String a b)) eqn:E; cbn [negb]; [right; exact E|].
  right. rewrite ends_slash_app by discriminate. reflexivity.
Qed.

Lemma path_div_rel (b x : string) : starts_slash x = false -> path_div b x = dir_open b +++ x.
Proof.
  intros H. unfold path_div, dir_open. rewrite H. destruct (has_filename b); [|reflexivity].
  rewrite sapp_assoc. reflexivity.
Qed.

Lemma dir_open_id (P : string) : open_dir P -> dir_open P = P.
Proof.
  intros [->|H]; [reflexivity|]. unfold dir_open, has_filename. rewrite H, andb_false_r. reflexivity.
Qed.

Lemma ends_slash_mem (s : string) : ends_slash s = true -> str_mem ch_slash s = true.
Proof.
  induction s as [|a s IH]; [discriminate|]. cbn [ends_slash str_mem].
  destruct s as [|b s]; intros H; [rewrite H; reflexivity|]. rewrite (IH H), orb_true_r. reflexivity.
Qed.

Lemma dir_prefix_nosep (s : string) : str_mem ch_slash s = false -> dir_prefix s = "".
Proof. destruct s as [|a s]; [reflexivity|]. cbn [dir_prefix]. intros ->. reflexivity. Qed.

Lemma dir_prefix_app (P r : string) : open_dir P -> dir_prefix (P +++ r) = P +++ dir_prefix r.
Proof.
  intros [->|H]; [reflexivity|]. revert H. induction P as [|a P IH]; [discriminate|].
  intros H. change (String a P +++ r) with (String a (P +++ r)). cbn [dir_prefix].
  assert (Hm : str_mem ch_slash (String a (P +++ r)) = true).
  { change (String a (P +++ r)) with (String a P +++ r). rewrite str_mem_app.
    rewrite (ends_slash_mem _ H). reflexivity. }
  rewrite Hm. change (String a P +++ dir_prefix r) with (String a (P +++ dir_prefix r)). f_equal.
  destruct P as [|b P]; [reflexivity|]. apply IH. exact H.
Qed.

Lemma dir_prefix_open (s : string) : open_dir (dir_prefix s).
Proof.
  induction s as [|a s IH]; [left; reflexivity|]. cbn [dir_prefix].
  destruct (str_mem ch_slash (String a s)) eqn:E; [|left; reflexivity].
  right. destruct IH as [IH|IH].
  - rewrite IH. cbn [ends_slash]. cbn [str_mem] in E.
    destruct (str_mem ch_slash s) eqn:Es; [|rewrite orb_false_r in E; exact E].
    exfalso. destruct s as [|b s]; [discriminate|]. cbn [dir_prefix] in IH. rewrite Es in IH. discriminate.
  - cbn [ends_slash]. destruct (dir_prefix s); [discriminate|exact IH].
Qed.

Lemma dir_prefix_filename (s : string) : s = dir_prefix s +++ filename s.
Proof.
  induction s as [|a s IH]; [reflexivity|]. cbn [dir_prefix].
  destruct (str_mem ch_slash (String a s)) eqn:E.
  - change (String a (dir_prefix s) +++ filename (String a s)) with
      (String a (dir_prefix s +++ filename (String a s))). f_equal. rewrite IH at 1. f_equal.
    unfold filename. cbn [pieces]. cbn [str_mem] in E.
    destruct (Ascii.eqb a ch_slash) eqn:Ea.
    + cbn [last]. destruct (pieces ch_slash s) eqn:Ep; [exfalso; exact (pieces_nonnil _ _ Ep)|reflexivity].
    + simpl in E. destruct (pieces ch_slash s) as [|p ps] eqn:Ep; [exfalso; exact (pieces_nonnil _ _ Ep)|].
      destruct ps as [|q ps]; [|reflexivity]. exfalso.
      pose proof (join_pieces ch_slash s) as Hj. rewrite Ep in Hj. simpl in Hj. subst p.
      pose proof (pieces_each_nosep ch_slash s) as Hf. rewrite Ep in Hf. inversion Hf; congruence.
  - unfold filename. rewrite pieces_nosep by exact E. reflexivity.
Qed.

Lemma filename_nosep (s : string) : str_mem ch_slash (filename s) = false.
Proof.
  unfold filename. pose proof (pieces_each_nosep ch_slash s) as H.
  destruct (exists_last (pieces_nonnil ch_slash s)) as (l & x & E). rewrite E in *.
  rewrite last_last. apply Forall_app in H as [_ H]. inversion H; subst. assumption.
Qed.

(** Text of an object path: the directory part of the (flattened) relative
    path, then the source file name and the object extension. *)
Definition flat (rel : string) : string := if has_dotdot rel then dots_to_unders rel else rel.

Lemma starts_slash_flat (rel : string) : starts_slash rel = false -> starts_slash (flat rel) = false.
Proof.
  unfold flat. destruct (has_dotdot rel); [|auto]. destruct rel as [|a r]; [reflexivity|].
  simpl. intros H. destruct (Ascii.eqb a ch_dot) eqn:E; [reflexivity|exact H].
Qed.

Lemma object_path_text (root build ext s : string) :
  starts_slash (lexically_relative s root) = false -> str_mem ch_slash ext = false ->
  object_path root build ext s =
  dir_open build +++ dir_prefix (flat (lexically_relative s root)) +++ filename s +++ ext.
Proof.
  intros Hr He. unfold object_path. cbv zeta. fold (flat (lexically_relative s root)).
  set (rel := lexically_relative s root) in *.
  unfold replace_filename. rewrite (path_div_rel build) by (apply starts_slash_flat, Hr).
  rewrite dir_prefix_app by apply dir_open_open.
  rewrite (path_div_rel _ (filename s +++ ext)).
  2:{ apply starts_slash_nosep. rewrite str_mem_app, filename_nosep. exact He. }
  rewrite dir_open_id, sapp_assoc; [reflexivity|].
  destruct (dir_prefix_open (flat rel)) as [E|E].
  - rewrite E, sapp_nil_r. apply dir_open_open.
  - right. rewrite ends_slash_app; [exact E|]. intros E'. rewrite E' in E. discriminate.
Qed.

Lemma fold_path_div (l : list string) (acc : string) :
  acc <> "" -> ends_slash acc = false -> Forall name_ok l ->
  fold_left path_div l acc = match l with [] => acc | _ => acc +++ "/" +++ join "/" l end.
Proof.
  revert acc. induction l as [|x l IH]; intros acc Ha He HF; [reflexivity|].
  inversion HF as [|? ? [H1 H2] H3]; subst. cbn [fold_left].
  assert (Hd : path_div acc x = acc +++ "/" +++ x).
  { unfold path_div. rewrite (starts_slash_nosep _ H2). unfold has_filename. rewrite He.
    destruct acc; [congruence|reflexivity]. }
  rewrite Hd, IH.
  - destruct l as [|y l]; [reflexivity|]. rewrite (join_cons "/" x (y :: l)) by discriminate. rewrite !sapp_assoc. reflexivity.
  - destruct acc; [congruence|discriminate].
  - rewrite ends_slash_app by discriminate.
    change ("/" +++ x) with (str1 ch_slash +++ x). rewrite ends_slash_app by exact H1.
    apply ends_slash_nosep, H2.
  - exact H3.
Qed.

Lemma fold_path_div_nil (l : list string) :
  Forall name_ok l -> fold_left path_div l "" = join "/" l.
Proof.
  destruct l as [|x l]; [reflexivity|]. intros HF. inversion HF as [|? ? [H1 H2] H3]; subst.
  cbn [fold_left]. assert (Hd : path_div "" x = x).
  { unfold path_div. rewrite (starts_slash_nosep _ H2). reflexivity. }
  rewrite Hd, fold_path_div by (auto using ends_slash_nosep). destruct l; reflexivity.
Qed.

(** * Sources under the root *)

Lemma absolute_starts (s : string) : absolute s <-> starts_slash s = true.
Proof.
  split; [intros [r ->]; reflexivity|]. destruct s as [|a s]; [discriminate|]. simpl.
  intros H. apply Ascii.eqb_eq in H. subst. exists s. reflexivity.
Qed.

Lemma ends_slash_iff (s : string) : ends_slash s = true <-> exists p, s = p +++ "/".
Proof.
  split.
  - induction s as [|a s IH]; [discriminate|]. cbn [ends_slash]. destruct s as [|b s].
    + intros H. apply Ascii.eqb_eq in H. subst. exists "". reflexivity.
    + intros H. destruct (IH H) as [p Hp]. exists (String a p). rewrite Hp. reflexivity.
  - intros [p ->]. rewrite ends_slash_app by discriminate. reflexivity.
Qed.

Lemma names_ok (s : string) : Forall name_ok (names s).
Proof. rewrite names_eq. apply parse_wf. Qed.

Lemma mismatch_common (c a b : list string) : mismatch (c ++ a) (c ++ b) = mismatch a b.
Proof. induction c as [|x c IH]; [reflexivity|]. simpl. rewrite String.eqb_refl. exact IH. Qed.

Lemma under_parse (root s : string) (l : list string) :
  under root l s -> parse_path s = PP (starts_slash root) (names root ++ l) false.
Proof.
  intros (Hl & Hn & Ha & He). unfold parse_path.
  change (filter nonempty_str (pieces ch_slash s)) with (pp_comps (parse_path s)).
  rewrite <- names_eq, Hn. f_equal.
  - rewrite !absolute_starts in Ha. destruct (starts_slash s), (starts_slash root); try reflexivity.
    + symmetry. apply Ha. reflexivity.
    + apply Ha. reflexivity.
  - destruct (ends_slash s) eqn:E; [|reflexivity]. apply ends_slash_iff in E as [p Hp].
    exfalso. exact (He p Hp).
Qed.

Lemma relative_under (root s : string) (l : list string) :
  under root l s -> lexically_relative s root = join "/" l.
Proof.
  intros H. pose proof (under_parse _ _ _ H) as Hp. destruct H as (Hl & Hn & Ha & He).
  assert (Hok : Forall name_ok l).
  { pose proof (names_ok s) as Hs. rewrite Hn in Hs. apply Forall_app in Hs. tauto. }
  unfold lexically_relative. rewrite Hp. cbn [pp_abs].
  change (pp_abs (parse_path root)) with (starts_slash root).
  rewrite eqb_reflx. cbn [negb]. unfold path_elems. cbn [pp_abs pp_comps pp_trail].
  change (pp_abs (parse_path root)) with (starts_slash root). rewrite <- names_eq.
  rewrite app_nil_r, mismatch_common, mismatch_common.
  destruct l as [|x l]; [congruence|].
  inversion Hok as [|? ? [H1 H2] H3]; subst.
  assert (Hm : mismatch (x :: l) (if pp_trail (parse_path root) then [""] else []) =
               (x :: l, if pp_trail (parse_path root) then [""] else [])).
  { destruct (pp_trail (parse_path root)); [|reflexivity]. simpl.
    destruct (String.eqb_spec x ""); [congruence|reflexivity]. }
  rewrite Hm.
  assert (Hd : depth (if pp_trail (parse_path root) then [""] else []) = 0%Z)
    by (destruct (pp_trail (parse_path root)); reflexivity).
  rewrite Hd. assert (Hx : nonempty_str x = true) by (apply nonempty_str_true, H1).
  rewrite Hx. cbn [negb andb Z.eqb Z.ltb Z.compare Z.to_nat repeat app].
  apply fold_path_div_nil. exact Hok.
Qed.

Lemma has_dotdot_false (s : string) : ~ contains_dotdot s -> has_dotdot s = false.
Proof.
  intros H. destruct (has_dotdot s) eqn:E; [|reflexivity]. exfalso. apply H. clear H.
  induction s as [|a s IH]; [discriminate|]. cbn [has_dotdot] in E.
  destruct s as [|b s]; [discriminate|]. apply orb_true_iff in E as [E|E].
  - apply andb_true_iff in E as [E1 E2]. apply Ascii.eqb_eq in E1, E2. subst.
    exists "", s. reflexivity.
  - destruct (IH E) as (p & q & Hq). exists (String a p), q. rewrite Hq. reflexivity.
Qed.

Lemma filename_names (s : string) (l : list string) (x : string) :
  names s = l ++ [x] -> (forall p, s <> p +++ "/") -> filename s = x.
Proof.
  intros Hn He. unfold filename. unfold names in Hn.
  destruct (exists_last (pieces_nonnil ch_slash s)) as (ps & p & E).
  change "/"%char with ch_slash in Hn. rewrite E in *. rewrite last_last.
  rewrite filter_app in Hn. cbn [filter] in Hn. destruct (String.eqb_spec p "") as [Hp|Hp].
  - exfalso. subst p. destruct ps as [|q ps].
    + simpl in Hn. destruct l; discriminate.
    + apply (He (join "/" (q :: ps))).
      rewrite <- (join_pieces ch_slash s), E, join_app by discriminate. reflexivity.
  - simpl in Hn. apply app_inj_tail in Hn as [_ Hn]. exact Hn.
Qed.

Lemma dir_prefix_join (l : list string) (x : string) :
  Forall name_ok l -> name_ok x ->
  dir_prefix (join "/" (l ++ [x])) = match l with [] => "" | _ => join "/" l +++ "/" end.
Proof.
  intros Hl [Hx1 Hx2]. destruct l as [|y l]; [simpl; apply dir_prefix_nosep, Hx2|].
  rewrite join_app by discriminate. rewrite <- sapp_assoc, dir_prefix_app.
  - simpl join at 2. rewrite dir_prefix_nosep by exact Hx2. rewrite sapp_nil_r. reflexivity.
  - right. rewrite ends_slash_app by discriminate. reflexivity.
Qed.

Lemma names_join (l : list string) : Forall name_ok l -> names (join "/" l) = l.
Proof.
  intros H. unfold names. destruct l as [|x l]; [reflexivity|].
  change "/"%char with ch_slash. rewrite pieces_join_names by (discriminate || exact H).
  apply filter_all. eapply Forall_impl; [|exact H]. intros a [Ha _].
  destruct (String.eqb_spec a ""); [congruence|reflexivity].
Qed.

Lemma names_app_slash (a b : string) : names (a +++ "/" +++ b) = names a ++ names b.
Proof.
  unfold names. change (a +++ "/" +++ b) with (a +++ String ch_slash b). change "/"%char with ch_slash.
  rewrite pieces_app_sep, filter_app. reflexivity.
Qed.

Lemma names_open (P b : string) : open_dir P -> names (P +++ b) = names P ++ names b.
Proof.
  intros [->|H]; [reflexivity|]. apply ends_slash_iff in H as [q ->].
  rewrite sapp_assoc, names_app_slash. f_equal.
  rewrite <- (sapp_nil_r "/"), names_app_slash. symmetry. apply app_nil_r.
Qed.

Lemma names_dir_open (b : string) : names (dir_open b) = names b.
Proof.
  unfold dir_open. destruct (has_filename b); [|reflexivity].
  rewrite <- (sapp_nil_r "/"), names_app_slash. apply app_nil_r.
Qed.

Lemma object_path_under (root build ext s : string) (l : list string) (x : string) :
  under root (l ++ [x]) s -> ~ contains_dotdot (join "/" (l ++ [x])) ->
  str_mem "/"%char ext = false ->
  object_path root build ext s = dir_open build +++ join "/" (l ++ [x +++ ext]).
Proof.
  intros Hu Hdd He. pose proof (relative_under _ _ _ Hu) as Hr.
  destruct Hu as (Hl & Hn & Ha & Hs).
  assert (Hok : Forall name_ok (l ++ [x])).
  { pose proof (names_ok s) as H. rewrite Hn in H. apply Forall_app in H. tauto. }
  rewrite object_path_text; [|rewrite Hr; apply join_starts, Hok|exact He].
  rewrite Hr. unfold flat. rewrite has_dotdot_false by exact Hdd.
  apply Forall_app in Hok as [Hokl Hokx]. inversion Hokx as [|? ? Hx _]; subst.
  rewrite dir_prefix_join by assumption.
  rewrite app_assoc in Hn. rewrite (filename_names _ _ _ Hn Hs). f_equal.
  destruct l as [|y l]; [reflexivity|]. rewrite join_app by discriminate.
  rewrite sapp_assoc. reflexivity.
Qed.

Lemma name_ok_ext (x ext : string) : name_ok x -> str_mem ch_slash ext = false -> name_ok (x +++ ext).
Proof.
  intros [H1 H2] H. split; [destruct x; [congruence|discriminate]|]. rewrite str_mem_app, H2. exact H.
Qed.

Lemma object_path_names (root build ext s : string) (l : list string) (x : string) :
  under root (l ++ [x]) s -> ~ contains_dotdot (join "/" (l ++ [x])) ->
  str_mem "/"%char ext = false ->
  names (object_path root build ext s) = names build ++ l ++ [x +++ ext].
Proof.
  intros Hu Hdd He. rewrite (object_path_under _ _ _ _ _ _ Hu Hdd He).
  rewrite names_open by apply dir_open_open. rewrite names_dir_open, names_join; [reflexivity|].
  destruct Hu as (Hl & Hn & Ha & Hs).
  assert (Hok : Forall name_ok (l ++ [x])).
  { pose proof (names_ok s) as H. rewrite Hn in H. apply Forall_app in H. tauto. }
  apply Forall_app in Hok as [Hokl Hokx]. inversion Hokx as [|? ? Hx _]; subst.
  apply Forall_app. split; [exact Hokl|]. constructor; [apply name_ok_ext; assumption|constructor].
Qed.

Lemma starts_slash_dir_open (b : string) : b <> "" -> starts_slash (dir_open b) = starts_slash b.
Proof.
  intros H. unfold dir_open. destruct (has_filename b); [|reflexivity]. apply starts_slash_app, H.
Qed.

Lemma in_root_objects (root build ext s : string) (l : list string) (x : string) :
  build <> "" -> under root (l ++ [x]) s -> ~ contains_dotdot (join "/" (l ++ [x])) ->
  str_mem "/"%char ext = false ->
  under build (l ++ [x +++ ext]) (object_path root build ext s).
Proof.
  intros Hb Hu Hdd He. 
  assert (Hok : Forall name_ok (l ++ [x])).
  { destruct Hu as (Hl & Hn & Ha & Hs). pose proof (names_ok s) as H. rewrite Hn in H. apply Forall_app in H. tauto. }
  apply Forall_app in Hok as [Hokl Hokx]. inversion Hokx as [|? ? Hx _]; subst.
  pose proof (name_ok_ext x ext Hx He) as Hxe.
  assert (Hok' : Forall name_ok (l ++ [x +++ ext])) by (apply Forall_app; split; auto).
  split; [destruct l; discriminate|]. split; [apply object_path_names; assumption|].
  rewrite (object_path_under _ _ _ _ _ _ Hu Hdd He). split.
  - rewrite !absolute_starts. rewrite starts_slash_app, starts_slash_dir_open by
      (try exact Hb; unfold dir_open; destruct (has_filename build); destruct build; try congruence; discriminate).
    reflexivity.
  - intros p Hp. assert (Hes : ends_slash (dir_open build +++ join "/" (l ++ [x +++ ext])) = true)
      by (apply ends_slash_iff; eauto).
    rewrite ends_slash_app in Hes by (apply join_nonempty; [destruct l; discriminate|exact Hok']).
    rewrite join_ends in Hes by exact Hok'. discriminate.
Qed.

Lemma in_root_objects_inj (root build ext s1 s2 : string) (l1 l2 : list string) :
  under root l1 s1 -> under root l2 s2 ->
  ~ contains_dotdot (join "/" l1) -> ~ contains_dotdot (join "/" l2) ->
  str_mem "/"%char ext = false ->
  object_path root build ext s1 = object_path root build ext s2 -> l1 = l2.
Proof.
  intros H1 H2 D1 D2 He E.
  destruct (exists_last (proj1 H1)) as (m1 & x1 & ->).
  destruct (exists_last (proj1 H2)) as (m2 & x2 & ->).
  apply (f_equal names) in E. rewrite !object_path_names with (1 := H1) in E by assumption.
  rewrite !object_path_names with (1 := H2) in E by assumption.
  apply app_inv_head in E. apply app_inj_tail in E as [-> E]. apply sapp_inv_tail in E. subst. reflexivity.
Qed.

(** * Sources anywhere: canonical absolute paths *)

Definition plain (n : string) : Prop :=
  n <> "" /\ n <> "." /\ n <> ".." /\ str_mem "/"%char n = false.

Lemma plain_ok (n : string) : plain n -> name_ok n.
Proof. intros (H1 & _ & _ & H2). split; assumption. Qed.

Lemma plains_ok (l : list string) : Forall plain l -> Forall name_ok l.
Proof. intros H. eapply Forall_impl; [|exact H]. apply plain_ok. Qed.

Lemma abs_names (l : list string) : Forall plain l -> names ("/" +++ join "/" l) = l.
Proof.
  intros H. change ("/" +++ join "/" l) with ("" +++ "/" +++ join "/" l).
  rewrite names_app_slash, names_join by (apply plains_ok, H). reflexivity.
Qed.

Lemma abs_elems (l : list string) :
  Forall plain l -> path_elems (parse_path ("/" +++ join "/" l)) = "/" :: l.
Proof.
  intros H. assert (Hw : wf (PP true l false)) by (split; simpl; [apply plains_ok, H|discriminate]).
  pose proof (parse_print _ Hw) as E. unfold print_path in E. simpl pp_abs in E. simpl pp_comps in E.
  simpl pp_trail in E. rewrite sapp_nil_r in E. rewrite E. unfold path_elems. simpl.
  rewrite app_nil_r. reflexivity.
Qed.

Lemma mismatch_spec (a b : list string) :
  exists c, a = c ++ fst (mismatch a b) /\ b = c ++ snd (mismatch a b).
Proof.
  revert b; induction a as [|x a IH]; intros [|y b]; try (exists []; simpl; auto; fail).
  simpl. destruct (String.eqb_spec x y) as [->|H]; [|exists []; auto].
  destruct (IH b) as (c & H1 & H2). exists (y :: c). simpl. split; f_equal; assumption.
Qed.

Lemma depth_plain (l : list string) : Forall plain l -> depth l = Z.of_nat (length l).
Proof.
  intros H. unfold depth. rewrite <- (Z.add_0_l (Z.of_nat (length l))). generalize 0%Z as z.
  induction H as [|x l (H1 & H2 & H3 & H4) H IH]; intros z; [simpl; lia|].
  cbn [fold_left]. assert (E : depth_step z x = (z + 1)%Z).
  { unfold depth_step. apply is_dotdot_false in H3. apply is_dot_false in H2. apply nonempty_str_true in H1.
    rewrite H3, H2, H1. reflexivity. }
  rewrite E, IH. simpl length. lia.
Qed.

(** Relative path between canonical absolute paths: as many ".." as needed, then down. *)
Definition rel_names (a b : list string) : list string :=
  match a, b with [], [] => ["."] | _, _ => repeat ".." (length b) ++ a end.

Lemma relative_abs (p base : list string) :
  Forall plain p -> Forall plain base ->
  exists c a b, p = c ++ a /\ base = c ++ b /\
    lexically_relative ("/" +++ join "/" p) ("/" +++ join "/" base) = join "/" (rel_names a b) /\
    Forall name_ok (rel_names a b).
Proof.
  intros Hp Hb. destruct (mismatch_spec p base) as (c & H1 & H2).
  remember (fst (mismatch p base)) as a eqn:Da. remember (snd (mismatch p base)) as b eqn:Db.
  exists c, a, b. split; [exact H1|]. split; [exact H2|].
  assert (Ha : Forall plain a) by (rewrite H1 in Hp; apply Forall_app in Hp; tauto).
  assert (Hb' : Forall plain b) by (rewrite H2 in Hb; apply Forall_app in Hb; tauto).
  assert (Hok : Forall name_ok (repeat ".." (length b) ++ a)).
  { apply Forall_app. split; [|apply plains_ok, Ha]. apply Forall_forall. intros y Hy.
    apply repeat_spec in Hy. rewrite Hy. split; [discriminate|reflexivity]. }
  split.
  - unfold lexically_relative. change (pp_abs (parse_path ("/" +++ join "/" p))) with true.
    change (pp_abs (parse_path ("/" +++ join "/" base))) with true. cbn [Bool.eqb negb].
    rewrite !abs_elems by assumption.
    change (mismatch ("/" :: p) ("/" :: base)) with (mismatch p base).
    rewrite (surjective_pairing (mismatch p base)), <- Da, <- Db.
    rewrite depth_plain by exact Hb'. unfold rel_names.
    destruct a as [|x a']; [destruct b as [|y b']|].
    + reflexivity.
    + replace (Z.of_nat (length (y :: b')) =? 0)%Z with false by (symmetry; apply Z.eqb_neq; simpl length; lia).
      replace (Z.of_nat (length (y :: b')) <? 0)%Z with false by (symmetry; apply Z.ltb_ge; lia).
      rewrite Nat2Z.id. cbn [andb]. apply fold_path_div_nil. exact Hok.
    + replace (nonempty_str x) with true by (symmetry; apply nonempty_str_true; inversion Ha as [|? ? [Hx _] _]; exact Hx).
      cbn [negb]. rewrite andb_false_r.
      replace (Z.of_nat (length b) <? 0)%Z with false by (symmetry; apply Z.ltb_ge; lia).
      rewrite Nat2Z.id. apply fold_path_div_nil. exact Hok.
  - unfold rel_names. destruct a; [destruct b|]; try exact Hok.
    repeat constructor; discriminate.
Qed.

Lemma ups_inj (n m : nat) (a b : list string) :
  Forall plain a -> Forall plain b -> repeat ".." n ++ a = repeat ".." m ++ b -> n = m /\ a = b.
Proof.
  intros Ha Hb. revert m. induction n as [|n IH]; intros [|m] E; simpl in E.
  - auto.
  - exfalso. subst a. inversion Ha as [|? ? (_ & _ & H & _) _]. congruence.
  - exfalso. subst b. inversion Hb as [|? ? (_ & _ & H & _) _]. congruence.
  - injection E as E. destruct (IH m E) as [-> ->]. auto.
Qed.

Lemma rel_names_inj (a1 b1 a2 b2 c1 c2 base : list string) :
  Forall plain a1 -> Forall plain a2 ->
  base = c1 ++ b1 -> base = c2 ++ b2 -> rel_names a1 b1 = rel_names a2 b2 -> c1 ++ a1 = c2 ++ a2.
Proof.
  intros Ha1 Ha2 E1 E2 E.
  assert (Hdot : forall a b : list string, Forall plain a -> repeat ".." (length b) ++ a = ["."] -> False).
  { intros a b Ha. destruct b as [|y b]; simpl; [|discriminate]. intros ->.
    inversion Ha as [|? ? (_ & H & _) _]. congruence. }
  assert (Hgen : repeat ".." (length b1) ++ a1 = repeat ".." (length b2) ++ a2 -> c1 ++ a1 = c2 ++ a2).
  { intros Eu. apply ups_inj in Eu as [Hl ->]; [|assumption..].
    assert (Hc : c1 = c2).
    { rewrite E1 in E2. clear - E2 Hl.
      revert c2 E2. induction c1 as [|x c1 IH]; intros [|y c2] E2; simpl in E2.
      - reflexivity.
      - exfalso. apply (f_equal (@length string)) in E2. simpl in E2. rewrite app_length in E2. lia.
      - exfalso. apply (f_equal (@length string)) in E2. simpl in E2. rewrite app_length in E2. lia.
      - injection E2 as -> E2. f_equal. apply IH, E2. }
    congruence. }
  unfold rel_names in E.
  destruct a1 as [|x1 a1]; [destruct b1 as [|y1 b1]|]; (destruct a2 as [|x2 a2]; [destruct b2 as [|y2 b2]|]);
    try (apply Hgen; exact E); try (symmetry in E; exfalso; revert E; first [apply (Hdot [] (y2 :: b2))|apply (Hdot (x2 :: a2) b2)]; assumption);
    try (exfalso; revert E; first [apply (Hdot [] (y1 :: b1))|apply (Hdot (x1 :: a1) b1)]; assumption).
  apply Hgen. reflexivity.
Qed.

Lemma dots_id (s : string) : str_mem ch_dot s = false -> dots_to_unders s = s.
Proof.
  induction s as [|a s IH]; [reflexivity|]. cbn [str_mem]. intros H. apply orb_false_iff in H as [H1 H2].
  unfold dots_to_unders in *. simpl. rewrite H1, IH by exact H2. reflexivity.
Qed.

Lemma dots_under_mem (s : string) : str_mem ch_dot s = true -> str_mem ch_under (dots_to_unders s) = true.
Proof.
  induction s as [|a s IH]; [discriminate|]. unfold dots_to_unders in *. cbn [str_map str_mem].
  intros H. apply orb_true_iff in H as [H|H].
  - rewrite H. rewrite Ascii.eqb_refl. reflexivity.
  - rewrite (IH H). apply orb_true_r.
Qed.

Lemma dots_inj (s t : string) :
  str_mem ch_under s = false -> str_mem ch_under t = false ->
  dots_to_unders s = dots_to_unders t -> s = t.
Proof.
  revert t; induction s as [|a s IH]; intros [|b t] Hs Ht E; try discriminate; [reflexivity|].
  unfold dots_to_unders in *. cbn [str_map] in E. injection E as E1 E2.
  cbn [str_mem] in Hs, Ht. apply orb_false_iff in Hs as [Hs1 Hs2]. apply orb_false_iff in Ht as [Ht1 Ht2].
  f_equal; [|apply IH; assumption].
  destruct (Ascii.eqb a ch_dot) eqn:Ea, (Ascii.eqb b ch_dot) eqn:Eb.
  - apply Ascii.eqb_eq in Ea, Eb. congruence.
  - subst b. rewrite Ascii.eqb_refl in Ht1. discriminate.
  - subst a. rewrite Ascii.eqb_refl in Hs1. discriminate.
  - exact E1.
Qed.

Lemma dots_slash (s : string) : str_mem ch_slash (dots_to_unders s) = str_mem ch_slash s.
Proof.
  induction s as [|a s IH]; [reflexivity|]. unfold dots_to_unders in *. cbn [str_map str_mem].
  rewrite IH. f_equal. destruct (Ascii.eqb a ch_dot) eqn:E; [|reflexivity].
  apply Ascii.eqb_eq in E. subst. reflexivity.
Qed.

Lemma dir_prefix_dots (s : string) : dir_prefix (dots_to_unders s) = dots_to_unders (dir_prefix s).
Proof.
  induction s as [|a s IH]; [reflexivity|].
  change (dots_to_unders (String a s)) with
    (String (if Ascii.eqb a ch_dot then ch_under else a) (dots_to_unders s)).
  cbn [dir_prefix].
  assert (E : str_mem ch_slash (String (if Ascii.eqb a ch_dot then ch_under else a) (dots_to_unders s)) =
              str_mem ch_slash (String a s)) by (exact (dots_slash (String a s))).
  rewrite E. destruct (str_mem ch_slash (String a s)); [|reflexivity].
  rewrite IH. reflexivity.
Qed.

Lemma dir_flat_inj (r1 r2 : string) :
  str_mem ch_under (dir_prefix r1) = false -> str_mem ch_under (dir_prefix r2) = false ->
  dir_prefix (flat r1) = dir_prefix (flat r2) -> dir_prefix r1 = dir_prefix r2.
Proof.
  intros H1 H2. unfold flat.
  assert (Hone : forall a b, str_mem ch_under b = false -> dots_to_unders a = b -> a = b).
  { intros a b Hb <-. destruct (str_mem ch_dot a) eqn:E; [|symmetry; apply dots_id, E].
    rewrite dots_under_mem in Hb by exact E. discriminate. }
  destruct (has_dotdot r1), (has_dotdot r2); rewrite ?dir_prefix_dots; intros E.
  - apply dots_inj; assumption.
  - apply Hone; assumption.
  - symmetry. apply Hone; [assumption|]. symmetry. exact E.
  - exact E.
Qed.

Lemma str_mem_join (c : ascii) (sep : string) (l : list string) :
  str_mem c sep = false -> Forall (fun n => str_mem c n = false) l -> str_mem c (join sep l) = false.
Proof.
  intros Hs H. induction H as [|x l Hx H IH]; [reflexivity|]. destruct l as [|y l]; [exact Hx|].
  rewrite join_cons by discriminate. rewrite !str_mem_app, Hx, Hs. exact IH.
Qed.

Lemma relative_starts (root s : string) :
  abs_canonical root -> abs_canonical s -> starts_slash (lexically_relative s root) = false.
Proof.
  intros (base & -> & Hb) (p & -> & Hp).
  destruct (relative_abs p base Hp Hb) as (c & a & b & _ & _ & -> & Hok). apply join_starts, Hok.
Qed.

Lemma object_collision (root build ext s1 s2 : string) :
  abs_canonical root -> abs_canonical s1 -> abs_canonical s2 -> str_mem "/"%char ext = false ->
  (object_path root build ext s1 = object_path root build ext s2 <->
   filename s1 = filename s2 /\
   dir_prefix (flat (lexically_relative s1 root)) = dir_prefix (flat (lexically_relative s2 root))).
Proof.
  intros Hr H1 H2 He. rewrite !object_path_text by (first [exact He|apply relative_starts; assumption]).
  split; [|intros [-> ->]; reflexivity]. intros E. apply sapp_inv_head in E.
  rewrite <- !sapp_assoc in E. apply sapp_inv_tail in E.
  pose proof (filename_nosep s1) as F1. pose proof (filename_nosep s2) as F2.
  assert (Hsplit : forall d f, open_dir d -> str_mem ch_slash f = false ->
            dir_prefix (d +++ f) = d).
  { intros d f Hd Hf. rewrite dir_prefix_app by exact Hd. rewrite dir_prefix_nosep by exact Hf. apply sapp_nil_r. }
  pose proof (f_equal dir_prefix E) as E'.
  rewrite !Hsplit in E' by (first [apply dir_prefix_open|assumption]).
  rewrite E' in E. apply sapp_inv_head in E. auto.
Qed.

(** Sources that are neither the root directory nor one of its ancestors. *)
Lemma no_underscore_inj (root build ext s1 s2 : string) :
  abs_canonical root -> abs_canonical s1 -> abs_canonical s2 -> str_mem "/"%char ext = false ->
  (forall t, names root <> names s1 ++ t) -> (forall t, names root <> names s2 ++ t) ->
  Forall (fun n => str_mem "_"%char n = false) (dir_names s1) ->
  Forall (fun n => str_mem "_"%char n = false) (dir_names s2) ->
  object_path root build ext s1 = object_path root build ext s2 -> s1 = s2.
Proof.
  intros Hr H1 H2 He N1 N2 U1 U2 E.
  apply object_collision in E as [Ef Ed]; [|assumption..].
  destruct Hr as (base & -> & Hb). destruct H1 as (p1 & -> & Hp1). destruct H2 as (p2 & -> & Hp2).
  destruct (relative_abs p1 base Hp1 Hb) as (c1 & a1 & b1 & P1 & B1 & R1 & K1).
  destruct (relative_abs p2 base Hp2 Hb) as (c2 & a2 & b2 & P2 & B2 & R2 & K2).
  rewrite R1, R2 in Ed. unfold dir_names in U1, U2. rewrite !abs_names in * by assumption.
  assert (Q1 : a1 <> []) by (intros ->; apply (N1 b1); rewrite P1, app_nil_r; exact B1).
  assert (Q2 : a2 <> []) by (intros ->; apply (N2 b2); rewrite P2, app_nil_r; exact B2).
  assert (Hkey : forall p c a b, Forall plain p -> p = c ++ a ->
     Forall (fun n => str_mem "_"%char n = false) (removelast p) -> a <> [] ->
     Forall name_ok (rel_names a b) ->
     exists l x, rel_names a b = l ++ [x] /\ filename ("/" +++ join "/" p) = x /\
       str_mem ch_under (dir_prefix (join "/" (rel_names a b))) = false /\
       dir_prefix (join "/" (rel_names a b)) = match l with [] => "" | _ => join "/" l +++ "/" end).
  { clear. intros p c a b Hp Ep Hu Hane Hok.
    assert (Erel : rel_names a b = repeat ".." (length b) ++ a).
    { unfold rel_names. destruct a; [congruence|reflexivity]. }
    destruct (exists_last Hane) as (a' & y & Ea).
    exists (repeat ".." (length b) ++ a'), y.
    assert (El : rel_names a b = (repeat ".." (length b) ++ a') ++ [y]) by (rewrite Erel, Ea, app_assoc; reflexivity).
    rewrite El in *.
    assert (Hd : dir_prefix (join "/" ((repeat ".." (length b) ++ a') ++ [y])) =
                 match repeat ".." (length b) ++ a' with [] => "" | _ => join "/" (repeat ".." (length b) ++ a') +++ "/" end).
    { apply Forall_app in Hok as [Hl Hx]. inversion Hx; subst. apply dir_prefix_join; assumption. }
    split; [reflexivity|]. split; [|split; [|exact Hd]].
    - rewrite Ep, Ea, app_assoc in *. apply (filename_names _ (c ++ a')); [apply abs_names, Hp|].
      intros q Hq.
      assert (Hes : ends_slash ("/" +++ join "/" ((c ++ a') ++ [y])) = true) by (apply ends_slash_iff; eauto).
      rewrite ends_slash_app in Hes by (apply join_nonempty; [destruct (c ++ a'); discriminate|apply plains_ok, Hp]).
      rewrite join_ends in Hes by (apply plains_ok, Hp). discriminate.
    - rewrite Hd.
      assert (Hl_u : Forall (fun n => str_mem "_"%char n = false) (repeat ".." (length b) ++ a')).
      { rewrite Ep, Ea, app_assoc, removelast_last in Hu. apply Forall_app in Hu as [_ Hu].
        apply Forall_app. split; [|exact Hu]. apply Forall_forall. intros z Hz.
        apply repeat_spec in Hz. subst. reflexivity. }
      destruct (repeat ".." (length b) ++ a') as [|z l] eqn:Ez; [reflexivity|]. rewrite str_mem_app.
      rewrite str_mem_join; [reflexivity|reflexivity|exact Hl_u]. }
  destruct (Hkey p1 c1 a1 b1 Hp1 P1 U1 Q1 K1) as (l1 & x1 & L1 & X1 & V1 & D1).
  destruct (Hkey p2 c2 a2 b2 Hp2 P2 U2 Q2 K2) as (l2 & x2 & L2 & X2 & V2 & D2).
  apply dir_flat_inj in Ed; [|assumption..]. rewrite D1, D2 in Ed. rewrite X1, X2 in Ef.
  assert (Ell : l1 = l2).
  { rewrite L1 in K1. rewrite L2 in K2. apply Forall_app in K1 as [K1 _]. apply Forall_app in K2 as [K2 _].
    destruct l1 as [|y1 l1], l2 as [|y2 l2]; try reflexivity.
    - exfalso. destruct (sapp_eq_nil _ _ (eq_sym Ed)). discriminate.
    - exfalso. destruct (sapp_eq_nil _ _ Ed). discriminate.
    - apply sapp_inv_tail in Ed. apply (f_equal names) in Ed. rewrite !names_join in Ed by assumption. exact Ed. }
  assert (Ha1 : Forall plain a1) by (rewrite P1 in Hp1; apply Forall_app in Hp1; tauto).
  assert (Ha2 : Forall plain a2) by (rewrite P2 in Hp2; apply Forall_app in Hp2; tauto).
  rewrite P1, P2. rewrite (rel_names_inj a1 b1 a2 b2 c1 c2 base); try assumption; [reflexivity|].
  congruence.
Qed.

(** * The placeholder source of a precompiled header *)
Lemma saved_as_iff (build header_ext : string) (has_cpp : bool) :
  pch_source_saved_as build header_ext has_cpp = to_path_string (pch_source_path build header_ext has_cpp)
  <-> str_mem " "%char (to_path_string (pch_source_path build header_ext has_cpp)) = false.
Proof.
  unfold pch_source_saved_as, to_display_string. change ch_space with " "%char.
  destruct (str_mem " "%char (to_path_string (pch_source_path build header_ext has_cpp))); [|tauto].
  split; [|discriminate]. intros H. exfalso. apply (f_equal String.length) in H.
  rewrite !slen_app in H. simpl in H. lia.
Qed.
