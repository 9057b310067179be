(** Lemmas about the vocabulary of [Prelude]. *)
From Verif Require Import Prelude.

Lemma sapp_nil_r (s : string) : s +++ "" = s.
Proof. induction s as [|a s IH]; simpl; [reflexivity|rewrite IH; reflexivity]. Qed.

Lemma sapp_assoc (a b c : string) : (a +++ b) +++ c = a +++ (b +++ c).
Proof. induction a as [|x a IH]; simpl; [reflexivity|rewrite IH; reflexivity]. Qed.

Lemma sapp_inv_head (a b c : string) : a +++ b = a +++ c -> b = c.
Proof. induction a as [|x a IH]; simpl; intros H; [exact H|injection H as H; auto]. Qed.

Lemma slen_app (a b : string) : String.length (a +++ b) = String.length a + String.length b.
Proof. induction a as [|x a IH]; simpl; [reflexivity|rewrite IH; reflexivity]. Qed.

Lemma sapp_inv_tail (a b c : string) : a +++ c = b +++ c -> a = b.
Proof.
  revert b; induction a as [|x a IH]; intros [|y b] H; simpl in *.
  - reflexivity.
  - exfalso. apply (f_equal String.length) in H. simpl in H. rewrite slen_app in H. lia.
  - exfalso. apply (f_equal String.length) in H. simpl in H. rewrite slen_app in H. lia.
  - injection H as H1 H2. subst. f_equal. auto.
Qed.

Lemma sapp_eq_nil (a b : string) : a +++ b = "" -> a = "" /\ b = "".
Proof. destruct a; simpl; [auto|discriminate]. Qed.

Lemma str_mem_app (c : ascii) (a b : string) :
  str_mem c (a +++ b) = str_mem c a || str_mem c b.
Proof. induction a as [|x a IH]; simpl; [reflexivity|rewrite IH, orb_assoc; reflexivity]. Qed.

Lemma str_map_app (f : ascii -> ascii) (a b : string) :
  str_map f (a +++ b) = str_map f a +++ str_map f b.
Proof. induction a as [|x a IH]; simpl; [reflexivity|rewrite IH; reflexivity]. Qed.

Lemma pieces_nonnil (c : ascii) (s : string) : pieces c s <> [].
Proof.
  destruct s as [|a s]; simpl; [discriminate|].
  destruct (Ascii.eqb a c); [discriminate|]. destruct (pieces c s); discriminate.
Qed.

(** Splitting a concatenation at a separator. *)
Lemma pieces_app_sep (c : ascii) (a b : string) :
  pieces c (a +++ String c b) = pieces c a ++ pieces c b.
Proof.
  induction a as [|x a IH]; simpl.
  - rewrite Ascii.eqb_refl. reflexivity.
  - rewrite IH. destruct (Ascii.eqb x c); [reflexivity|].
    destruct (pieces c a) as [|p ps] eqn:E; [exfalso; exact (pieces_nonnil c a E)|reflexivity].
Qed.

Lemma pieces_nosep (c : ascii) (s : string) : str_mem c s = false -> pieces c s = [s].
Proof.
  induction s as [|a s IH]; simpl; intros H; [reflexivity|].
  apply orb_false_iff in H as [H1 H2]. rewrite H1, (IH H2). reflexivity.
Qed.

Lemma pieces_each_nosep (c : ascii) (s : string) :
  Forall (fun p => str_mem c p = false) (pieces c s).
Proof.
  induction s as [|a s IH]; simpl; [repeat constructor|].
  destruct (Ascii.eqb a c) eqn:E; [constructor; [reflexivity|exact IH]|].
  destruct (pieces c s) as [|p ps]; [repeat constructor; simpl; rewrite E; reflexivity|].
  inversion IH as [|? ? H1 H2]; subst. constructor; [simpl; rewrite E; exact H1|exact H2].
Qed.

Lemma join_cons (sep x : string) (l : list string) :
  l <> [] -> join sep (x :: l) = x +++ sep +++ join sep l.
Proof. destruct l; [congruence|reflexivity]. Qed.

Lemma join_app (sep : string) (a b : list string) :
  a <> [] -> b <> [] -> join sep (a ++ b) = join sep a +++ sep +++ join sep b.
Proof.
  induction a as [|x a IH]; intros Ha Hb; [congruence|].
  destruct a as [|y a].
  - simpl app. rewrite join_cons by exact Hb. reflexivity.
  - change ((x :: y :: a) ++ b) with (x :: ((y :: a) ++ b)).
    rewrite join_cons by discriminate. rewrite IH by (discriminate || exact Hb).
    rewrite (join_cons sep x (y :: a)) by discriminate. rewrite !sapp_assoc. reflexivity.
Qed.

Lemma join_pieces (c : ascii) (s : string) : join (str1 c) (pieces c s) = s.
Proof.
  induction s as [|a s IH]; [reflexivity|].
  simpl pieces. destruct (Ascii.eqb a c) eqn:E.
  - apply Ascii.eqb_eq in E. subst. rewrite join_cons by apply pieces_nonnil. rewrite IH. reflexivity.
  - destruct (pieces c s) as [|p ps] eqn:Ep; [exfalso; exact (pieces_nonnil c s Ep)|].
    destruct ps as [|q ps]; simpl in *; rewrite <- IH; reflexivity.
Qed.

(** Splitting inverts joining for pieces that do not contain the separator. *)
Lemma pieces_join (c : ascii) (l : list string) :
  l <> [] -> Forall (fun p => str_mem c p = false) l -> pieces c (join (str1 c) l) = l.
Proof.
  induction l as [|x l IH]; intros Hn HF; [congruence|].
  inversion HF as [|? ? H1 H2]; subst.
  destruct l as [|y l]; [simpl; apply pieces_nosep; exact H1|].
  rewrite join_cons by discriminate. change (str1 c +++ join (str1 c) (y :: l)) with (String c (join (str1 c) (y :: l))).
  rewrite pieces_app_sep, IH by (discriminate || exact H2). rewrite pieces_nosep by exact H1. reflexivity.
Qed.

Lemma mem_str_In (x : string) (l : list string) : mem_str x l = true <-> In x l.
Proof.
  unfold mem_str. rewrite existsb_exists. split.
  - intros [y [H1 H2]]. apply String.eqb_eq in H2. subst. exact H1.
  - intros H. exists x. split; [exact H|apply String.eqb_refl].
Qed.

Lemma mem_str_false (x : string) (l : list string) : mem_str x l = false <-> ~ In x l.
Proof.
  rewrite <- mem_str_In. destruct (mem_str x l); split; intros H; try congruence.
Qed.

Lemma str_list_eqb_eq (a b : list string) : str_list_eqb a b = true <-> a = b.
Proof.
  revert b; induction a as [|x a IH]; intros [|y b]; simpl; split; intros H; try congruence.
  - apply andb_true_iff in H as [H1 H2]. apply String.eqb_eq in H1. apply IH in H2. congruence.
  - injection H as -> ->. rewrite String.eqb_refl. simpl. apply IH. reflexivity.
Qed.

Lemma assoc_In {B} (k : string) (l : list (string * B)) (v : B) :
  assoc k l = Some v -> In (k, v) l.
Proof.
  induction l as [|[k' v'] l IH]; simpl; [discriminate|].
  destruct (String.eqb k k') eqn:E; intros H.
  - apply String.eqb_eq in E. injection H as ->. subst. left. reflexivity.
  - right. auto.
Qed.

Lemma assoc_None {B} (k : string) (l : list (string * B)) :
  assoc k l = None <-> ~ In k (map fst l).
Proof.
  induction l as [|[k' v'] l IH]; simpl; [tauto|].
  destruct (String.eqb k k') eqn:E.
  - apply String.eqb_eq in E. subst. split; [discriminate|tauto].
  - apply String.eqb_neq in E. rewrite IH. split; intros H; [intros [H1|H1]; [congruence|tauto]|tauto].
Qed.

Lemma assoc_NoDup_In {B} (k : string) (l : list (string * B)) (v : B) :
  NoDup (map fst l) -> In (k, v) l -> assoc k l = Some v.
Proof.
  induction l as [|[k' v'] l IH]; simpl; intros HN HI; [contradiction|].
  inversion HN as [|? ? H1 H2]; subst.
  destruct HI as [HI|HI].
  - injection HI as -> ->. rewrite String.eqb_refl. reflexivity.
  - destruct (String.eqb k k') eqn:E.
    + apply String.eqb_eq in E. subst. exfalso. apply H1. apply (in_map fst) in HI. exact HI.
    + auto.
Qed.

Lemma assoc_perm {B} (k : string) (l l' : list (string * B)) :
  NoDup (map fst l) -> Permutation l l' -> assoc k l = assoc k l'.
Proof.
  intros HN HP.
  destruct (assoc k l) as [v|] eqn:E.
  - symmetry. apply assoc_NoDup_In.
    + eapply Permutation_NoDup; [apply Permutation_map; exact HP|exact HN].
    + eapply Permutation_in; [exact HP|]. apply assoc_In. exact E.
  - symmetry. apply assoc_None. apply assoc_None in E. intros H. apply E.
    eapply Permutation_in; [apply Permutation_sym, Permutation_map, HP|exact H].
Qed.

Lemma assoc_app {B} (k : string) (a b : list (string * B)) :
  assoc k (a ++ b) = match assoc k a with Some v => Some v | None => assoc k b end.
Proof.
  induction a as [|[k' v'] a IH]; simpl; [reflexivity|].
  destruct (String.eqb k k'); auto.
Qed.

Lemma filter_all {A} (f : A -> bool) (l : list A) :
  Forall (fun x => f x = true) l -> filter f l = l.
Proof.
  induction l as [|a l IH]; simpl; intros H; [reflexivity|].
  inversion H as [|? ? H1 H2]; subst. rewrite H1, IH by exact H2. reflexivity.
Qed.
