From Verif Require Import Prelude Model_Command Spec_Command Proof_Prelude.

Lemma in_range_spec (lo hi c : ascii) :
  in_range lo hi c = true <-> nat_of_ascii lo <= nat_of_ascii c <= nat_of_ascii hi.
Proof. unfold in_range. rewrite andb_true_iff, !Nat.leb_le. tauto. Qed.

Lemma is_name_start_spec (c : ascii) : is_name_start c = true <-> letter c.
Proof.
  unfold is_name_start, letter. rewrite !orb_true_iff, !in_range_spec, Ascii.eqb_eq.
  change (nat_of_ascii "a") with 97. change (nat_of_ascii "z") with 122.
  change (nat_of_ascii "A") with 65. change (nat_of_ascii "Z") with 90. tauto.
Qed.

Lemma is_digit_spec (c : ascii) : is_digit c = true <-> digit c.
Proof.
  unfold is_digit, digit. rewrite in_range_spec.
  change (nat_of_ascii "0") with 48. change (nat_of_ascii "9") with 57. tauto.
Qed.

Lemma is_name_char_spec (c : ascii) : is_name_char c = true <-> letter c \/ digit c.
Proof. unfold is_name_char. rewrite orb_true_iff, is_name_start_spec, is_digit_spec. tauto. Qed.

Lemma all_chars_app (P : ascii -> Prop) (a b : string) :
  all_chars P (a +++ b) <-> all_chars P a /\ all_chars P b.
Proof. induction a as [|c a IH]; simpl; tauto. Qed.

Lemma field_name_snoc (n : string) (c : ascii) :
  field_name n -> letter c \/ digit c -> field_name (n +++ str1 c).
Proof.
  destruct n as [|x n]; simpl; [tauto|]. intros [H1 H2] H. split; [exact H1|].
  apply all_chars_app. simpl. tauto.
Qed.

Lemma letter_not (c : ascii) : letter c ->
  Ascii.eqb c ch_lbrace = false /\ Ascii.eqb c ch_rbrace = false /\ Ascii.eqb c ch_colon = false /\ is_digit c = false.
Proof.
  intros H. apply is_name_start_spec in H. revert H.
  destruct c as [[] [] [] [] [] [] [] []]; vm_compute; repeat split; congruence.
Qed.

Lemma digit_not (c : ascii) : digit c ->
  Ascii.eqb c ch_lbrace = false /\ Ascii.eqb c ch_rbrace = false /\ Ascii.eqb c ch_colon = false.
Proof.
  intros H. apply is_digit_spec in H. revert H.
  destruct c as [[] [] [] [] [] [] [] []]; vm_compute; repeat split; congruence.
Qed.

(** Reading a field name. *)
Lemma fscan_name (lookup : string -> option string) (n rest acc : string) :
  all_chars (fun c => letter c \/ digit c) n ->
  fscan lookup (FName acc) (n +++ String ch_rbrace rest) =
  match lookup (acc +++ n) with
  | None => FErr
  | Some v => fprefix v (fscan lookup FText rest)
  end.
Proof.
  revert acc. induction n as [|c n IH]; intros acc H.
  - rewrite sapp_nil_r. reflexivity.
  - destruct H as [H1 H2]. cbn [append fscan].
    replace (is_name_char c) with true by (symmetry; apply is_name_char_spec, H1).
    rewrite IH by exact H2. rewrite sapp_assoc. reflexivity.
Qed.

Lemma fscan_field (lookup : string -> option string) (n rest : string) :
  field_name n ->
  fscan lookup FText ("{" +++ n +++ "}" +++ rest) =
  match lookup n with None => FErr | Some v => fprefix v (fscan lookup FText rest) end.
Proof.
  destruct n as [|c n]; simpl; [tauto|]. intros [H1 H2].
  destruct (letter_not c H1) as (E1 & E2 & E3 & E4). rewrite E1, E2, E3, E4. simpl.
  replace (is_name_start c) with true by (symmetry; apply is_name_start_spec, H1).
  change (n +++ String "}" rest) with (n +++ String ch_rbrace rest).
  rewrite fscan_name by exact H2. reflexivity.
Qed.

Lemma fscan_lit (lookup : string -> option string) (c : ascii) (rest : string) :
  fscan lookup FText (render1 (Lit c) +++ rest) = fprefix (str1 c) (fscan lookup FText rest).
Proof. destruct c as [[] [] [] [] [] [] [] []]; reflexivity. Qed.


Lemma fscan_missing_text (lookup : string -> option string) (l : list token) :
  Forall token_ok l ->
  fscan lookup FText (render l) = to_fres (expand lookup l).
Proof.
  induction 1 as [|t l Ht H IH]; [reflexivity|]. cbn [render].
  destruct t as [c|n].
  - rewrite fscan_lit, IH. cbn [expand]. destruct (expand lookup l); reflexivity.
  - cbn [render1]. rewrite !sapp_assoc, fscan_field by exact Ht. rewrite IH. cbn [expand].
    destruct (lookup n) as [v|]; [|reflexivity]. destruct (expand lookup l); reflexivity.
Qed.

(** Conversely, every accepted pattern is a rendered token list. *)
Lemma render_lit_plain (c : ascii) :
  Ascii.eqb c ch_lbrace = false -> Ascii.eqb c ch_rbrace = false -> render1 (Lit c) = str1 c.
Proof. destruct c as [[] [] [] [] [] [] [] []]; vm_compute; congruence. Qed.

Lemma fscan_ok_inv (lookup : string -> option string) (s : string) : forall st out,
  fscan lookup st s = FOk out ->
  match st with
  | FText => exists l, Forall token_ok l /\ s = render l
  | FOpen => (exists l, Forall token_ok l /\ String ch_lbrace s = render l)
  | FClose => exists l, Forall token_ok l /\ String ch_rbrace s = render l
  | FName acc => field_name acc -> exists l, Forall token_ok l /\ String ch_lbrace (acc +++ s) = render l
  end.
Proof.
  induction s as [|c s IH]; intros st out H.
  - destruct st; cbn in H; try discriminate. exists []. split; [constructor|reflexivity].
  - destruct st as [| |acc|]; cbn [fscan] in H.
    + destruct (Ascii.eqb c ch_lbrace) eqn:E1.
      { apply Ascii.eqb_eq in E1. subst. apply IH in H. exact H. }
      destruct (Ascii.eqb c ch_rbrace) eqn:E2.
      { apply Ascii.eqb_eq in E2. subst. apply IH in H. exact H. }
      destruct (fscan lookup FText s) as [t| |] eqn:E; try discriminate.
      apply IH in E as (l & Hl & ->). exists (Lit c :: l). split; [constructor; [exact I|exact Hl]|].
      cbn [render]. rewrite render_lit_plain by assumption. reflexivity.
    + destruct (Ascii.eqb c ch_lbrace) eqn:E1.
      { apply Ascii.eqb_eq in E1. subst.
        destruct (fscan lookup FText s) as [t| |] eqn:E; try discriminate.
        apply IH in E as (l & Hl & ->). exists (Lit "{" :: l). split; [constructor; [exact I|exact Hl]|reflexivity]. }
      destruct (Ascii.eqb c ch_rbrace || Ascii.eqb c ch_colon || is_digit c); [discriminate|].
      destruct (is_name_start c) eqn:E2; [|discriminate]. apply is_name_start_spec in E2.
      apply IH in H. cbn in H. destruct (H (conj E2 I)) as (l & Hl & El). exists l. split; [exact Hl|exact El].
    + intros Hacc. destruct (is_name_char c) eqn:E1.
      { apply is_name_char_spec in E1. apply IH in H. cbn beta iota in H.
        destruct (H (field_name_snoc _ _ Hacc E1)) as (l & Hl & El). exists l. split; [exact Hl|].
        rewrite <- El, sapp_assoc. reflexivity. }
      destruct (lookup acc) as [v|] eqn:Ev; [|discriminate].
      destruct (Ascii.eqb c ch_rbrace) eqn:E2.
      { apply Ascii.eqb_eq in E2. subst.
        destruct (fscan lookup FText s) as [t| |] eqn:E; try discriminate.
        apply IH in E as (l & Hl & ->). exists (Field acc :: l). split; [constructor; [exact Hacc|exact Hl]|].
        cbn [render render1]. rewrite !sapp_assoc. reflexivity. }
      destruct (Ascii.eqb c ch_colon); discriminate.
    + destruct (Ascii.eqb c ch_rbrace) eqn:E1; [|discriminate]. apply Ascii.eqb_eq in E1. subst.
      destruct (fscan lookup FText s) as [t| |] eqn:E; try discriminate.
      apply IH in E as (l & Hl & ->). exists (Lit "}" :: l). split; [constructor; [exact I|exact Hl]|reflexivity].
Qed.

Lemma assoc_first_value (k : string) (l : list (string * string)) : assoc k l = first_value k l.
Proof.
  unfold first_value. induction l as [|[k' v] l IH]; [reflexivity|]. simpl.
  rewrite String.eqb_sym. destruct (String.eqb k' k); [reflexivity|exact IH].
Qed.

Lemma expand_ext (f g : string -> option string) (l : list token) :
  (forall n, In n (field_names l) -> f n = g n) -> expand f l = expand g l.
Proof.
  induction l as [|t l IH]; intros H; [reflexivity|]. destruct t as [c|n]; cbn [expand].
  - rewrite IH; [reflexivity|]. intros n Hn. apply H. exact Hn.
  - rewrite (H n) by (left; reflexivity). rewrite IH; [reflexivity|]. intros m Hm. apply H. right. exact Hm.
Qed.

Lemma construct_render (c : command) (l : list token) (args : list (string * string)) :
  Forall token_ok l ->
  construct c (render l) args = to_fres (expand (fun k => first_value k (c ++ args)) l).
Proof.
  intros H. unfold construct. rewrite fscan_missing_text by exact H.
  f_equal. apply expand_ext. intros n _. apply assoc_first_value.
Qed.

Lemma construct_ok_iff (c : command) (p : string) (args : list (string * string)) (t : string) :
  construct c p args = FOk t <->
  exists l, Forall token_ok l /\ p = render l /\
            expand (fun k => first_value k (c ++ args)) l = Some t.
Proof.
  split.
  - intros H. destruct (fscan_ok_inv _ _ _ _ H) as (l & Hl & ->).
    exists l. split; [exact Hl|]. split; [reflexivity|].
    rewrite construct_render in H by exact Hl. destruct (expand _ l); cbn in H; congruence.
  - intros (l & Hl & -> & He). rewrite construct_render, He by exact Hl. reflexivity.
Qed.

Lemma fscan_ext (f g : string -> option string) (s : string) :
  (forall k, f k = g k) -> forall st, fscan f st s = fscan g st s.
Proof.
  intros H. induction s as [|c s IH]; intros st; [reflexivity|].
  destruct st; cbn [fscan]; rewrite ?IH, ?H; reflexivity.
Qed.

Lemma construct_perm (c c' : command) (p : string) (args args' : list (string * string)) :
  NoDup (map fst c) -> NoDup (map fst args) -> Permutation c c' -> Permutation args args' ->
  construct c p args = construct c' p args'.
Proof.
  intros H1 H2 P1 P2. unfold construct. apply fscan_ext. intros k. rewrite !assoc_app.
  rewrite (assoc_perm k c c' H1 P1), (assoc_perm k args args' H2 P2). reflexivity.
Qed.

(** * Default arguments *)

Lemma add_default_assoc (c : command) (kv : string * string) (k : string) :
  assoc k (add_default_argument c kv) =
  match assoc k c with Some v => Some v | None => if String.eqb k (fst kv) then Some (snd kv) else None end.
Proof.
  unfold add_default_argument. destruct kv as [k' v']. simpl. destruct (assoc k' c) as [v|] eqn:E.
  - destruct (assoc k c) eqn:E2; [reflexivity|]. destruct (String.eqb_spec k k'); [subst; congruence|reflexivity].
  - rewrite assoc_app. simpl. reflexivity.
Qed.

Lemma add_defaults_assoc (args : list (string * string)) (c : command) (k : string) :
  assoc k (add_default_arguments c args) =
  match assoc k c with Some v => Some v | None => assoc k args end.
Proof.
  unfold add_default_arguments. revert c. induction args as [|[k' v'] args IH]; intros c; simpl.
  - destruct (assoc k c); reflexivity.
  - rewrite IH, add_default_assoc. simpl. destruct (assoc k c); [reflexivity|].
    destruct (String.eqb k k'); reflexivity.
Qed.


Lemma do_call_assoc (c : command) (x : call) (k : string) :
  assoc k (do_call c x) = match assoc k c with Some v => Some v | None => assoc k (given [x]) end.
Proof.
  destruct x as [k' v'|a]; simpl.
  - rewrite add_default_assoc. simpl. reflexivity.
  - rewrite add_defaults_assoc, app_nil_r. reflexivity.
Qed.

Lemma after_calls_assoc (h : list call) (k : string) : assoc k (after_calls h) = first_value k (given h).
Proof.
  rewrite <- assoc_first_value. unfold after_calls.
  assert (G : forall c, assoc k (fold_left do_call h c) =
                        match assoc k c with Some v => Some v | None => assoc k (given h) end).
  { induction h as [|x h IH]; intros c; cbn [fold_left].
    - destruct (assoc k c); reflexivity.
    - rewrite IH, do_call_assoc. destruct (assoc k c); [reflexivity|].
      unfold given. cbn [flat_map]. rewrite app_nil_r, assoc_app. reflexivity. }
  rewrite G. reflexivity.
Qed.

Lemma do_call_nodup (c : command) (x : call) : NoDup (map fst c) -> NoDup (map fst (do_call c x)).
Proof.
  assert (One : forall c kv, NoDup (map fst c) -> NoDup (map fst (add_default_argument c kv))).
  { clear. intros c [k v] H. unfold add_default_argument. simpl. destruct (assoc k c) eqn:E; [exact H|].
    rewrite map_app. simpl. apply assoc_None in E.
    apply (Permutation_NoDup (Permutation_cons_append (map fst c) k)).
    constructor; assumption. }
  intros H. destruct x as [k v|a]; simpl; [apply One, H|].
  unfold add_default_arguments. revert c H. induction a as [|kv a IH]; intros c H; [exact H|].
  simpl. apply IH, One, H.
Qed.

Lemma after_calls_nodup (h : list call) : NoDup (map fst (after_calls h)).
Proof.
  unfold after_calls. assert (G : forall c, NoDup (map fst c) -> NoDup (map fst (fold_left do_call h c))).
  { induction h as [|x h IH]; intros c H; [exact H|]. simpl. apply IH, do_call_nodup, H. }
  apply G. constructor.
Qed.

Lemma get_default_spec (h : list call) (k : string) :
  get_default_value (after_calls h) k =
  match first_value k (given h) with Some v => Ok v | None => Fatal end.
Proof. unfold get_default_value. rewrite after_calls_assoc. reflexivity. Qed.

Lemma construct_after_calls (h : list call) (l : list token) (args : list (string * string)) :
  Forall token_ok l ->
  construct (after_calls h) (render l) args =
  to_fres (expand (fun k => first_value k (given h ++ args)) l).
Proof.
  intros H. rewrite construct_render by exact H. f_equal. apply expand_ext. intros n _.
  rewrite <- !assoc_first_value, !assoc_app, after_calls_assoc, <- assoc_first_value. reflexivity.
Qed.

(** Deciding field names, for examples. *)
Fixpoint all_charsb (f : ascii -> bool) (s : string) : bool :=
  match s with EmptyString => true | String c r => f c && all_charsb f r end.
Definition field_nameb (s : string) : bool :=
  match s with EmptyString => false | String c r => is_name_start c && all_charsb is_name_char r end.
Definition token_okb (t : token) : bool := match t with Lit _ => true | Field n => field_nameb n end.

Lemma all_charsb_sound (s : string) :
  all_charsb is_name_char s = true -> all_chars (fun c => letter c \/ digit c) s.
Proof.
  induction s as [|c s IH]; simpl; [auto|]. intros H. apply andb_true_iff in H as [H1 H2].
  split; [apply is_name_char_spec, H1|auto].
Qed.
Lemma tokens_okb_sound (l : list token) : forallb token_okb l = true -> Forall token_ok l.
Proof.
  intros H. apply Forall_forall. intros t Ht. rewrite forallb_forall in H. specialize (H t Ht).
  destruct t as [c|[|c n]]; simpl in *; [exact I|discriminate|].
  apply andb_true_iff in H as [H1 H2]. split; [apply is_name_start_spec, H1|apply all_charsb_sound, H2].
Qed.
