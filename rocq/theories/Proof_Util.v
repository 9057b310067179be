(** Proofs about split and trim. *)
From Verif Require Import Prelude Proof_Prelude Model_Util Spec_Util.

Lemma drop_cons x l : l <> [] -> drop_last_empty (x :: l) = x :: drop_last_empty l.
Proof. destruct l; [congruence|reflexivity]. Qed.

Lemma getlines_pieces d s : forall acc, getlines d acc s =
  drop_last_empty (match pieces d s with [] => [acc] | p :: ps => (acc +++ p) :: ps end).
Proof.
  induction s as [|a s IH]; intros acc; cbn [getlines pieces].
  - rewrite sapp_nil_r. destruct acc; reflexivity.
  - destruct (Ascii.eqb a d).
    + rewrite sapp_nil_r, (IH ""). pose proof (pieces_nonnil d s) as N.
      destruct (pieces d s) as [|p ps]; [exfalso; apply N; reflexivity|].
      rewrite (drop_cons acc) by discriminate. cbn [append]. reflexivity.
    + rewrite IH. pose proof (pieces_nonnil d s) as N.
      destruct (pieces d s) as [|p ps]; [exfalso; apply N; reflexivity|].
      rewrite sapp_assoc. reflexivity.
Qed.
Lemma split_pieces s d : split s d = drop_last_empty (pieces d s).
Proof. unfold split. rewrite getlines_pieces. destruct (pieces d s) eqn:E; [destruct (pieces_nonnil d s E)|reflexivity]. Qed.

Lemma drop_incl l : incl (drop_last_empty l) l.
Proof.
  induction l as [|x l IH]; [intros y []|]. destruct l as [|z l].
  - cbn. destruct (String.eqb x ""); [intros y []|apply incl_refl].
  - rewrite drop_cons by discriminate. intros y [->|H]; [left; reflexivity|right; exact (IH y H)].
Qed.

Theorem split_join d l : l <> [] -> (forall x, In x l -> str_mem d x = false) ->
  split (join (str1 d) l) d = drop_last_empty l.
Proof. intros N H. rewrite split_pieces, pieces_join; [reflexivity|exact N|apply Forall_forall; exact H]. Qed.

Theorem split_join_exact d l : (forall x, In x l -> str_mem d x = false) -> last l "x" <> "" ->
  split (join (str1 d) l) d = l.
Proof.
  intros H L. destruct l as [|x0 l0] eqn:E; [reflexivity|]. rewrite <- E in *. rewrite split_join; [|congruence|exact H].
  clear H E x0 l0. induction l as [|x l IH]; [reflexivity|]. destruct l as [|y l].
  - cbn in *. destruct (String.eqb_spec x ""); congruence.
  - rewrite drop_cons by discriminate. rewrite IH; [reflexivity|exact L].
Qed.

Theorem split_no_delim s d p : In p (split s d) -> str_mem d p = false.
Proof. rewrite split_pieces. intros H. pose proof (pieces_each_nosep d s) as F. rewrite Forall_forall in F. apply F. exact (drop_incl _ p H). Qed.

Lemma join_drop d l : l <> [] -> join (str1 d) l = join (str1 d) (drop_last_empty l) \/
  join (str1 d) l = join (str1 d) (drop_last_empty l) +++ str1 d.
Proof.
  induction l as [|x l IH]; intros N; [congruence|]. destruct l as [|y l].
  - cbn. destruct (String.eqb_spec x "") as [->|]; left; reflexivity.
  - rewrite drop_cons by discriminate. destruct (IH ltac:(discriminate)) as [K|K].
    + rewrite join_cons by discriminate. rewrite K. destruct (drop_last_empty (y :: l)) as [|z r] eqn:E.
      * right. cbn. reflexivity.
      * left. rewrite (join_cons _ x (z :: r)) by discriminate. reflexivity.
    + rewrite join_cons by discriminate. rewrite K at 1 2. destruct (drop_last_empty (y :: l)) as [|z r] eqn:E.
      * exfalso. clear IH N. destruct l as [|w l]; [|rewrite drop_cons in E by discriminate; discriminate].
        cbn [drop_last_empty] in E, K. destruct (String.eqb y "") eqn:Ey; [|discriminate]. apply String.eqb_eq in Ey. subst y. cbn in K. discriminate.
      * right. rewrite (join_cons _ x (z :: r)) by discriminate. rewrite !sapp_assoc. reflexivity.
Qed.

(** Nothing but one final delimiter is lost. *)
Theorem split_loses_nothing s d : s = join (str1 d) (split s d) \/ s = join (str1 d) (split s d) +++ str1 d.
Proof.
  rewrite split_pieces. pose proof (join_pieces d s) as J. rewrite <- J at 1 3.
  apply join_drop. apply pieces_nonnil.
Qed.

(** ** trim *)

Fixpoint all_ws (s : string) : bool := match s with EmptyString => true | String a r => isspace a && all_ws r end.
Definition first_char (s : string) : option ascii := match s with EmptyString => None | String a _ => Some a end.
Fixpoint last_char (s : string) : option ascii :=
  match s with EmptyString => None | String a r => match last_char r with None => Some a | Some c => Some c end end.

Lemma ltrim_spec s : exists a, s = a +++ ltrim s /\ all_ws a = true /\ forall c, first_char (ltrim s) = Some c -> isspace c = false.
Proof.
  induction s as [|c s IH]; cbn [ltrim].
  - exists "". cbn. repeat split; discriminate.
  - destruct (isspace c) eqn:E.
    + destruct IH as (a & A & B & C). exists (String c a). cbn. rewrite E, <- A. auto.
    + exists "". cbn. repeat split. intros x K. injection K as <-. exact E.
Qed.
Lemma rtrim_spec s : exists b, s = rtrim s +++ b /\ all_ws b = true /\ (forall c, last_char (rtrim s) = Some c -> isspace c = false) /\
  (rtrim s <> "" -> first_char (rtrim s) = first_char s).
Proof.
  induction s as [|c s IH]; cbn [rtrim].
  - exists "". cbn. repeat split; discriminate.
  - destruct IH as (b & A & B & C & D). destruct (rtrim s) as [|x r] eqn:E.
    + cbn in A. subst b. destruct (isspace c) eqn:Ec.
      * exists (String c s). cbn. rewrite Ec. repeat split; [exact B|discriminate|congruence].
      * exists s. cbn. repeat split; [exact B|]. intros y K. injection K as <-. exact Ec.
    + exists b. cbn [append]. split; [rewrite A at 1; reflexivity|]. split; [exact B|]. split; [|reflexivity].
      intros y K. apply C. cbn [last_char] in *. destruct (last_char r); exact K.
Qed.

Theorem trim_spec s : exists a b, s = a +++ trim s +++ b /\ all_ws a = true /\ all_ws b = true /\
  (forall c, first_char (trim s) = Some c -> isspace c = false) /\ (forall c, last_char (trim s) = Some c -> isspace c = false).
Proof.
  destruct (ltrim_spec s) as (a & A & B & C). destruct (rtrim_spec (ltrim s)) as (b & D & E & F & G).
  exists a, b. unfold trim. split; [rewrite <- D; exact A|]. split; [exact B|]. split; [exact E|]. split; [|exact F].
  intros c K. destruct (rtrim (ltrim s)) as [|x r] eqn:R; [discriminate|]. apply C. rewrite <- K. symmetry. apply G. discriminate.
Qed.

Lemma ltrim_id s : (forall c, first_char s = Some c -> isspace c = false) -> ltrim s = s.
Proof. destruct s as [|a s]; cbn; [reflexivity|]. intros H. rewrite (H a eq_refl). reflexivity. Qed.
Lemma rtrim_id s : (forall c, last_char s = Some c -> isspace c = false) -> rtrim s = s.
Proof.
  induction s as [|a s IH]; cbn [rtrim last_char]; [reflexivity|]. intros H. destruct s as [|x s].
  - cbn. rewrite (H a eq_refl). reflexivity.
  - rewrite IH; [reflexivity|]. intros c K. apply H. rewrite K. reflexivity.
Qed.
Theorem trim_idempotent s : trim (trim s) = trim s.
Proof.
  destruct (trim_spec s) as (_ & _ & _ & _ & _ & F & L). unfold trim at 1. rewrite (ltrim_id _ F). apply rtrim_id. exact L.
Qed.

Lemma isspace_spec c : isspace c = true <-> whitespace c.
Proof.
  unfold isspace, whitespace. rewrite orb_true_iff, andb_true_iff, N.eqb_eq, !N.leb_le. cbn [In]. split.
  - intros [H|[H1 H2]]; lia.
  - lia.
Qed.
Lemma all_ws_spec s : all_ws s = true <-> all_whitespace s.
Proof. induction s as [|a s IH]; cbn [all_ws all_whitespace]; [split; auto|]. rewrite andb_true_iff, isspace_spec, IH. reflexivity. Qed.
Lemma ends_with_last s c : ends_with s c -> last_char s = Some c.
Proof.
  intros [r ->]. induction r as [|a r IH]; cbn [append last_char]; [reflexivity|]. rewrite IH. reflexivity.
Qed.

Theorem trim_exact s : exists a b, s = a +++ trim s +++ b /\ all_whitespace a /\ all_whitespace b /\
  (forall c, starts_with (trim s) c \/ ends_with (trim s) c -> ~ whitespace c).
Proof.
  destruct (trim_spec s) as (a & b & E & A & B & F & L). exists a, b. rewrite all_ws_spec in A, B. repeat split; [exact E|exact A|exact B|].
  intros c [[r K]|K] W; apply isspace_spec in W.
  - rewrite (F c) in W; [discriminate|]. rewrite K. reflexivity.
  - rewrite (L c) in W; [discriminate|]. exact (ends_with_last _ _ K).
Qed.
