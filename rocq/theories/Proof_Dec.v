(** Decimal text. *)
From Verif Require Import Prelude Model_Json Proof_Prelude Proof_Json.
From Coq Require Import ZifyBool ZifyNat ZifyN.
Ltac Zify.zify_post_hook ::= Z.div_mod_to_equations.

Lemma byte_digit (n : N) : (n < 10)%N -> byte (digit_char n) = (n + 48)%N.
Proof. intros H. unfold digit_char. apply byte_chr. lia. Qed.

Lemma dec_digits_value (fuel : nat) : forall n acc,
  (n < 10 ^ N.of_nat fuel)%N -> fuel <> O ->
  dec_value (dec_digits fuel n acc) 0 = dec_value acc n.
Proof.
  induction fuel as [|f IH]; intros n acc Hn Hf; [congruence|].
  cbn [dec_digits]. destruct (N.eqb_spec (n / 10) 0) as [E|E].
  - cbn [dec_value]. rewrite byte_digit by lia. f_equal. lia.
  - rewrite IH.
    + cbn [dec_value]. rewrite byte_digit by lia. f_equal. lia.
    + rewrite Nat2N.inj_succ, N.pow_succ_r' in Hn. apply N.div_lt_upper_bound; lia.
    + intros ->. simpl in Hn. lia.
Qed.

Lemma pow_size (n : N) : (n < 10 ^ N.of_nat (S (N.size_nat n)))%N.
Proof.
  assert (H : (n < 2 ^ N.of_nat (N.size_nat n))%N).
  { destruct n as [|p]; [reflexivity|]. simpl N.size_nat.
    induction p as [p IH|p IH|].
    - cbn [Pos.size_nat]. rewrite Nat2N.inj_succ, N.pow_succ_r'. lia.
    - cbn [Pos.size_nat]. rewrite Nat2N.inj_succ, N.pow_succ_r'. lia.
    - reflexivity. }
  eapply N.lt_le_trans; [exact H|].
  transitivity (10 ^ N.of_nat (N.size_nat n))%N.
  - apply N.pow_le_mono_l. lia.
  - apply N.pow_le_mono_r; lia.
Qed.

Lemma dec_of_N_value (n : N) : dec_value (dec_of_N n) 0 = n.
Proof. unfold dec_of_N. rewrite dec_digits_value; [reflexivity|apply pow_size|discriminate]. Qed.

Lemma dec_of_N_inj (n m : N) : dec_of_N n = dec_of_N m -> n = m.
Proof. intros H. rewrite <- (dec_of_N_value n), <- (dec_of_N_value m), H. reflexivity. Qed.

Fixpoint all_dec (s : string) : bool :=
  match s with EmptyString => true | String c r => is_dec c && all_dec r end.

Lemma is_dec_digit (n : N) : (n < 10)%N -> is_dec (digit_char n) = true.
Proof. intros H. unfold is_dec. apply brange_spec. rewrite byte_digit by exact H. lia. Qed.

Lemma dec_digits_shape (fuel : nat) : forall n acc,
  all_dec acc = true -> fuel <> O -> (n < 10 ^ N.of_nat fuel)%N ->
  exists c r, dec_digits fuel n acc = String c r /\ is_dec c = true /\ all_dec r = true /\
    (n = 0%N /\ c = "0"%char /\ r = acc \/ n <> 0%N /\ c <> "0"%char).
Proof.
  induction fuel as [|f IH]; intros n acc Ha Hf Hn; [congruence|].
  cbn [dec_digits]. destruct (N.eqb_spec (n / 10) 0) as [E|E].
  - exists (digit_char (n mod 10)), acc. split; [reflexivity|]. split; [apply is_dec_digit; lia|].
    split; [exact Ha|]. destruct (N.eqb_spec n 0) as [->|Hn0]; [left; repeat split|right].
    split; [exact Hn0|]. intros Ec. apply (f_equal byte) in Ec. rewrite byte_digit in Ec by lia.
    change (byte "0") with 48%N in Ec. lia.
  - destruct (IH (n / 10)%N (String (digit_char (n mod 10)) acc)) as (c & r & H1 & H2 & H3 & H4).
    + cbn [all_dec]. rewrite is_dec_digit by lia. exact Ha.
    + intros ->. simpl in Hn. lia.
    + rewrite Nat2N.inj_succ, N.pow_succ_r' in Hn. apply N.div_lt_upper_bound; lia.
    + exists c, r. repeat split; try assumption. right. destruct H4 as [[H4 _]|[_ H4]]; [congruence|].
      split; [|exact H4]. intros ->. apply E. reflexivity.
Qed.

Lemma dec_of_N_shape (n : N) :
  exists c r, dec_of_N n = String c r /\ is_dec c = true /\ all_dec r = true /\
    (n = 0%N /\ c = "0"%char /\ r = "" \/ n <> 0%N /\ c <> "0"%char).
Proof. apply dec_digits_shape; [reflexivity|discriminate|apply pow_size]. Qed.
