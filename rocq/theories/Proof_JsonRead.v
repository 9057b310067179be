(** The parser accepts exactly the texts of the grammar: strings and numbers. *)
From Verif Require Import Prelude Model_Json Spec_Json Proof_Prelude Proof_Json Proof_Dec Proof_JsonText Spec_JsonText.
From Coq Require Import ZifyBool ZifyNat ZifyN.

Definition fin (s : string) (st : pstate) : option json := pfinish (prun s st).

Lemma fin_app a b st : fin (a +++ b) st = fin b (prun a st).
Proof. unfold fin. rewrite prun_app. reflexivity. Qed.
Lemma fin_cons c s st : fin (String c s) st = fin s (pstep st c).
Proof. reflexivity. Qed.
Lemma fin_err s k : fin s (MErr, k) = None.
Proof. unfold fin. induction s as [|c s IH]; [reflexivity|exact IH]. Qed.
Lemma fin_perr s : fin s perr = None.
Proof. apply fin_err. Qed.

Lemma every_app P a b : every P (a +++ b) <-> every P a /\ every P b.
Proof. induction a as [|c a IH]; cbn [append every]; [tauto|rewrite IH; tauto]. Qed.
Lemma every_impl (P Q : ascii -> Prop) s : (forall c, P c -> Q c) -> every P s -> every Q s.
Proof. intros H. induction s as [|c s IH]; cbn [every]; [tauto|]. intros [A B]. split; [exact (H c A)|exact (IH B)]. Qed.

Lemma ws_iff c : is_ws c = true <-> blank_char c.
Proof. unfold is_ws, blank_char, code, byte. cbn [In]. lia. Qed.
Lemma ws_false c : is_ws c = false <-> ~ blank_char c.
Proof. rewrite <- ws_iff. destruct (is_ws c); intuition congruence. Qed.

(** ** Blanks *)
Definition skipping (st : pstate) : Prop := forall c, is_ws c = true -> pstep st c = st.
Lemma skip_blank st b : skipping st -> blank b -> prun b st = st.
Proof.
  intros K. induction b as [|c b IH]; intros B; [reflexivity|]. destruct B as [C B]. cbn [prun]. rewrite (K c (proj2 (ws_iff c) C)). exact (IH B).
Qed.
Lemma skip_fin st b s : skipping st -> blank b -> fin (b +++ s) st = fin s st.
Proof. intros K B. rewrite fin_app, (skip_blank st b K B). reflexivity. Qed.
Lemma skipping_val k : skipping (MVal, k). Proof. intros c H. cbn [pstep]. rewrite H. reflexivity. Qed.
Lemma skipping_arr0 k : skipping (MArr0, k). Proof. intros c H. cbn [pstep]. rewrite H. reflexivity. Qed.
Lemma skipping_key0 k : skipping (MKey0, k). Proof. intros c H. cbn [pstep]. rewrite H. reflexivity. Qed.
Lemma skipping_key k : skipping (MKey, k). Proof. intros c H. cbn [pstep]. rewrite H. reflexivity. Qed.
Lemma skipping_colon k : skipping (MColon, k). Proof. intros c H. cbn [pstep]. rewrite H. reflexivity. Qed.
Lemma skipping_deliver v k : skipping (deliver v k).
Proof. intros c H. destruct k as [|[]]; cbn [deliver pstep after_value]; rewrite H; reflexivity. Qed.

(** Reading past blanks. *)
Lemma skipped st s r : skipping st -> fin s st = Some r ->
  (exists b, s = b /\ blank b /\ pfinish st = Some r) \/
  (exists b c s', s = b +++ String c s' /\ blank b /\ is_ws c = false /\ fin s' (pstep st c) = Some r).
Proof.
  intros K. induction s as [|c s IH]; intros F.
  - left. exists "". repeat split. exact F.
  - rewrite fin_cons in F. destruct (is_ws c) eqn:W.
    + rewrite (K c W) in F. apply ws_iff in W. destruct (IH F) as [(b & -> & B & E)|(b & c' & s' & -> & B & W' & E)].
      * left. exists (String c b). repeat split; assumption.
      * right. exists (String c b), c', s'. repeat split; assumption.
    + right. exists "", c, s. repeat split; assumption.
Qed.

(** ** Strings *)
Lemma encode_same cp : utf8_encode cp = encode_utf8 cp.
Proof. reflexivity. Qed.

Lemma escape_every s : every (fun c => (128 <= byte c)%N) s -> escape s = s.
Proof.
  induction s as [|c s IH]; intros H; [reflexivity|]. destruct H as [A B]. cbn [escape]. rewrite (escape_high c A), (IH B). reflexivity.
Qed.
Lemma encode_high cp : scalar cp -> (128 <= cp)%N -> every (fun c => (128 <= byte c)%N) (encode_utf8 cp).
Proof.
  intros S H. unfold scalar in S. unfold encode_utf8, chr. replace (cp <? 128)%N with false by (symmetry; apply N.ltb_ge; exact H).
  destruct (cp <? 2048)%N eqn:E1; [|destruct (cp <? 65536)%N eqn:E2]; cbn [every]; rewrite !byte_chr; repeat split; try lia.
Qed.
Lemma encode_low cp : (cp < 128)%N -> encode_utf8 cp = str1 (ascii_of_N cp).
Proof. intros H. unfold encode_utf8, chr. apply N.ltb_lt in H. rewrite H. reflexivity. Qed.

Lemma escape_encode cp : scalar cp -> (32 <= cp)%N -> cp <> 34%N -> cp <> 92%N -> escape (encode_utf8 cp) = encode_utf8 cp.
Proof.
  intros S A B C. destruct (N.lt_ge_cases cp 128) as [L|G].
  - rewrite (encode_low cp L). cbn [str1 escape]. unfold escape_char. rewrite (byte_chr cp) by lia.
    assert (Q : Ascii.eqb (ascii_of_N cp) ch_quote = false).
    { apply Ascii.eqb_neq. intros E. apply (f_equal byte) in E. rewrite (byte_chr cp) in E by lia. apply B. rewrite E. reflexivity. }
    assert (W : Ascii.eqb (ascii_of_N cp) ch_bslash = false).
    { apply Ascii.eqb_neq. intros E. apply (f_equal byte) in E. rewrite (byte_chr cp) in E by lia. apply C. rewrite E. reflexivity. }
    rewrite Q, W. repeat match goal with |- context [(?x =? ?y)%N] => replace (x =? y)%N with false by (symmetry; apply N.eqb_neq; lia) end.
    replace (cp <=? 31)%N with false by (symmetry; apply N.leb_gt; lia). reflexivity.
  - apply escape_every, encode_high; assumption.
Qed.
Lemma encode_run ik acc k cp : scalar cp -> (32 <= cp)%N -> cp <> 34%N -> cp <> 92%N ->
  prun (encode_utf8 cp) (MStr ik acc SPlain, k) = (MStr ik (acc +++ encode_utf8 cp) SPlain, k).
Proof.
  intros S A B C. rewrite <- (escape_encode cp S A B C) at 1. change SPlain with (sub_of []) at 1.
  apply escape_run; [constructor|]. pose proof (utf8_ok_encode cp "" S) as E. rewrite sapp_nil_r in E. rewrite E. reflexivity.
Qed.

Lemma hex_iff c v : hex_val c = Some v <-> hex_digit_of c v.
Proof.
  unfold hex_val, hex_digit_of, brange. change (code c) with (byte c).
  destruct ((48 <=? byte c)%N && (byte c <=? 57)%N) eqn:A; [split; [intros [= <-]; lia|intros H; f_equal; lia]|].
  destruct ((97 <=? byte c)%N && (byte c <=? 102)%N) eqn:B; [split; [intros [= <-]; lia|intros H; f_equal; lia]|].
  destruct ((65 <=? byte c)%N && (byte c <=? 70)%N) eqn:C; [split; [intros [= <-]; lia|intros H; f_equal; lia]|].
  split; [discriminate|intros H; lia].
Qed.

(** The state after four hexadecimal digits. *)
Definition after_hex (ik : bool) (acc : string) (k : list frame) (v : N) (hi : option N) : pstate :=
  match hi with
  | None => if (55296 <=? v)%N && (v <=? 56319)%N then (MStr ik acc (SSur1 v), k)
            else if (56320 <=? v)%N && (v <=? 57343)%N then perr
            else (MStr ik (acc +++ utf8_encode v) SPlain, k)
  | Some h => if (56320 <=? v)%N && (v <=? 57343)%N
              then (MStr ik (acc +++ utf8_encode (65536 + (h - 55296) * 1024 + (v - 56320))) SPlain, k)
              else perr
  end.
Lemma hex4_run ik acc k h v hi : hex4 h v -> prun h (MStr ik acc (SHex 4 0 hi), k) = after_hex ik acc k v hi.
Proof.
  intros (a & b & c & d & va & vb & vc & vd & -> & A & B & C & D & E).
  apply hex_iff in A, B, C, D. cbn [prun pstep str_step]. rewrite A. cbn [pstep str_step]. rewrite B. cbn [pstep str_step]. rewrite C. cbn [pstep str_step]. rewrite D.
  replace ((((0 * 16 + va) * 16 + vb) * 16 + vc) * 16 + vd)%N with v by lia. reflexivity.
Qed.
Lemma hex4_read ik acc k hi s r : fin s (MStr ik acc (SHex 4 0 hi), k) = Some r ->
  exists h v s', s = h +++ s' /\ hex4 h v /\ fin s' (after_hex ik acc k v hi) = Some r.
Proof.
  intros F. destruct s as [|a s]; [discriminate|]. rewrite fin_cons in F. cbn [pstep str_step] in F.
  destruct (hex_val a) as [va|] eqn:A; [|rewrite fin_perr in F; discriminate].
  destruct s as [|b s]; [discriminate|]. rewrite fin_cons in F. cbn [pstep str_step] in F.
  destruct (hex_val b) as [vb|] eqn:B; [|rewrite fin_perr in F; discriminate].
  destruct s as [|c s]; [discriminate|]. rewrite fin_cons in F. cbn [pstep str_step] in F.
  destruct (hex_val c) as [vc|] eqn:C; [|rewrite fin_perr in F; discriminate].
  destruct s as [|d s]; [discriminate|]. rewrite fin_cons in F. cbn [pstep str_step] in F.
  destruct (hex_val d) as [vd|] eqn:D; [|rewrite fin_perr in F; discriminate].
  apply hex_iff in A, B, C, D.
  exists (String a (String b (String c (String d "")))), ((((0 * 16 + va) * 16 + vb) * 16 + vc) * 16 + vd)%N, s.
  split; [reflexivity|]. split; [|exact F].
  exists a, b, c, d, va, vb, vc, vd. repeat (split; [first [reflexivity|assumption]|]). lia.
Qed.

Lemma chars_run ik k w s : chars w s -> forall acc, prun w (MStr ik acc SPlain, k) = (MStr ik (acc +++ s) SPlain, k).
Proof.
  induction 1 as [|cp w s S A B C H IH|c x w s I H IH|h v w s X V H IH|h1 v1 h2 v2 w s X1 X2 V1 V2 H IH]; intros acc.
  - rewrite sapp_nil_r. reflexivity.
  - rewrite prun_app, (encode_run _ _ _ _ S A B C), IH, sapp_assoc. reflexivity.
  - cbn [prun]. change (String (ascii_of_N x) s) with (str1 (ascii_of_N x) +++ s). rewrite <- sapp_assoc, <- IH.
    f_equal. cbn in I. repeat destruct I as [I|I]; try (injection I as <- <-; reflexivity). destruct I.
  - change (prun ("\u" +++ h +++ w) (MStr ik acc SPlain, k)) with (prun (h +++ w) (MStr ik acc (SHex 4 0 None), k)).
    rewrite prun_app, (hex4_run _ _ _ _ _ _ X). unfold after_hex.
    replace ((55296 <=? v)%N && (v <=? 56319)%N) with false by lia. replace ((56320 <=? v)%N && (v <=? 57343)%N) with false by lia.
    rewrite IH, sapp_assoc. reflexivity.
  - change (prun ("\u" +++ h1 +++ "\u" +++ h2 +++ w) (MStr ik acc SPlain, k)) with (prun (h1 +++ "\u" +++ h2 +++ w) (MStr ik acc (SHex 4 0 None), k)).
    rewrite prun_app, (hex4_run _ _ _ _ _ _ X1). unfold after_hex.
    replace ((55296 <=? v1)%N && (v1 <=? 56319)%N) with true by lia.
    change (prun ("\u" +++ h2 +++ w) (MStr ik acc (SSur1 v1), k)) with (prun (h2 +++ w) (MStr ik acc (SHex 4 0 (Some v1)), k)).
    rewrite prun_app, (hex4_run _ _ _ _ _ _ X2). unfold after_hex.
    replace ((56320 <=? v2)%N && (v2 <=? 57343)%N) with true by lia.
    rewrite IH, sapp_assoc. reflexivity.
Qed.

(** The bytes of a character after its first one. *)
Lemma utf_read ik k s : forall p acc r, p <> [] -> fin s (MStr ik acc (SUtf p), k) = Some r ->
  exists body s', s = body +++ s' /\ String.length body <> 0 /\ (forall rest, utf8_ok p (body +++ rest) = utf8_ok [] rest) /\ fin s' (MStr ik (acc +++ body) SPlain, k) = Some r /\
    (high p -> every (fun c => (128 <= byte c)%N) body).
Proof.
  induction s as [|c s IH]; intros p acc r N F; [discriminate|]. destruct p as [|[lo hi] p]; [congruence|].
  rewrite fin_cons in F. cbn [pstep str_step] in F. destruct (brange lo hi c) eqn:R; [|rewrite fin_perr in F; discriminate].
  assert (G : high ((lo, hi) :: p) -> (128 <= byte c)%N).
  { intros Hh. inversion Hh as [|? ? H1 H2]; subst. cbn [fst] in H1. apply brange_spec in R. lia. }
  destruct p as [|q p].
  - exists (str1 c), s. split; [reflexivity|]. split; [cbn; lia|]. split; [intros rest; cbn [str1 append utf8_ok]; rewrite R; reflexivity|].
    split; [exact F|]. intros Hh. split; [exact (G Hh)|exact Logic.I].
  - destruct (IH (q :: p) _ _ ltac:(discriminate) F) as (body & s' & -> & L & U & F' & Hy).
    exists (String c body), s'. split; [reflexivity|]. split; [cbn; lia|].
    split; [intros rest; cbn [append]; rewrite utf8_ok_cons, R; exact (U rest)|].
    split; [rewrite <- F'; f_equal; f_equal; f_equal; rewrite sapp_assoc; reflexivity|].
    intros Hh. split; [exact (G Hh)|]. apply Hy. inversion Hh; assumption.
Qed.

Lemma chars_high cps : Forall scalar cps -> forall w s, every (fun c => (128 <= byte c)%N) (encode_all cps) -> chars w s ->
  chars (encode_all cps +++ w) (encode_all cps +++ s).
Proof.
  induction 1 as [|cp cps S F IH]; intros w s Hy H; [exact H|]. cbn [encode_all] in *. rewrite !sapp_assoc.
  apply every_app in Hy as [H1 H2].
  assert (G : (128 <= cp)%N).
  { destruct (N.lt_ge_cases cp 128) as [L|G]; [|exact G]. rewrite (encode_low cp L) in H1. destruct H1 as [H1 _]. rewrite byte_chr in H1 by lia. lia. }
  apply chars_plain; try assumption; try lia. exact (IH w s H2 H).
Qed.

Lemma chars_read n : forall s ik k acc r, String.length s <= n -> fin s (MStr ik acc SPlain, k) = Some r ->
  exists w m s', s = w +++ str1 ch_quote +++ s' /\ chars w m /\ fin s' (str_done ik (acc +++ m) k) = Some r.
Proof.
  induction n as [|n IH]; intros s ik k acc r L F; [destruct s; [discriminate|cbn in L; lia]|].
  destruct s as [|c s]; [discriminate|]. cbn [String.length] in L. rewrite fin_cons in F. cbn [pstep str_step] in F.
  destruct (Ascii.eqb c ch_quote) eqn:Q.
  { apply Ascii.eqb_eq in Q. subst c. exists "", "", s. split; [reflexivity|]. split; [constructor|]. rewrite sapp_nil_r. exact F. }
  destruct (Ascii.eqb c ch_bslash) eqn:W.
  { apply Ascii.eqb_eq in W. subst c. destruct s as [|c s]; [discriminate|]. cbn [String.length] in L. rewrite fin_cons in F. cbn [pstep str_step] in F.
    assert (Z : forall x, In (c, x) short_escapes -> fin s (MStr ik (acc +++ str1 (ascii_of_N x)) SPlain, k) = Some r ->
      exists w m s', String ch_bslash (String c s) = w +++ str1 ch_quote +++ s' /\ chars w m /\ fin s' (str_done ik (acc +++ m) k) = Some r).
    { intros x I G. destruct (IH s ik k _ r ltac:(lia) G) as (w & m & s' & -> & C & G').
      exists (String ch_bslash (String c w)), (String (ascii_of_N x) m), s'. split; [reflexivity|]. split; [exact (chars_short c x w m I C)|].
      rewrite <- G'. f_equal. f_equal. rewrite sapp_assoc. reflexivity. }
    destruct (Ascii.eqb c ch_quote) eqn:E1; [apply Ascii.eqb_eq in E1; subst c; apply (Z 34%N); [cbn; tauto|exact F]|].
    destruct (Ascii.eqb c ch_bslash) eqn:E2; [apply Ascii.eqb_eq in E2; subst c; apply (Z 92%N); [cbn; tauto|exact F]|].
    destruct (Ascii.eqb c "/") eqn:E3; [apply Ascii.eqb_eq in E3; subst c; apply (Z 47%N); [cbn; tauto|exact F]|].
    destruct (Ascii.eqb c "b") eqn:E4; [apply Ascii.eqb_eq in E4; subst c; apply (Z 8%N); [cbn; tauto|exact F]|].
    destruct (Ascii.eqb c "f") eqn:E5; [apply Ascii.eqb_eq in E5; subst c; apply (Z 12%N); [cbn; tauto|exact F]|].
    destruct (Ascii.eqb c "n") eqn:E6; [apply Ascii.eqb_eq in E6; subst c; apply (Z 10%N); [cbn; tauto|exact F]|].
    destruct (Ascii.eqb c "r") eqn:E7; [apply Ascii.eqb_eq in E7; subst c; apply (Z 13%N); [cbn; tauto|exact F]|].
    destruct (Ascii.eqb c "t") eqn:E8; [apply Ascii.eqb_eq in E8; subst c; apply (Z 9%N); [cbn; tauto|exact F]|].
    destruct (Ascii.eqb c "u") eqn:E9; [|rewrite fin_perr in F; discriminate]. apply Ascii.eqb_eq in E9. subst c. clear Z.
    destruct (hex4_read _ _ _ _ _ _ F) as (h & v & s1 & -> & X & F1). unfold after_hex in F1.
    assert (L1 : String.length s1 < n).
    { destruct X as (a & b & c & d & va & vb & vc & vd & -> & _). cbn [append String.length] in L. lia. }
    destruct ((55296 <=? v)%N && (v <=? 56319)%N) eqn:V1.
    - destruct s1 as [|c1 s1]; [discriminate|]. rewrite fin_cons in F1. cbn [pstep str_step] in F1.
      destruct (Ascii.eqb c1 ch_bslash) eqn:D1; [|rewrite fin_perr in F1; discriminate]. apply Ascii.eqb_eq in D1. subst c1.
      destruct s1 as [|c1 s1]; [discriminate|]. rewrite fin_cons in F1. cbn [pstep str_step] in F1.
      destruct (Ascii.eqb c1 "u") eqn:D1; [|rewrite fin_perr in F1; discriminate]. apply Ascii.eqb_eq in D1. subst c1.
      destruct (hex4_read _ _ _ _ _ _ F1) as (h2 & v2 & s2 & -> & X2 & F2). unfold after_hex in F2.
      assert (L2 : String.length s2 < n).
      { destruct X2 as (a & b & c & d & va & vb & vc & vd & -> & _). cbn [append String.length] in L1. lia. }
      destruct ((56320 <=? v2)%N && (v2 <=? 57343)%N) eqn:V2; [|rewrite fin_perr in F2; discriminate].
      destruct (IH s2 ik k _ r ltac:(lia) F2) as (w & m & s' & -> & C & G').
      exists ("\u" +++ h +++ "\u" +++ h2 +++ w), (encode_utf8 (65536 + (v - 55296) * 1024 + (v2 - 56320)) +++ m), s'.
      split; [cbn [append]; rewrite !sapp_assoc; cbn [append]; rewrite !sapp_assoc; reflexivity|].
      split; [apply chars_pair; try assumption; lia|]. rewrite <- G'. f_equal. f_equal. rewrite sapp_assoc. reflexivity.
    - destruct ((56320 <=? v)%N && (v <=? 57343)%N) eqn:V2; [rewrite fin_perr in F1; discriminate|].
      destruct (IH s1 ik k _ r ltac:(lia) F1) as (w & m & s' & -> & C & G').
      exists ("\u" +++ h +++ w), (encode_utf8 v +++ m), s'.
      split; [cbn [append]; rewrite !sapp_assoc; reflexivity|].
      split; [apply chars_hex; try assumption; lia|]. rewrite <- G'. f_equal. f_equal. rewrite sapp_assoc. reflexivity. }
  destruct (byte c <=? 31)%N eqn:Ct; [rewrite fin_perr in F; discriminate|].
  assert (NQ : byte c <> 34%N) by (intros E; apply Ascii.eqb_neq in Q; apply Q; rewrite <- (chr_byte c), E; reflexivity).
  assert (NB : byte c <> 92%N) by (intros E; apply Ascii.eqb_neq in W; apply W; rewrite <- (chr_byte c), E; reflexivity).
  destruct (utf8_lead c) as [[|q p]|] eqn:U; [| |rewrite fin_perr in F; discriminate].
  - assert (B : (byte c < 128)%N).
    { destruct (utf8_lead_cases c _ U) as [[_ B]|B]; [exact B|]. exfalso. intuition discriminate. }
    destruct (IH s ik k _ r ltac:(lia) F) as (w & m & s' & -> & C & G').
    assert (E : encode_utf8 (byte c) = str1 c) by (rewrite (encode_low _ B), chr_byte; reflexivity).
    exists (encode_utf8 (byte c) +++ w), (encode_utf8 (byte c) +++ m), s'. rewrite E. split; [reflexivity|].
    split; [rewrite <- E; apply chars_plain; try assumption; unfold scalar; lia|]. rewrite <- G'. f_equal. f_equal. rewrite sapp_assoc. reflexivity.
  - destruct (utf_read ik k s (q :: p) _ r ltac:(discriminate) F) as (body & s1 & -> & Lb & Ub & F1 & Hy).
    pose proof (utf8_lead_high c _ U) as Hh. specialize (Hy Hh).
    assert (V : utf8_ok [] (String c body) = true).
    { rewrite utf8_ok_nil, U. specialize (Ub ""). rewrite sapp_nil_r in Ub. exact Ub. }
    assert (B : (128 <= byte c)%N).
    { destruct (utf8_lead_cases c _ U) as [[B _]|B]; [discriminate|]. cbn zeta in B. lia. }
    assert (LL : String.length (body +++ s1) = String.length body + String.length s1) by (clear; induction body as [|x b IHb]; cbn [append String.length]; [reflexivity|rewrite IHb; reflexivity]).
    destruct (IH s1 ik k _ r ltac:(lia) F1) as (w & m & s' & -> & C & G').
    apply utf8_ok_iff in V as (cps & Fc & Ec).
    exists (String c body +++ w), (String c body +++ m), s'. split; [cbn [append]; rewrite sapp_assoc; reflexivity|].
    split; [rewrite Ec; apply chars_high; try assumption; rewrite <- Ec; split; assumption|].
    rewrite <- G'. f_equal. f_equal. cbn [append]. rewrite !sapp_assoc. reflexivity.
Qed.
