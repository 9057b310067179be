From Verif Require Import Prelude Model_Path Model_Json Model_Schema Spec_Json Proof_Prelude.
From Coq Require Import ZifyBool ZifyNat ZifyN.
Ltac Zify.zify_post_hook ::= Z.div_mod_to_equations.

(** * UTF-8 *)

Lemma byte_lt (c : ascii) : (byte c < 256)%N.
Proof. unfold byte. destruct c as [[] [] [] [] [] [] [] []]; vm_compute; reflexivity. Qed.

Lemma byte_chr (n : N) : (n < 256)%N -> byte (ascii_of_N n) = n.
Proof. intros H. unfold byte. apply N_ascii_embedding. exact H. Qed.

Lemma chr_byte (c : ascii) : ascii_of_N (byte c) = c.
Proof. apply ascii_N_embedding. Qed.

Lemma brange_spec (lo hi : N) (c : ascii) : brange lo hi c = true <-> (lo <= byte c <= hi)%N.
Proof. unfold brange. rewrite andb_true_iff, !N.leb_le. tauto. Qed.

Lemma brange_false (lo hi : N) (c : ascii) : brange lo hi c = false <-> ~ (lo <= byte c <= hi)%N.
Proof. rewrite <- brange_spec. destruct (brange lo hi c); intuition congruence. Qed.

(** What [utf8_lead] accepts, as a decoded first byte. *)
Lemma utf8_lead_cases (c : ascii) (p : list (N * N)) : utf8_lead c = Some p ->
  let b := byte c in
  (p = [] /\ b < 128 \/
   p = [cont] /\ 194 <= b <= 223 \/
   p = [(160, 191); cont] /\ b = 224 \/
   p = [cont; cont] /\ (225 <= b <= 236 \/ 238 <= b <= 239) \/
   p = [(128, 159); cont] /\ b = 237 \/
   p = [(144, 191); cont; cont] /\ b = 240 \/
   p = [cont; cont; cont] /\ 241 <= b <= 243 \/
   p = [(128, 143); cont; cont] /\ b = 244)%N.
Proof.
  cbv zeta. unfold utf8_lead.
  destruct (brange 0 127 c) eqn:E0; [apply brange_spec in E0; intros [= <-]; left; split; [reflexivity|lia]|].
  destruct (brange 194 223 c) eqn:E1; [apply brange_spec in E1; intros [= <-]; right; left; split; [reflexivity|lia]|].
  destruct (brange 224 224 c) eqn:E2; [apply brange_spec in E2; intros [= <-]; do 2 right; left; split; [reflexivity|lia]|].
  destruct (brange 225 236 c) eqn:E3; [apply brange_spec in E3; intros [= <-]; do 3 right; left; split; [reflexivity|lia]|].
  destruct (brange 237 237 c) eqn:E4; [apply brange_spec in E4; intros [= <-]; do 4 right; left; split; [reflexivity|lia]|].
  destruct (brange 238 239 c) eqn:E5; [apply brange_spec in E5; intros [= <-]; do 3 right; left; split; [reflexivity|lia]|].
  destruct (brange 240 240 c) eqn:E6; [apply brange_spec in E6; intros [= <-]; do 5 right; left; split; [reflexivity|lia]|].
  destruct (brange 241 243 c) eqn:E7; [apply brange_spec in E7; intros [= <-]; do 6 right; left; split; [reflexivity|lia]|].
  destruct (brange 244 244 c) eqn:E8; [apply brange_spec in E8; intros [= <-]; do 7 right; split; [reflexivity|lia]|].
  discriminate.
Qed.

Lemma chr_eq (c : ascii) (n : N) : byte c = n -> chr n = c.
Proof. intros <-. apply chr_byte. Qed.

Lemma encode2 (c1 c2 : ascii) (b1 b2 : N) :
  b1 = byte c1 -> b2 = byte c2 -> (194 <= b1 <= 223)%N -> (128 <= b2 <= 191)%N ->
  exists cp, scalar cp /\ encode_utf8 cp = String c1 (String c2 "").
Proof.
  intros E1 E2 H1 H2. exists ((b1 - 192) * 64 + (b2 - 128))%N. split; [unfold scalar; lia|].
  unfold encode_utf8.
  replace (_ <? 128)%N with false by (symmetry; apply N.ltb_ge; lia).
  replace (_ <? 2048)%N with true by (symmetry; apply N.ltb_lt; lia).
  f_equal; [apply chr_eq; lia|]. f_equal. apply chr_eq. lia.
Qed.

Lemma encode3 (c1 c2 c3 : ascii) (b1 b2 b3 : N) :
  b1 = byte c1 -> b2 = byte c2 -> b3 = byte c3 ->
  (224 <= b1 <= 239)%N -> (128 <= b2 <= 191)%N -> (128 <= b3 <= 191)%N ->
  (b1 = 224 -> 160 <= b2)%N -> (b1 = 237 -> b2 <= 159)%N ->
  exists cp, scalar cp /\ encode_utf8 cp = String c1 (String c2 (String c3 "")).
Proof.
  intros E1 E2 E3 H1 H2 H3 Ha Hb.
  exists ((b1 - 224) * 4096 + (b2 - 128) * 64 + (b3 - 128))%N. split; [unfold scalar; lia|].
  unfold encode_utf8.
  replace (_ <? 128)%N with false by (symmetry; apply N.ltb_ge; lia).
  replace (_ <? 2048)%N with false by (symmetry; apply N.ltb_ge; lia).
  replace (_ <? 65536)%N with true by (symmetry; apply N.ltb_lt; lia).
  f_equal; [apply chr_eq; lia|]. f_equal; [apply chr_eq; lia|]. f_equal. apply chr_eq. lia.
Qed.

Lemma encode4 (c1 c2 c3 c4 : ascii) (b1 b2 b3 b4 : N) :
  b1 = byte c1 -> b2 = byte c2 -> b3 = byte c3 -> b4 = byte c4 ->
  (240 <= b1 <= 244)%N -> (128 <= b2 <= 191)%N -> (128 <= b3 <= 191)%N -> (128 <= b4 <= 191)%N ->
  (b1 = 240 -> 144 <= b2)%N -> (b1 = 244 -> b2 <= 143)%N ->
  exists cp, scalar cp /\ encode_utf8 cp = String c1 (String c2 (String c3 (String c4 ""))).
Proof.
  intros E1 E2 E3 E4 H1 H2 H3 H4 Ha Hb.
  exists ((b1 - 240) * 262144 + (b2 - 128) * 4096 + (b3 - 128) * 64 + (b4 - 128))%N.
  split; [unfold scalar; lia|].
  unfold encode_utf8.
  replace (_ <? 128)%N with false by (symmetry; apply N.ltb_ge; lia).
  replace (_ <? 2048)%N with false by (symmetry; apply N.ltb_ge; lia).
  replace (_ <? 65536)%N with false by (symmetry; apply N.ltb_ge; lia).
  f_equal; [apply chr_eq; lia|]. f_equal; [apply chr_eq; lia|]. f_equal; [apply chr_eq; lia|].
  f_equal. apply chr_eq. lia.
Qed.

Lemma utf8_ok_cons (c : ascii) (r : string) (lo hi : N) (p : list (N * N)) :
  utf8_ok ((lo, hi) :: p) (String c r) = brange lo hi c && utf8_ok p r.
Proof. reflexivity. Qed.

Lemma utf8_ok_nil (c : ascii) (r : string) :
  utf8_ok [] (String c r) = match utf8_lead c with Some p => utf8_ok p r | None => false end.
Proof. reflexivity. Qed.

Lemma utf8_ok_sound_len (n : nat) : forall s, String.length s <= n -> utf8_ok [] s = true -> valid_utf8 s.
Proof.
  induction n as [|n IH]; intros s Hn H.
  - destruct s; [|simpl in Hn; lia]. exists []. split; [constructor|reflexivity].
  - destruct s as [|c1 s]; [exists []; split; [constructor|reflexivity]|].
    cbn [utf8_ok] in H. destruct (utf8_lead c1) as [p|] eqn:El; [|discriminate].
    assert (Hfin : forall pre rest, (exists cp, scalar cp /\ encode_utf8 cp = pre) ->
              String.length rest <= n -> utf8_ok [] rest = true -> valid_utf8 (pre +++ rest)).
    { intros pre rest (cp & Hcp & Henc) Hlen Hok. destruct (IH rest Hlen Hok) as (cps & Hcps & ->).
      exists (cp :: cps). split; [constructor; assumption|]. cbn [encode_all]. rewrite Henc. reflexivity. }
    simpl in Hn.
    destruct (utf8_lead_cases c1 p El) as [[-> Hb]|[[-> Hb]|[[-> Hb]|[[-> Hb]|[[-> Hb]|[[-> Hb]|[[-> Hb]|[-> Hb]]]]]]]];
      repeat match goal with
      | H : utf8_ok (?x :: ?p) ?s = true |- _ =>
          destruct s as [|?c ?s]; [discriminate|]; unfold cont in H; rewrite utf8_ok_cons in H;
          apply andb_true_iff in H; destruct H as [?Hr H]
      end;
      repeat match goal with H : brange _ _ _ = true |- _ => apply brange_spec in H end.
    + apply (Hfin (String c1 "") s); [|lia|exact H]. exists (byte c1). split; [unfold scalar; lia|].
      unfold encode_utf8. replace (_ <? 128)%N with true by (symmetry; apply N.ltb_lt; lia).
      f_equal. apply chr_byte.
    + apply (Hfin (String c1 (String c "")) s); [|simpl in Hn; lia|exact H].
      eapply encode2; [reflexivity|reflexivity|lia..].
    + apply (Hfin (String c1 (String c (String c0 ""))) s); [|simpl in Hn; lia|exact H].
      eapply encode3; [reflexivity|reflexivity|reflexivity|lia..].
    + apply (Hfin (String c1 (String c (String c0 ""))) s); [|simpl in Hn; lia|exact H].
      eapply encode3; [reflexivity|reflexivity|reflexivity|lia..].
    + apply (Hfin (String c1 (String c (String c0 ""))) s); [|simpl in Hn; lia|exact H].
      eapply encode3; [reflexivity|reflexivity|reflexivity|lia..].
    + apply (Hfin (String c1 (String c (String c0 (String c2 "")))) s); [|simpl in Hn; lia|exact H].
      eapply encode4; [reflexivity|reflexivity|reflexivity|reflexivity|lia..].
    + apply (Hfin (String c1 (String c (String c0 (String c2 "")))) s); [|simpl in Hn; lia|exact H].
      eapply encode4; [reflexivity|reflexivity|reflexivity|reflexivity|lia..].
    + apply (Hfin (String c1 (String c (String c0 (String c2 "")))) s); [|simpl in Hn; lia|exact H].
      eapply encode4; [reflexivity|reflexivity|reflexivity|reflexivity|lia..].
Qed.

Ltac brange_yes := unfold cont; apply brange_spec; rewrite byte_chr by lia; lia.

Lemma utf8_ok_encode (cp : N) (rest : string) :
  scalar cp -> utf8_ok [] (encode_utf8 cp +++ rest) = utf8_ok [] rest.
Proof.
  intros H. unfold scalar in H. unfold encode_utf8, chr.
  destruct (N.ltb_spec cp 128) as [H1|H1].
  { cbn [append]. rewrite utf8_ok_nil. unfold utf8_lead.
    replace (brange 0 127 (ascii_of_N cp)) with true by (symmetry; brange_yes). reflexivity. }
  assert (Hlead : forall n, (n < 256)%N -> utf8_lead (ascii_of_N n) =
     if (n <=? 127)%N then Some []
     else if (194 <=? n)%N && (n <=? 223)%N then Some [cont]
     else if (224 =? n)%N then Some [(160, 191)%N; cont]
     else if (225 <=? n)%N && (n <=? 236)%N then Some [cont; cont]
     else if (237 =? n)%N then Some [(128, 159)%N; cont]
     else if (238 <=? n)%N && (n <=? 239)%N then Some [cont; cont]
     else if (240 =? n)%N then Some [(144, 191)%N; cont; cont]
     else if (241 <=? n)%N && (n <=? 243)%N then Some [cont; cont; cont]
     else if (244 =? n)%N then Some [(128, 143)%N; cont; cont]
     else None).
  { intros n Hn. unfold utf8_lead, brange. rewrite byte_chr by exact Hn.
    replace (0 <=? n)%N with true by (symmetry; apply N.leb_le; lia). cbn [andb].
    replace ((224 <=? n)%N && (n <=? 224)%N) with (224 =? n)%N by lia.
    replace ((237 <=? n)%N && (n <=? 237)%N) with (237 =? n)%N by lia.
    replace ((240 <=? n)%N && (n <=? 240)%N) with (240 =? n)%N by lia.
    replace ((244 <=? n)%N && (n <=? 244)%N) with (244 =? n)%N by lia. reflexivity. }
  assert (Hcont : forall n, (n < 64)%N -> brange 128 191 (ascii_of_N (128 + n)) = true).
  { intros n Hn. brange_yes. }
  destruct (N.ltb_spec cp 2048) as [H2|H2].
  { cbn [append]. rewrite utf8_ok_nil. rewrite Hlead by lia.
    replace (192 + cp / 64 <=? 127)%N with false by lia.
    replace ((194 <=? 192 + cp / 64)%N && (192 + cp / 64 <=? 223)%N) with true by lia.
    unfold cont at 1. rewrite utf8_ok_cons, Hcont by lia. reflexivity. }
  destruct (N.ltb_spec cp 65536) as [H3|H3].
  { cbn [append]. set (b := (224 + cp / 4096)%N).
    assert (Hb : (224 <= b <= 239)%N) by (unfold b; lia).
    assert (Hb1 : (b = 224 -> 32 <= cp / 64 mod 64)%N) by (unfold b; lia).
    assert (Hb2 : (b = 237 -> cp / 64 mod 64 <= 31)%N) by (unfold b; lia).
    set (m := (cp / 64 mod 64)%N) in *. assert (Hm : (m < 64)%N) by (unfold m; lia).
    set (l := (cp mod 64)%N). assert (Hl : (l < 64)%N) by (unfold l; lia).
    clearbody b m l.
    rewrite utf8_ok_nil. rewrite Hlead by lia.
    replace (b <=? 127)%N with false by lia.
    replace ((194 <=? b)%N && (b <=? 223)%N) with false by lia.
    destruct (N.eqb_spec 224 b) as [E|E].
    { rewrite utf8_ok_cons. unfold cont. rewrite utf8_ok_cons, (Hcont l) by lia.
      replace (brange 160 191 _) with true by (symmetry; brange_yes). reflexivity. }
    destruct ((225 <=? b)%N && (b <=? 236)%N) eqn:E1.
    { unfold cont. rewrite !utf8_ok_cons, !Hcont by lia. reflexivity. }
    destruct (N.eqb_spec 237 b) as [E2|E2].
    { rewrite utf8_ok_cons. unfold cont. rewrite utf8_ok_cons, (Hcont l) by lia.
      replace (brange 128 159 _) with true by (symmetry; brange_yes). reflexivity. }
    replace ((238 <=? b)%N && (b <=? 239)%N) with true by lia.
    unfold cont. rewrite !utf8_ok_cons, !Hcont by lia. reflexivity. }
  { cbn [append]. set (b := (240 + cp / 262144)%N).
    assert (Hb : (240 <= b <= 244)%N) by (unfold b; lia).
    assert (Hb1 : (b = 240 -> 16 <= cp / 4096 mod 64)%N) by (unfold b; lia).
    assert (Hb2 : (b = 244 -> cp / 4096 mod 64 <= 15)%N) by (unfold b; lia).
    set (m := (cp / 4096 mod 64)%N) in *. assert (Hm : (m < 64)%N) by (unfold m; lia).
    set (l := (cp / 64 mod 64)%N). assert (Hl : (l < 64)%N) by (unfold l; lia).
    set (q := (cp mod 64)%N). assert (Hq : (q < 64)%N) by (unfold q; lia).
    clearbody b m l q.
    rewrite utf8_ok_nil. rewrite Hlead by lia.
    replace (b <=? 127)%N with false by lia.
    replace ((194 <=? b)%N && (b <=? 223)%N) with false by lia.
    replace (224 =? b)%N with false by lia.
    replace ((225 <=? b)%N && (b <=? 236)%N) with false by lia.
    replace (237 =? b)%N with false by lia.
    replace ((238 <=? b)%N && (b <=? 239)%N) with false by lia.
    destruct (N.eqb_spec 240 b) as [E|E].
    { rewrite utf8_ok_cons. unfold cont. rewrite !utf8_ok_cons, (Hcont l), (Hcont q) by lia.
      replace (brange 144 191 _) with true by (symmetry; brange_yes). reflexivity. }
    destruct ((241 <=? b)%N && (b <=? 243)%N) eqn:E1.
    { unfold cont. rewrite !utf8_ok_cons, !Hcont by lia. reflexivity. }
    replace (244 =? b)%N with true by lia.
    rewrite utf8_ok_cons. unfold cont. rewrite !utf8_ok_cons, (Hcont l), (Hcont q) by lia.
    replace (brange 128 143 _) with true by (symmetry; brange_yes). reflexivity. }
Qed.

Lemma utf8_ok_iff (s : string) : utf8_ok [] s = true <-> valid_utf8 s.
Proof.
  split; [apply (utf8_ok_sound_len (String.length s)); lia|].
  intros (cps & H & ->). induction H as [|cp cps Hcp H IH]; [reflexivity|].
  cbn [encode_all]. rewrite utf8_ok_encode by exact Hcp. exact IH.
Qed.
