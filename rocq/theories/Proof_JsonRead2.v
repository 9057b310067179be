(** The parser accepts exactly the texts of the grammar: numbers. *)
From Verif Require Import Prelude Model_Json Spec_Json Proof_Prelude Proof_Json Proof_Dec Proof_JsonText Spec_JsonText Proof_JsonRead.
From Coq Require Import ZifyBool ZifyNat ZifyN.

Lemma dec_iff c : is_dec c = true <-> decimal c.
Proof. unfold is_dec, decimal. rewrite brange_spec. reflexivity. Qed.
Lemma zero_code c : Ascii.eqb c "0" = true <-> code c = 48%N.
Proof.
  rewrite Ascii.eqb_eq. split; [intros ->; reflexivity|]. intros E. rewrite <- (chr_byte c). change (byte c) with (code c). rewrite E. reflexivity.
Qed.

Lemma number_of_dec s : forall acc, number_of s acc = dec_value s acc.
Proof.
  induction s as [|c s IH]; intros acc; [reflexivity|]. cbn [number_of dec_value]. rewrite IH. f_equal. unfold code, byte. lia.
Qed.
Lemma decimal_minus c : decimal c -> Ascii.eqb c "-" = false.
Proof. intros D. apply Ascii.eqb_neq. intros ->. destruct D as [D _]. vm_compute in D. congruence. Qed.
Lemma natural_decimal n : natural n -> exists c r, n = String c r /\ decimal c /\ every decimal r.
Proof.
  intros [->|(c & r & -> & C & R)].
  - exists "0"%char, "". repeat split; vm_compute; discriminate.
  - exists c, r. split; [reflexivity|]. split; [unfold decimal; lia|exact R].
Qed.
Lemma int_value_of g n : sign g -> natural n -> int_value (g +++ n) = integer_of g n.
Proof.
  intros [->| ->] H.
  - destruct (natural_decimal n H) as (c & r & -> & C & _). cbn [append]. unfold int_value. rewrite (decimal_minus c C).
    unfold integer_of. cbn [String.eqb]. rewrite number_of_dec. reflexivity.
  - cbn [append]. unfold int_value, integer_of. cbn [Ascii.eqb String.eqb Bool.eqb]. rewrite number_of_dec. reflexivity.
Qed.
Lemma fits_iff z : int_fits z = true <-> fits64 z.
Proof. unfold int_fits, fits64. change (2 ^ 63)%Z with 9223372036854775808%Z. change (2 ^ 64)%Z with 18446744073709551616%Z. lia. Qed.
Lemma whole_number g n : sign g -> natural n -> number (g +++ n) (if int_fits (int_value (g +++ n)) then JInt (int_value (g +++ n)) else JReal (g +++ n)).
Proof.
  intros G H. rewrite (int_value_of g n G H). destruct (int_fits (integer_of g n)) eqn:F.
  - apply number_integer; try assumption. apply fits_iff, F.
  - apply number_large; try assumption. rewrite <- fits_iff. congruence.
Qed.

(** What has been read in each state. *)
Definition nonzero (s : string) : Prop := exists c r, s = String c r /\ (49 <= code c <= 57)%N /\ every decimal r.
Definition lex (ns : numst) (a : string) : Prop :=
  match ns with
  | NMinus => a = "-"
  | NZero => exists g, sign g /\ a = g +++ "0"
  | NInt => exists g n, sign g /\ nonzero n /\ a = g +++ n
  | NDot => exists g n, sign g /\ natural n /\ a = g +++ n +++ "."
  | NFrac => exists g n r, sign g /\ natural n /\ decimals r /\ a = g +++ n +++ "." +++ r
  | NExp => exists g n f e, sign g /\ natural n /\ fraction f /\ In e ["e"; "E"] /\ a = g +++ n +++ f +++ e
  | NExpSign => exists g n f e h, sign g /\ natural n /\ fraction f /\ In e ["e"; "E"] /\ In h ["+"; "-"] /\ a = g +++ n +++ f +++ e +++ h
  | NExpInt => exists g n f e h r, sign g /\ natural n /\ fraction f /\ In e ["e"; "E"] /\ In h [""; "+"; "-"] /\ decimals r /\ a = g +++ n +++ f +++ e +++ h +++ r
  end.

Lemma decimals_one c : decimal c -> decimals (str1 c).
Proof. intros D. split; [discriminate|split; [exact D|exact Logic.I]]. Qed.
Lemma decimals_snoc r c : decimals r -> decimal c -> decimals (r +++ str1 c).
Proof.
  intros [N E] D. split; [destruct r; [congruence|discriminate]|]. apply every_app. split; [exact E|split; [exact D|exact Logic.I]].
Qed.
Lemma letter_e c : Ascii.eqb c "e" || Ascii.eqb c "E" = true -> In (str1 c) ["e"; "E"].
Proof. intros H. apply orb_true_iff in H as [H|H]; apply Ascii.eqb_eq in H; subst c; cbn; tauto. Qed.
Lemma sign_of c : Ascii.eqb c "+" || Ascii.eqb c "-" = true -> In (str1 c) ["+"; "-"].
Proof. intros H. apply orb_true_iff in H as [H|H]; apply Ascii.eqb_eq in H; subst c; cbn; tauto. Qed.
Lemma nonzero_natural n : nonzero n -> natural n.
Proof. intros H. right. exact H. Qed.

Ltac apps := rewrite ?sapp_assoc; cbn [append]; rewrite ?sapp_assoc; reflexivity.

Lemma lex_step ns a c ns' : lex ns a -> num_step ns c = Some ns' -> lex ns' (a +++ str1 c).
Proof.
  destruct ns; cbn [lex num_step].
  - intros ->. destruct (Ascii.eqb c "0") eqn:Z; [intros [= <-]|destruct (is_dec c) eqn:D; [intros [= <-]|discriminate]].
    + apply Ascii.eqb_eq in Z. subst c. exists "-". split; [right; reflexivity|reflexivity].
    + exists "-", (str1 c). split; [right; reflexivity|]. split; [|reflexivity]. exists c, "". split; [reflexivity|]. split; [|exact Logic.I].
      apply dec_iff in D. unfold decimal in D. assert (code c <> 48%N) by (rewrite <- zero_code; congruence). lia.
  - intros (g & G & ->). destruct (Ascii.eqb c ".") eqn:P; [intros [= <-]|].
    + apply Ascii.eqb_eq in P. subst c. exists g, "0". split; [exact G|]. split; [left; reflexivity|]. apps.
    + destruct (Ascii.eqb c "e" || Ascii.eqb c "E") eqn:X; [intros [= <-]|discriminate].
      exists g, "0", "", (str1 c). split; [exact G|]. split; [left; reflexivity|]. split; [left; reflexivity|]. split; [exact (letter_e c X)|]. apps.
  - intros (g & n & G & H & ->). destruct (is_dec c) eqn:D; [intros [= <-]|destruct (Ascii.eqb c ".") eqn:P; [intros [= <-]|]].
    + exists g, (n +++ str1 c). split; [exact G|]. split; [|apps]. destruct H as (x & r & -> & X & R).
      exists x, (r +++ str1 c). split; [reflexivity|]. split; [exact X|]. apply every_app. split; [exact R|]. split; [apply dec_iff, D|exact Logic.I].
    + apply Ascii.eqb_eq in P. subst c. exists g, n. split; [exact G|]. split; [exact (nonzero_natural n H)|]. apps.
    + destruct (Ascii.eqb c "e" || Ascii.eqb c "E") eqn:X; [intros [= <-]|discriminate].
      exists g, n, "", (str1 c). split; [exact G|]. split; [exact (nonzero_natural n H)|]. split; [left; reflexivity|]. split; [exact (letter_e c X)|]. apps.
  - intros (g & n & G & H & ->). destruct (is_dec c) eqn:D; [intros [= <-]|discriminate].
    exists g, n, (str1 c). split; [exact G|]. split; [exact H|]. split; [apply decimals_one, dec_iff, D|]. apps.
  - intros (g & n & r & G & H & R & ->). destruct (is_dec c) eqn:D; [intros [= <-]|].
    + exists g, n, (r +++ str1 c). split; [exact G|]. split; [exact H|]. split; [apply decimals_snoc; [exact R|apply dec_iff, D]|]. apps.
    + destruct (Ascii.eqb c "e" || Ascii.eqb c "E") eqn:X; [intros [= <-]|discriminate].
      exists g, n, ("." +++ r), (str1 c). split; [exact G|]. split; [exact H|]. split; [right; exists r; split; [reflexivity|exact R]|]. split; [exact (letter_e c X)|]. apps.
  - intros (g & n & f & e & G & H & F & E & ->). destruct (is_dec c) eqn:D; [intros [= <-]|].
    + exists g, n, f, e, "", (str1 c). split; [exact G|]. split; [exact H|]. split; [exact F|]. split; [exact E|]. split; [cbn; tauto|]. split; [apply decimals_one, dec_iff, D|]. apps.
    + destruct (Ascii.eqb c "+" || Ascii.eqb c "-") eqn:X; [intros [= <-]|discriminate].
      exists g, n, f, e, (str1 c). split; [exact G|]. split; [exact H|]. split; [exact F|]. split; [exact E|]. split; [exact (sign_of c X)|]. apps.
  - intros (g & n & f & e & h & G & H & F & E & S & ->). destruct (is_dec c) eqn:D; [intros [= <-]|discriminate].
    exists g, n, f, e, h, (str1 c). split; [exact G|]. split; [exact H|]. split; [exact F|]. split; [exact E|]. split; [right; exact S|]. split; [apply decimals_one, dec_iff, D|]. apps.
  - intros (g & n & f & e & h & r & G & H & F & E & S & R & ->). destruct (is_dec c) eqn:D; [intros [= <-]|discriminate].
    exists g, n, f, e, h, (r +++ str1 c). split; [exact G|]. split; [exact H|]. split; [exact F|]. split; [exact E|]. split; [exact S|].
    split; [apply decimals_snoc; [exact R|apply dec_iff, D]|]. apps.
Qed.

Lemma lex_value ns a v : lex ns a -> num_value ns a = Some v -> number a v.
Proof.
  destruct ns; cbn [lex num_value]; try discriminate.
  - intros (g & G & ->) [= <-]. apply whole_number; [exact G|left; reflexivity].
  - intros (g & n & G & H & ->) [= <-]. apply whole_number; [exact G|exact (nonzero_natural n H)].
  - intros (g & n & r & G & H & R & ->) [= <-].
    pose proof (number_real g n ("." +++ r) "" G H (or_intror (ex_intro _ r (conj eq_refl R))) (or_introl eq_refl)) as K.
    rewrite sapp_nil_r in K. apply K. discriminate.
  - intros (g & n & f & e & h & r & G & H & F & E & S & R & ->) [= <-].
    apply (number_real g n f (e +++ h +++ r)); try assumption.
    + right. exists e, h, r. split; [reflexivity|]. split; [exact E|]. split; [exact S|exact R].
    + destruct f; [|discriminate]. destruct E as [<-|[<-|[]]]; discriminate.
Qed.

(** A number has been read when something else follows. *)
Lemma number_read s : forall ns a k r, lex ns a -> fin s (MNum ns a, k) = Some r ->
  exists w v rest, s = w +++ rest /\ number (a +++ w) v /\ fin rest (deliver v k) = Some r.
Proof.
  induction s as [|c s IH]; intros ns a k r L F.
  - destruct k; [|discriminate]. unfold fin in F. cbn [prun pfinish] in F.
    exists "", r, "". rewrite (sapp_nil_r a). split; [reflexivity|]. split; [exact (lex_value _ _ _ L F)|reflexivity].
  - rewrite fin_cons in F. cbn [pstep] in F. destruct (num_step ns c) as [ns'|] eqn:S.
    + destruct (IH _ _ _ _ (lex_step _ _ _ _ L S) F) as (w & v & rest & -> & H & F').
      exists (String c w), v, rest. split; [reflexivity|]. split; [|exact F']. rewrite sapp_assoc in H. exact H.
    + destruct (num_value ns a) as [v|] eqn:V; [|rewrite fin_perr in F; discriminate].
      exists "", v, (String c s). rewrite (sapp_nil_r a). split; [reflexivity|]. split; [exact (lex_value _ _ _ L V)|].
      rewrite fin_cons. rewrite <- F. f_equal. destruct k as [|[]]; reflexivity.
Qed.

(** ** The other way round *)
Lemma digits_run ns k r : (ns = NInt \/ ns = NFrac \/ ns = NExpInt) -> every decimal r -> forall a, prun r (MNum ns a, k) = (MNum ns (a +++ r), k).
Proof.
  intros N. induction r as [|c r IH]; intros D a; [rewrite sapp_nil_r; reflexivity|]. destruct D as [D R]. apply dec_iff in D.
  cbn [prun pstep]. replace (num_step ns c) with (Some ns) by (destruct N as [->|[->| ->]]; cbn [num_step]; rewrite D; reflexivity).
  rewrite (IH R), sapp_assoc. reflexivity.
Qed.
Lemma decimals_run ns ns' k r : num_step ns = num_step NDot \/ num_step ns = num_step NExpSign \/ num_step ns = num_step NExp ->
  (forall c, is_dec c = true -> num_step ns c = Some ns') -> (ns' = NInt \/ ns' = NFrac \/ ns' = NExpInt) -> decimals r ->
  forall a, prun r (MNum ns a, k) = (MNum ns' (a +++ r), k).
Proof.
  intros _ S N [Ne D] a. destruct r as [|c r]; [congruence|]. destruct D as [D R]. apply dec_iff in D.
  cbn [prun pstep]. rewrite (S c D), (digits_run _ _ _ N R), sapp_assoc. reflexivity.
Qed.

Definition num_start (m : mode) : Prop := m = MVal \/ m = MArr0.
Lemma start_mode m k c : num_start m -> is_ws c = false -> Ascii.eqb c "]" = false -> pstep (m, k) c = start_value c k.
Proof. intros [->| ->] W B; cbn [pstep]; rewrite W; [reflexivity|rewrite B; reflexivity]. Qed.

Definition whole_state (n : string) : numst := if String.eqb n "0" then NZero else NInt.
Lemma natural_run m k g n : num_start m -> sign g -> natural n -> prun (g +++ n) (m, k) = (MNum (whole_state n) (g +++ n), k).
Proof.
  intros M G H.
  assert (NZ : forall c r, (49 <= code c <= 57)%N -> String.eqb (String c r) "0" = false).
  { intros c r C. apply String.eqb_neq. intros E. injection E as E _. apply (f_equal code) in E. change (code "0") with 48%N in E. lia. }
  assert (C0 : forall c, (49 <= code c <= 57)%N -> Ascii.eqb c "0" = false).
  { intros c C. destruct (Ascii.eqb c "0") eqn:Z; [|reflexivity]. apply zero_code in Z. lia. }
  destruct G as [->| ->].
  - cbn [append]. destruct H as [->|(c & r & -> & C & R)].
    + cbn [prun]. rewrite (start_mode m k "0" M) by reflexivity. reflexivity.
    + assert (D : is_dec c = true) by (apply dec_iff; unfold decimal; lia).
      destruct (digit_not_ws c D) as (W & _ & B). cbn [prun]. rewrite (start_mode m k c M W B).
      rewrite (start_digit c k D) by (intros E; specialize (C0 c C); rewrite E in C0; discriminate).
      unfold whole_state. rewrite (NZ c r C). apply (digits_run NInt); [left; reflexivity|exact R].
  - cbn [append prun]. rewrite (start_mode m k "-" M) by reflexivity. change (start_value "-" k) with (MNum NMinus "-", k).
    destruct H as [->|(c & r & -> & C & R)]; [reflexivity|].
    assert (D : is_dec c = true) by (apply dec_iff; unfold decimal; lia).
    cbn [prun pstep num_step]. rewrite (C0 c C), D. unfold whole_state. rewrite (NZ c r C).
    apply (digits_run NInt); [left; reflexivity|exact R].
Qed.

Lemma fraction_run k g n f : natural n -> fraction f -> f <> "" ->
  prun f (MNum (whole_state n) (g +++ n), k) = (MNum NFrac (g +++ n +++ f), k).
Proof.
  intros H [->|(r & -> & R)] Ne; [congruence|]. cbn [append prun pstep].
  replace (num_step (whole_state n) ".") with (Some NDot) by (unfold whole_state; destruct (String.eqb n "0"); reflexivity).
  rewrite (decimals_run NDot NFrac); [|left; reflexivity|intros c D; cbn [num_step]; rewrite D; reflexivity|right; left; reflexivity|exact R].
  f_equal. f_equal. apps.
Qed.

Lemma exponent_run ns k a e : (forall c, Ascii.eqb c "e" || Ascii.eqb c "E" = true -> num_step ns c = Some NExp) -> exponent e -> e <> "" ->
  prun e (MNum ns a, k) = (MNum NExpInt (a +++ e), k).
Proof.
  intros S [->|(x & h & r & -> & X & Hh & R)] Ne; [congruence|].
  assert (Z : exists c, x = str1 c /\ Ascii.eqb c "e" || Ascii.eqb c "E" = true).
  { destruct X as [<-|[<-|[]]]; eexists; (split; [reflexivity|reflexivity]). }
  destruct Z as (c & -> & C). cbn [str1 append prun pstep]. rewrite (S c C).
  destruct Hh as [<-|[<-|[<-|[]]]]; cbn [append prun].
  - rewrite (decimals_run NExp NExpInt); [|right; right; reflexivity|intros d D; cbn [num_step]; rewrite D; reflexivity|right; right; reflexivity|exact R].
    f_equal. f_equal. apps.
  - change (pstep (MNum NExp (a +++ str1 c), k) "+") with (MNum NExpSign ((a +++ str1 c) +++ "+"), k).
    rewrite (decimals_run NExpSign NExpInt); [|right; left; reflexivity|intros d D; cbn [num_step]; rewrite D; reflexivity|right; right; reflexivity|exact R].
    f_equal. f_equal. apps.
  - change (pstep (MNum NExp (a +++ str1 c), k) "-") with (MNum NExpSign ((a +++ str1 c) +++ "-"), k).
    rewrite (decimals_run NExpSign NExpInt); [|right; left; reflexivity|intros d D; cbn [num_step]; rewrite D; reflexivity|right; right; reflexivity|exact R].
    f_equal. f_equal. apps.
Qed.

Lemma number_run m k t v : num_start m -> number t v -> exists ns, prun t (m, k) = (MNum ns t, k) /\ num_value ns t = Some v.
Proof.
  intros M [g n G H F|g n G H F|g n f e G H F E Ne].
  - exists (whole_state n). split; [exact (natural_run m k g n M G H)|].
    apply fits_iff in F. rewrite <- (int_value_of g n G H) in *. unfold whole_state. destruct (String.eqb n "0"); cbn [num_value]; rewrite F; reflexivity.
  - exists (whole_state n). split; [exact (natural_run m k g n M G H)|].
    rewrite <- fits_iff in F. rewrite <- (int_value_of g n G H) in *. unfold whole_state. destruct (int_fits (int_value (g +++ n))) eqn:X; [congruence|].
    destruct (String.eqb n "0"); cbn [num_value]; rewrite X; reflexivity.
  - assert (Ew : g +++ n +++ f +++ e = (g +++ n) +++ f +++ e) by apps.
    destruct (String.eqb f "") eqn:Ef; [apply String.eqb_eq in Ef; subst f|].
    + exists NExpInt. split; [|reflexivity]. cbn [append] in *. rewrite Ew, prun_app, (natural_run m k g n M G H).
      apply exponent_run; [|exact E|exact Ne]. intros c C. unfold whole_state.
      destruct (String.eqb n "0"); cbn [num_step].
      * replace (Ascii.eqb c ".") with false by (apply orb_true_iff in C as [C|C]; apply Ascii.eqb_eq in C; subst c; reflexivity). rewrite C. reflexivity.
      * replace (is_dec c) with false by (apply orb_true_iff in C as [C|C]; apply Ascii.eqb_eq in C; subst c; reflexivity).
        replace (Ascii.eqb c ".") with false by (apply orb_true_iff in C as [C|C]; apply Ascii.eqb_eq in C; subst c; reflexivity). rewrite C. reflexivity.
    + apply String.eqb_neq in Ef. rewrite Ew, prun_app, (natural_run m k g n M G H), prun_app, (fraction_run k g n f H F Ef).
      destruct (String.eqb e "") eqn:Ee; [apply String.eqb_eq in Ee; subst e|].
      * exists NFrac. cbn [prun]. rewrite sapp_nil_r. split; [f_equal; f_equal; apps|reflexivity].
      * apply String.eqb_neq in Ee. exists NExpInt. split; [|reflexivity]. rewrite exponent_run; [f_equal; f_equal; apps| |exact E|exact Ee].
        intros c C. cbn [num_step]. replace (is_dec c) with false by (apply orb_true_iff in C as [C|C]; apply Ascii.eqb_eq in C; subst c; reflexivity). rewrite C. reflexivity.
Qed.

(** What may follow a value. *)
Definition delimited (s : string) : Prop :=
  match s with EmptyString => True | String c _ => blank_char c \/ In c [","%char; "]"%char; "}"%char; "000"%char] end.
Lemma number_fin m k t v rest : num_start m -> number t v -> delimited rest -> fin (t +++ rest) (m, k) = fin rest (deliver v k).
Proof.
  intros M H D. destruct (number_run m k t v M H) as (ns & R & V). rewrite fin_app, R. destruct rest as [|c s].
  - unfold fin. cbn [prun]. destruct k as [|[]]; [exact V|reflexivity|reflexivity].
  - rewrite !fin_cons. f_equal. cbn [pstep]. replace (num_step ns c) with (@None numst).
    + rewrite V. destruct k as [|[]]; reflexivity.
    + symmetry. assert (A : forall x, In x [32; 9; 10; 13; 44; 93; 125; 0]%N -> num_step ns (ascii_of_N x) = None).
      { intros x I. cbn in I. repeat destruct I as [<-|I]; try destruct I; destruct ns; reflexivity. }
      rewrite <- (chr_byte c). apply A. destruct D as [D|D].
      * unfold blank_char, code in D. unfold byte. cbn [In] in D |- *. lia.
      * cbn [In] in D. repeat destruct D as [<-|D]; try destruct D; cbn; tauto.
Qed.
