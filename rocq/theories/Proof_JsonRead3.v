(** The parser accepts exactly the texts of the grammar: values and files. *)
From Verif Require Import Prelude Model_Json Spec_Json Proof_Prelude Proof_Json Proof_Dec Proof_JsonText Spec_JsonText Proof_JsonRead Proof_JsonRead2.
From Coq Require Import ZifyBool ZifyNat ZifyN.

(** ** Members with the same name *)
Definition set_all (acc : list (string * json)) (ms : list (string * json)) : list (string * json) :=
  fold_left (fun l kv => obj_set l (fst kv) (snd kv)) ms acc.

Lemma obj_set_keys l k v : map fst (obj_set l k v) = if mem_str k (map fst l) then map fst l else map fst l ++ [k].
Proof.
  induction l as [|[k' v'] l IH]; [reflexivity|]. cbn [obj_set map fst]. change (mem_str k (k' :: map fst l)) with (String.eqb k k' || mem_str k (map fst l)).
  destruct (String.eqb k k') eqn:E; cbn [map fst orb].
  - reflexivity.
  - rewrite IH. destruct (mem_str k (map fst l)); reflexivity.
Qed.
Lemma obj_set_In l k v k' v' : NoDup (map fst l) -> In (k', v') (obj_set l k v) -> (k' = k /\ v' = v) \/ (k' <> k /\ In (k', v') l).
Proof.
  induction l as [|[k0 v0] l IH]; intros N; cbn [obj_set].
  - intros [[= <- <-]|[]]. left. split; reflexivity.
  - inversion N as [|? ? N1 N2]; subst. destruct (String.eqb k k0) eqn:E.
    + apply String.eqb_eq in E. subst k0. intros [[= <- <-]|I]; [left; split; reflexivity|].
      right. split; [|right; exact I]. intros ->. apply N1. exact (in_map fst _ _ I).
    + apply String.eqb_neq in E. intros [[= <- <-]|I]; [right; split; [congruence|left; reflexivity]|].
      destruct (IH N2 I) as [H|[H1 H2]]; [left; exact H|right; split; [exact H1|right; exact H2]].
Qed.

Lemma first_ones_In x l : In x (first_ones l) <-> In x l.
Proof.
  induction l as [|k l IH]; [reflexivity|]. cbn [first_ones In]. rewrite filter_In, IH, negb_true_iff, String.eqb_neq.
  destruct (string_dec k x) as [->|N]; [tauto|]. intuition congruence.
Qed.
Lemma first_ones_snoc l k : first_ones (l ++ [k]) = if mem_str k l then first_ones l else first_ones l ++ [k].
Proof.
  induction l as [|x l IH]; [reflexivity|]. cbn [app first_ones]. change (mem_str k (x :: l)) with (String.eqb k x || mem_str k l). rewrite IH. destruct (String.eqb k x) eqn:E; cbn [orb].
  - apply String.eqb_eq in E. subst x. f_equal. destruct (mem_str k l); [reflexivity|]. rewrite filter_app. cbn [filter].
    rewrite String.eqb_refl. cbn [negb]. apply app_nil_r.
  - destruct (mem_str k l); [reflexivity|]. cbn [app]. f_equal. rewrite filter_app. cbn [filter]. rewrite E. reflexivity.
Qed.
Lemma first_ones_NoDup l : NoDup (first_ones l).
Proof.
  induction l as [|x l IH]; cbn [first_ones]; constructor.
  - rewrite filter_In, String.eqb_refl. cbn. intros [_ H]. discriminate.
  - apply NoDup_filter, IH.
Qed.
Lemma last_one_snoc k v l x : last_one x (l ++ [(k, v)]) = if String.eqb x k then Some v else last_one x l.
Proof.
  induction l as [|[k' v'] l IH]; cbn [app last_one]; [reflexivity|]. rewrite IH. destruct (String.eqb x k); reflexivity.
Qed.

Lemma set_all_merged ms : merged ms (set_all [] ms).
Proof.
  induction ms as [|[k v] ms IH] using rev_ind; [split; [reflexivity|intros k v []]|].
  unfold set_all in *. rewrite fold_left_app. cbn [fold_left fst snd]. destruct IH as [K V]. set (m := fold_left _ ms []) in *.
  split.
  - rewrite obj_set_keys, map_app. cbn [map fst]. rewrite first_ones_snoc, K.
    replace (mem_str k (first_ones (map fst ms))) with (mem_str k (map fst ms)); [reflexivity|].
    destruct (mem_str k (map fst ms)) eqn:M; symmetry.
    + apply mem_str_In, first_ones_In, mem_str_In, M.
    + apply mem_str_false. rewrite first_ones_In. apply mem_str_false, M.
  - intros k' v' I. rewrite last_one_snoc.
    assert (N : NoDup (map fst m)) by (rewrite K; apply first_ones_NoDup).
    destruct (obj_set_In m k v k' v' N I) as [[-> ->]|[Ne I']]; [rewrite String.eqb_refl; reflexivity|].
    apply String.eqb_neq in Ne. rewrite Ne. exact (V _ _ I').
Qed.
Lemma merged_fun ms m m' : merged ms m -> merged ms m' -> m = m'.
Proof.
  intros [K V] [K' V']. rewrite <- K' in K. clear K'. revert m' K V V'.
  induction m as [|[k v] m IH]; intros [|[k' v'] m'] K V V'; cbn [map fst] in K; try discriminate; [reflexivity|].
  injection K as -> K. f_equal.
  - f_equal. pose proof (V _ _ (or_introl eq_refl)) as A. pose proof (V' _ _ (or_introl eq_refl)) as B. congruence.
  - apply IH; [exact K| |]; intros x y I; [apply V|apply V']; right; exact I.
Qed.

(** ** From the grammar to the parser *)
Scheme value_mut := Minimality for value Sort Prop
  with elements_mut := Minimality for elements Sort Prop
  with members_mut := Minimality for members Sort Prop.
Combined Scheme json_mut from value_mut, elements_mut, members_mut.

Lemma delimited_blank b s : blank b -> delimited s -> delimited (b +++ s).
Proof. destruct b as [|c b]; [intros _ D; exact D|]. intros [C _] _. left. exact C. Qed.

Lemma start_skips m k : num_start m -> skipping (m, k).
Proof. intros [->| ->]; [apply skipping_val|apply skipping_arr0]. Qed.
Definition key_start (m : mode) : Prop := m = MKey \/ m = MKey0.
Lemma key_skips m k : key_start m -> skipping (m, k).
Proof. intros [->| ->]; [apply skipping_key|apply skipping_key0]. Qed.

Definition value_P (t : string) (v : json) : Prop := forall m k rest,
  num_start m -> delimited rest -> fin (t +++ rest) (m, k) = fin rest (deliver v k).
Definition elements_P (t : string) (l : list json) : Prop := forall m acc k rest,
  num_start m -> fin (t +++ "]" +++ rest) (m, FrArr acc :: k) = fin rest (deliver (JArr (rev acc ++ l)) k).
Definition members_P (t : string) (l : list (string * json)) : Prop := forall m acc key k rest,
  key_start m -> fin (t +++ "}" +++ rest) (m, FrObj acc key :: k) = fin rest (deliver (JObj (set_all acc l)) k).

Lemma start_fin m k c s : num_start m -> is_ws c = false -> Ascii.eqb c "]" = false -> fin (String c s) (m, k) = fin s (start_value c k).
Proof. intros M W B. rewrite fin_cons, (start_mode m k c M W B). reflexivity. Qed.

Lemma string_fin ik w s k rest : chars w s -> fin (w +++ """" +++ rest) (MStr ik "" SPlain, k) = fin rest (str_done ik s k).
Proof. intros C. rewrite fin_app, (chars_run ik k w s C). reflexivity. Qed.

Lemma element_fin b t v b' m k rest : num_start m -> blank b -> value_P t v -> blank b' -> delimited rest ->
  fin (b +++ t +++ b' +++ rest) (m, k) = fin rest (deliver v k).
Proof.
  intros M B V B' D. rewrite (skip_fin _ _ _ (start_skips m k M) B), (V m k _ M (delimited_blank _ _ B' D)).
  apply skip_fin; [apply skipping_deliver|exact B'].
Qed.
Lemma member_fin b w key b1 b2 t v b3 m acc x k rest : key_start m -> blank b -> chars w key -> blank b1 -> blank b2 -> value_P t v -> blank b3 -> delimited rest ->
  fin (b +++ """" +++ w +++ """" +++ b1 +++ ":" +++ b2 +++ t +++ b3 +++ rest) (m, FrObj acc x :: k) = fin rest (deliver v (FrObj acc key :: k)).
Proof.
  intros M B C B1 B2 V B3 D. rewrite (skip_fin _ _ _ (key_skips m _ M) B).
  cbn [append]. rewrite fin_cons. replace (pstep (m, FrObj acc x :: k) """") with (MStr true "" SPlain, FrObj acc x :: k) by (destruct M as [->| ->]; reflexivity).
  change (String """" (b1 +++ String ":" (b2 +++ t +++ b3 +++ rest))) with ("""" +++ b1 +++ String ":" (b2 +++ t +++ b3 +++ rest)).
  rewrite (string_fin true w key _ _ C). cbn [str_done].
  rewrite (skip_fin _ _ _ (skipping_colon _) B1). rewrite fin_cons. change (pstep (MColon, FrObj acc key :: k) ":") with (MVal, FrObj acc key :: k).
  exact (element_fin b2 t v b3 MVal _ rest (or_introl eq_refl) B2 V B3 D).
Qed.

Lemma grammar_read : (forall t v, value t v -> value_P t v) /\ (forall t l, elements t l -> elements_P t l) /\ (forall t l, members t l -> members_P t l).
Proof.
  apply json_mut.
  - intros m k rest M D. cbn [append]. rewrite (start_fin m k _ _ M) by reflexivity. destruct k as [|[]]; reflexivity.
  - intros m k rest M D. cbn [append]. rewrite (start_fin m k _ _ M) by reflexivity. destruct k as [|[]]; reflexivity.
  - intros m k rest M D. cbn [append]. rewrite (start_fin m k _ _ M) by reflexivity. destruct k as [|[]]; reflexivity.
  - intros t v H m k rest M D. exact (number_fin m k t v rest M H D).
  - intros w s C m k rest M D. rewrite !sapp_assoc. cbn [append]. rewrite (start_fin m k _ _ M) by reflexivity.
    exact (string_fin false w s k rest C).
  - intros b B m k rest M D. rewrite !sapp_assoc. cbn [append]. rewrite (start_fin m k _ _ M) by reflexivity.
    change (start_value "[" k) with (MArr0, FrArr [] :: k). rewrite (skip_fin _ _ _ (skipping_arr0 _) B). reflexivity.
  - intros t l _ IH m k rest M D. rewrite !sapp_assoc. cbn [append]. rewrite (start_fin m k _ _ M) by reflexivity.
    change (start_value "[" k) with (MArr0, FrArr [] :: k). exact (IH MArr0 [] k rest (or_intror eq_refl)).
  - intros b B m k rest M D. rewrite !sapp_assoc. cbn [append]. rewrite (start_fin m k _ _ M) by reflexivity.
    change (start_value "{" k) with (MKey0, FrObj [] "" :: k). rewrite (skip_fin _ _ _ (skipping_key0 _) B). reflexivity.
  - intros t l ms _ IH G m k rest M D. rewrite !sapp_assoc. cbn [append]. rewrite (start_fin m k _ _ M) by reflexivity.
    change (start_value "{" k) with (MKey0, FrObj [] "" :: k). rewrite (merged_fun _ _ _ G (set_all_merged l)).
    exact (IH MKey0 [] "" k rest (or_intror eq_refl)).
  - intros b t v b' B _ V B' m acc k rest M. rewrite !sapp_assoc. rewrite (element_fin b t v b' m _ _ M B V B').
    + cbn [append]. rewrite fin_cons. reflexivity.
    + cbn [append delimited]. right. cbn. tauto.
  - intros b t v b' r l B _ V B' _ IH m acc k rest M. rewrite !sapp_assoc. rewrite (element_fin b t v b' m _ _ M B V B').
    + cbn [append]. rewrite fin_cons. change (pstep (deliver v (FrArr acc :: k)) ",") with (MVal, FrArr (v :: acc) :: k).
      change (r +++ String "]" rest) with (r +++ "]" +++ rest). rewrite (IH MVal (v :: acc) k rest (or_introl eq_refl)).
      cbn [rev]. rewrite <- app_assoc. reflexivity.
    + cbn [append delimited]. right. cbn. tauto.
  - intros b w key b1 b2 t v b3 B C B1 B2 _ V B3 m acc x k rest M. rewrite !sapp_assoc. rewrite (member_fin b w key b1 b2 t v b3 m acc x k _ M B C B1 B2 V B3).
    + cbn [append]. rewrite fin_cons. reflexivity.
    + cbn [append delimited]. right. cbn. tauto.
  - intros b w key b1 b2 t v b3 r l B C B1 B2 _ V B3 _ IH m acc x k rest M. rewrite !sapp_assoc. rewrite (member_fin b w key b1 b2 t v b3 m acc x k _ M B C B1 B2 V B3).
    + cbn [append]. rewrite fin_cons. change (pstep (deliver v (FrObj acc key :: k)) ",") with (MKey, FrObj (obj_set acc key v) key :: k).
      change (r +++ String "}" rest) with (r +++ "}" +++ rest). rewrite (IH MKey (obj_set acc key v) key k rest (or_introl eq_refl)). reflexivity.
    + cbn [append delimited]. right. cbn. tauto.
Qed.

Lemma fin_end r v k : fin r (MEnd v, k) = Some v.
Proof. unfold fin. induction r as [|c r IH]; [reflexivity|exact IH]. Qed.

Lemma text_read t v : json_text t v -> parse_json t = Some v.
Proof.
  intros (bom & b & t' & b' & tail & -> & Bom & B & V & B' & T). change (fin (bom +++ b +++ t' +++ b' +++ tail) (MStart, []) = Some v).
  destruct grammar_read as [GV _]. specialize (GV t' v V).
  assert (D : delimited tail) by (destruct T as [->|(r & ->)]; [exact Logic.I|right; cbn; tauto]).
  assert (E : fin tail (deliver v []) = Some v).
  { destruct T as [->|(r & ->)]; [reflexivity|]. rewrite fin_cons. apply fin_end. }
  assert (K : fin (b +++ t' +++ b' +++ tail) (MVal, []) = Some v).
  { rewrite (element_fin b t' v b' MVal [] tail (or_introl eq_refl) B GV B' D). exact E. }
  destruct Bom as [->| ->].
  - cbn [append]. destruct b as [|c b].
    + (* the value starts at once: MStart and MVal agree on every first byte but 239 *)
      cbn [append] in *. destruct (t' +++ b' +++ tail) as [|c s] eqn:S; [discriminate|].
      rewrite fin_cons in *. cbn [pstep] in *. destruct (byte c =? 239)%N eqn:X.
      * exfalso. apply N.eqb_eq in X. assert (C : c = ascii_of_N 239) by (rewrite <- (chr_byte c), X; reflexivity). subst c.
        change (fin s perr = Some v) in K. rewrite fin_perr in K. discriminate.
      * destruct (is_ws c); exact K.
    + destruct B as [C B]. apply ws_iff in C. cbn [append] in *. rewrite fin_cons in *. cbn [pstep] in *. rewrite C in *.
      destruct (byte c =? 239)%N eqn:X; [|exact K]. exfalso. apply N.eqb_eq in X. unfold is_ws in C. rewrite X in C. discriminate.
  - exact K.
Qed.

(** ** From the parser to the grammar *)
Lemma lit_read w : forall s v k r, w <> "" -> fin s (MLit w v, k) = Some r -> exists s', s = w +++ s' /\ fin s' (deliver v k) = Some r.
Proof.
  induction w as [|x w IH]; intros s v k r N F; [congruence|]. destruct s as [|c s]; [discriminate|]. rewrite fin_cons in F. cbn [pstep] in F.
  destruct w as [|y w].
  - destruct (Ascii.eqb c x) eqn:E; [|rewrite fin_perr in F; discriminate]. apply Ascii.eqb_eq in E. subst c. exists s. split; [reflexivity|exact F].
  - destruct (Ascii.eqb c x) eqn:E; [|rewrite fin_perr in F; discriminate]. apply Ascii.eqb_eq in E. subst c.
    destruct (IH s v k r ltac:(discriminate) F) as (s' & -> & F'). exists s'. split; [reflexivity|exact F'].
Qed.

Definition reads_value (n : nat) : Prop := forall s k r, String.length s <= n -> fin s (MVal, k) = Some r ->
  exists b t v rest, s = b +++ t +++ rest /\ blank b /\ value t v /\ String.length rest < String.length s /\ fin rest (deliver v k) = Some r.
Definition reads_elements (n : nat) : Prop := forall s acc k r, String.length s <= n -> fin s (MVal, FrArr acc :: k) = Some r ->
  exists t l rest, s = t +++ "]" +++ rest /\ elements t l /\ fin rest (deliver (JArr (rev acc ++ l)) k) = Some r.
Definition reads_members (n : nat) : Prop := forall s acc x k r, String.length s <= n -> fin s (MKey, FrObj acc x :: k) = Some r ->
  exists t l rest, s = t +++ "}" +++ rest /\ members t l /\ fin rest (deliver (JObj (set_all acc l)) k) = Some r.

Lemma slen_app a b : String.length (a +++ b) = String.length a + String.length b.
Proof. induction a as [|c a IH]; [reflexivity|]. cbn [append String.length]. rewrite IH. reflexivity. Qed.
Lemma value_nonempty t v : value t v -> t <> "".
Proof.
  assert (A : forall x y, y <> "" -> x +++ y <> "") by (intros [|c x] y N; [exact N|discriminate]).
  intros V. destruct V as [| | |t v H| | | | |]; try discriminate.
  destruct H as [g n G H F|g n G H F|g n f e G H F E Ne]; apply A; destruct (natural_decimal n H) as (c & r & -> & _); discriminate.
Qed.

Lemma start_read n c s k r : reads_elements n -> reads_members n -> String.length s <= n -> fin s (start_value c k) = Some r ->
  exists t v rest, String c s = t +++ rest /\ value t v /\ fin rest (deliver v k) = Some r.
Proof.
  intros RE RM L F. unfold start_value in F.
  destruct (Ascii.eqb c "{") eqn:E1; [apply Ascii.eqb_eq in E1; subst c|].
  { destruct (skipped _ _ _ (skipping_key0 _) F) as [(b & -> & B & E)|(b & c & s' & -> & B & W & F')]; [discriminate E|].
    cbn [pstep] in F'. rewrite W in F'. destruct (Ascii.eqb c "}") eqn:C.
    - apply Ascii.eqb_eq in C. subst c. exists ("{" +++ b +++ "}"), (JObj []), s'. split; [apps|]. split; [exact (value_empty_object b B)|exact F'].
    - assert (FK : fin (b +++ String c s') (MKey, FrObj [] "" :: k) = Some r).
      { rewrite (skip_fin _ _ _ (skipping_key _) B), fin_cons. cbn [pstep]. rewrite W. exact F'. }
      destruct (RM _ _ _ _ _ L FK) as (t & l & rest & E & M & F2). exists ("{" +++ t +++ "}"), (JObj (set_all [] l)), rest.
      split; [rewrite E; apps|]. split; [exact (value_object t l _ M (set_all_merged l))|exact F2]. }
  destruct (Ascii.eqb c "[") eqn:E2; [apply Ascii.eqb_eq in E2; subst c|].
  { destruct (skipped _ _ _ (skipping_arr0 _) F) as [(b & -> & B & E)|(b & c & s' & -> & B & W & F')]; [discriminate E|].
    cbn [pstep] in F'. rewrite W in F'. destruct (Ascii.eqb c "]") eqn:C.
    - apply Ascii.eqb_eq in C. subst c. exists ("[" +++ b +++ "]"), (JArr []), s'. split; [apps|]. split; [exact (value_empty_array b B)|exact F'].
    - assert (FK : fin (b +++ String c s') (MVal, FrArr [] :: k) = Some r).
      { rewrite (skip_fin _ _ _ (skipping_val _) B), fin_cons. cbn [pstep]. rewrite W. exact F'. }
      destruct (RE _ _ _ _ L FK) as (t & l & rest & E & M & F2). exists ("[" +++ t +++ "]"), (JArr l), rest.
      split; [rewrite E; apps|]. split; [exact (value_array t l M)|exact F2]. }
  destruct (Ascii.eqb c ch_quote) eqn:E3; [apply Ascii.eqb_eq in E3; subst c|].
  { destruct (chars_read _ s false k "" r (le_n _) F) as (w & m & s' & -> & C & F').
    exists ("""" +++ w +++ """"), (JStr m), s'. split; [apps|]. split; [exact (value_string w m C)|exact F']. }
  destruct (Ascii.eqb c "t") eqn:E4; [apply Ascii.eqb_eq in E4; subst c|].
  { destruct (lit_read "rue" _ _ _ _ ltac:(discriminate) F) as (s' & -> & F'). exists "true", (JBool true), s'. split; [reflexivity|]. split; [constructor|exact F']. }
  destruct (Ascii.eqb c "f") eqn:E5; [apply Ascii.eqb_eq in E5; subst c|].
  { destruct (lit_read "alse" _ _ _ _ ltac:(discriminate) F) as (s' & -> & F'). exists "false", (JBool false), s'. split; [reflexivity|]. split; [constructor|exact F']. }
  destruct (Ascii.eqb c "n") eqn:E6; [apply Ascii.eqb_eq in E6; subst c|].
  { destruct (lit_read "ull" _ _ _ _ ltac:(discriminate) F) as (s' & -> & F'). exists "null", JNull, s'. split; [reflexivity|]. split; [constructor|exact F']. }
  assert (Z : forall ns, lex ns (str1 c) -> fin s (MNum ns (str1 c), k) = Some r ->
    exists t v rest, String c s = t +++ rest /\ value t v /\ fin rest (deliver v k) = Some r).
  { intros ns Lx G. destruct (number_read s ns (str1 c) k r Lx G) as (w & v & rest & -> & H & F').
    exists (str1 c +++ w), v, rest. split; [reflexivity|]. split; [exact (value_number _ _ H)|exact F']. }
  destruct (Ascii.eqb c "-") eqn:E7; [apply Ascii.eqb_eq in E7; subst c; exact (Z NMinus eq_refl F)|].
  destruct (Ascii.eqb c "0") eqn:E8; [apply Ascii.eqb_eq in E8; subst c; apply (Z NZero); [exists ""; split; [left; reflexivity|reflexivity]|exact F]|].
  destruct (is_dec c) eqn:E9; [|rewrite fin_perr in F; discriminate].
  apply (Z NInt); [|exact F]. exists "", (str1 c). split; [left; reflexivity|]. split; [|reflexivity]. exists c, "". split; [reflexivity|]. split; [|exact Logic.I].
  apply dec_iff in E9. unfold decimal in E9. assert (code c <> 48%N) by (rewrite <- zero_code; congruence). lia.
Qed.

Lemma all_read n : reads_value n /\ reads_elements n /\ reads_members n.
Proof.
  induction n as [|n (IV & IE & IM)].
  { split; [|split].
    - intros s k r L F. destruct s; [discriminate|cbn in L; lia].
    - intros s acc k r L F. destruct s; [discriminate|cbn in L; lia].
    - intros s acc x k r L F. destruct s; [discriminate|cbn in L; lia]. }
  assert (RV : reads_value (S n)).
  { intros s k r L F. destruct (skipped _ _ _ (skipping_val k) F) as [(b & -> & B & E)|(b & c & s' & -> & B & W & F')]; [discriminate E|].
    cbn [pstep] in F'. rewrite W in F'. rewrite slen_app in *. cbn [String.length] in *.
    destruct (start_read n c s' k r IE IM ltac:(lia) F') as (t & v & rest & E & V & F2).
    exists b, t, v, rest. rewrite E. split; [reflexivity|]. split; [exact B|]. split; [exact V|]. split; [|exact F2].
    apply (f_equal String.length) in E. rewrite slen_app in E. cbn [String.length] in E.
    pose proof (value_nonempty t v V). destruct t; [congruence|]. cbn [String.length] in E. lia. }
  assert (RE : reads_elements (S n)).
  { intros s acc k r L F. destruct (RV s _ r L F) as (b & t & v & rest & -> & B & V & L' & F1).
    destruct (skipped _ _ _ (skipping_deliver v (FrArr acc :: k)) F1) as [(b' & -> & B' & E)|(b' & c & s' & -> & B' & W & F2)]; [discriminate E|].
    cbn [deliver pstep after_value] in F2. rewrite W in F2. destruct (Ascii.eqb c ",") eqn:C1.
    - apply Ascii.eqb_eq in C1. subst c. rewrite !slen_app in *. cbn [String.length] in *.
      destruct (IE s' (v :: acc) k r ltac:(lia) F2) as (t2 & l & rest & -> & E2 & F3).
      exists (b +++ t +++ b' +++ "," +++ t2), (v :: l), rest. split; [apps|]. split; [exact (elements_more b t v b' t2 l B V B' E2)|].
      cbn [rev] in F3. rewrite <- app_assoc in F3. exact F3.
    - destruct (Ascii.eqb c "]") eqn:C2; [|rewrite fin_perr in F2; discriminate]. apply Ascii.eqb_eq in C2. subst c.
      exists (b +++ t +++ b'), [v], s'. split; [apps|]. split; [exact (elements_last b t v b' B V B')|]. exact F2. }
  split; [exact RV|]. split; [exact RE|].
  intros s acc x k r L F. destruct (skipped _ _ _ (skipping_key _) F) as [(b & -> & B & E)|(b & c & s' & -> & B & W & F')]; [discriminate E|].
  cbn [pstep] in F'. rewrite W in F'. destruct (Ascii.eqb c ch_quote) eqn:Q; [|rewrite fin_perr in F'; discriminate]. apply Ascii.eqb_eq in Q. subst c.
  destruct (chars_read _ s' true _ "" r (le_n _) F') as (w & key & s1 & -> & C & F1). cbn [append str_done] in F1.
  destruct (skipped _ _ _ (skipping_colon _) F1) as [(b1 & -> & B1 & E)|(b1 & c & s2 & -> & B1 & W1 & F2)]; [discriminate E|].
  cbn [pstep] in F2. rewrite W1 in F2. destruct (Ascii.eqb c ":") eqn:Q; [|rewrite fin_perr in F2; discriminate]. apply Ascii.eqb_eq in Q. subst c.
  assert (L2 : String.length s2 <= S n) by (repeat (rewrite ?slen_app in L; cbn [append String.length] in L); lia).
  destruct (RV s2 _ r L2 F2) as (b2 & t & v & rest & -> & B2 & V & L3 & F3).
  destruct (skipped _ _ _ (skipping_deliver v (FrObj acc key :: k)) F3) as [(b3 & -> & B3 & E)|(b3 & c & s3 & -> & B3 & W3 & F4)]; [discriminate E|].
  cbn [deliver pstep after_value] in F4. rewrite W3 in F4. destruct (Ascii.eqb c ",") eqn:C1.
  - apply Ascii.eqb_eq in C1. subst c.
    assert (L4 : String.length s3 <= n).
    { repeat (rewrite ?slen_app in L; cbn [append String.length] in L). lia. }
    destruct (IM s3 _ key k r L4 F4) as (t2 & l & rest & -> & E2 & F5).
    exists (b +++ """" +++ w +++ """" +++ b1 +++ ":" +++ b2 +++ t +++ b3 +++ "," +++ t2), ((key, v) :: l), rest.
    split; [repeat (rewrite ?sapp_assoc; cbn [append str1]); reflexivity|]. split; [exact (members_more b w key b1 b2 t v b3 t2 l B C B1 B2 V B3 E2)|exact F5].
  - destruct (Ascii.eqb c "}") eqn:C2; [|rewrite fin_perr in F4; discriminate]. apply Ascii.eqb_eq in C2. subst c.
    exists (b +++ """" +++ w +++ """" +++ b1 +++ ":" +++ b2 +++ t +++ b3), [(key, v)], s3.
    split; [repeat (rewrite ?sapp_assoc; cbn [append str1]); reflexivity|]. split; [exact (members_last b w key b1 b2 t v b3 B C B1 B2 V B3)|exact F4].
Qed.

Lemma parse_text t v : parse_json t = Some v -> json_text t v.
Proof.
  intros P. change (fin t (MStart, []) = Some v) in P.
  assert (K : exists bom s, t = bom +++ s /\ (bom = "" \/ bom = byte_order_mark) /\ fin s (MVal, []) = Some v).
  { destruct t as [|c s]; [discriminate|]. rewrite fin_cons in P. cbn [pstep] in P. destruct (byte c =? 239)%N eqn:X.
    - apply N.eqb_eq in X. assert (C : c = ascii_of_N 239) by (rewrite <- (chr_byte c), X; reflexivity). subst c.
      destruct s as [|c s]; [discriminate|]. rewrite fin_cons in P. cbn [pstep] in P. destruct (byte c =? 187)%N eqn:Y; [|rewrite fin_perr in P; discriminate].
      apply N.eqb_eq in Y. assert (C : c = ascii_of_N 187) by (rewrite <- (chr_byte c), Y; reflexivity). subst c.
      destruct s as [|c s]; [discriminate|]. rewrite fin_cons in P. cbn [pstep] in P. destruct (byte c =? 191)%N eqn:Z; [|rewrite fin_perr in P; discriminate].
      apply N.eqb_eq in Z. assert (C : c = ascii_of_N 191) by (rewrite <- (chr_byte c), Z; reflexivity). subst c.
      exists byte_order_mark, s. split; [reflexivity|]. split; [right; reflexivity|exact P].
    - exists "", (String c s). split; [reflexivity|]. split; [left; reflexivity|]. rewrite fin_cons. cbn [pstep]. destruct (is_ws c); exact P. }
  destruct K as (bom & s & -> & Bom & F). destruct (all_read (String.length s)) as [RV _].
  destruct (RV s [] v (le_n _) F) as (b & t' & v' & rest & -> & B & V & _ & F').
  assert (T : exists b' tail, rest = b' +++ tail /\ blank b' /\ (tail = "" \/ exists r, tail = String "000" r) /\ v' = v).
  { destruct (skipped _ _ _ (skipping_deliver v' []) F') as [(b' & -> & B' & E)|(b' & c & s' & -> & B' & W & F2)].
    - exists b', "". rewrite sapp_nil_r. split; [reflexivity|]. split; [exact B'|]. split; [left; reflexivity|]. injection E as ->. reflexivity.
    - cbn [deliver pstep after_value] in F2. rewrite W in F2. destruct (byte c =? 0)%N eqn:Z; [|rewrite fin_perr in F2; discriminate].
      apply N.eqb_eq in Z. assert (C : c = "000"%char) by (rewrite <- (chr_byte c), Z; reflexivity). subst c. rewrite fin_end in F2.
      exists b', (String "000" s'). split; [reflexivity|]. split; [exact B'|]. split; [right; exists s'; reflexivity|]. injection F2 as ->. reflexivity. }
  destruct T as (b' & tail & -> & B' & T & ->).
  exists bom, b, t', b', tail. split; [reflexivity|]. split; [exact Bom|]. split; [exact B|]. split; [exact V|]. split; [exact B'|exact T].
Qed.

Lemma parse_exact t v : parse_json t = Some v <-> json_text t v.
Proof. split; [apply parse_text|apply text_read]. Qed.
