(** dump and parse. *)
From Verif Require Import Prelude Model_Json Proof_Prelude Proof_Json Proof_Dec.
From Coq Require Import ZifyBool ZifyNat ZifyN.

Lemma prun_app (a b : string) (st : pstate) : prun (a +++ b) st = prun b (prun a st).
Proof. revert st; induction a as [|c a IH]; intros st; [reflexivity|]. apply IH. Qed.

(** ** Strings *)

Definition sub_of (p : list (N * N)) : strsub := match p with [] => SPlain | _ => SUtf p end.

Lemma ascii_cases (P : ascii -> Prop) :
  (forall a b c d e f g h, P (Ascii a b c d e f g h)) -> forall c, P c.
Proof. intros H [a b c d e f g h]. apply H. Qed.

Lemma escape_ascii (ik : bool) (acc : string) (k : list frame) (c : ascii) :
  utf8_lead c = Some [] ->
  prun (escape_char c) (MStr ik acc SPlain, k) = (MStr ik (acc +++ str1 c) SPlain, k).
Proof.
  destruct c as [[] [] [] [] [] [] [] []]; intros H; try discriminate H; reflexivity.
Qed.

Lemma escape_lead (ik : bool) (acc : string) (k : list frame) (c : ascii) (x : N * N) (p : list (N * N)) :
  utf8_lead c = Some (x :: p) ->
  prun (escape_char c) (MStr ik acc SPlain, k) = (MStr ik (acc +++ str1 c) (SUtf (x :: p)), k).
Proof.
  destruct c as [[] [] [] [] [] [] [] []]; intros H; try discriminate H;
    injection H as <- <-; reflexivity.
Qed.

Lemma escape_high (c : ascii) : (128 <= byte c)%N -> escape_char c = str1 c.
Proof.
  destruct c as [[] [] [] [] [] [] [] []]; intros H;
    first [exfalso; revert H; vm_compute; intros H; apply H; reflexivity|reflexivity].
Qed.

Definition high (p : list (N * N)) : Prop := Forall (fun r => (128 <= fst r)%N) p.

Lemma utf8_lead_high (c : ascii) (p : list (N * N)) : utf8_lead c = Some p -> high p.
Proof.
  intros H. apply utf8_lead_cases in H. unfold high, cont in *.
  destruct H as [[-> _]|[[-> _]|[[-> _]|[[-> _]|[[-> _]|[[-> _]|[[-> _]|[-> _]]]]]]]];
    repeat constructor; simpl; lia.
Qed.

Lemma escape_run (ik : bool) (k : list frame) (s : string) : forall (p : list (N * N)) (acc : string),
  high p -> utf8_ok p s = true ->
  prun (escape s) (MStr ik acc (sub_of p), k) = (MStr ik (acc +++ s) SPlain, k).
Proof.
  induction s as [|c s IH]; intros p acc Hp H.
  - cbn [utf8_ok] in H. destruct p; [|discriminate]. rewrite sapp_nil_r. reflexivity.
  - cbn [escape]. rewrite prun_app.
    replace (acc +++ String c s) with ((acc +++ str1 c) +++ s) by (rewrite sapp_assoc; reflexivity).
    destruct p as [|[lo hi] p].
    + rewrite utf8_ok_nil in H. destruct (utf8_lead c) as [p|] eqn:El; [|discriminate].
      pose proof (utf8_lead_high c p El) as Hh. destruct p as [|x p].
      * cbn [sub_of]. rewrite escape_ascii by exact El. apply (IH [] _ Hh H).
      * cbn [sub_of]. rewrite (escape_lead ik acc k c x p El). apply (IH (x :: p) _ Hh H).
    + rewrite utf8_ok_cons in H. apply andb_true_iff in H as [Hr H].
      inversion Hp as [|? ? H1 H2]; subst. cbn [fst] in H1.
      assert (Hb : (128 <= byte c)%N) by (apply brange_spec in Hr; lia).
      rewrite escape_high by exact Hb. cbn [sub_of str1 prun pstep str_step]. rewrite Hr.
      apply (IH p _ H2 H).
Qed.

Lemma quoted_run_val (k : list frame) (s : string) :
  utf8_ok [] s = true ->
  prun (escape s +++ str1 ch_quote) (MStr false "" SPlain, k) = deliver (JStr s) k.
Proof.
  intros H. rewrite prun_app. change SPlain with (sub_of []).
  rewrite escape_run by (assumption || constructor). reflexivity.
Qed.

Lemma quoted_run_key (acc : list (string * json)) (key : string) (k : list frame) (s : string) :
  utf8_ok [] s = true ->
  prun (escape s +++ str1 ch_quote) (MStr true "" SPlain, FrObj acc key :: k) = (MColon, FrObj acc s :: k).
Proof.
  intros H. rewrite prun_app. change SPlain with (sub_of []).
  rewrite escape_run by (assumption || constructor). reflexivity.
Qed.

(** ** Numbers *)

Lemma num_digits (k : list frame) (r acc : string) :
  all_dec r = true -> prun r (MNum NInt acc, k) = (MNum NInt (acc +++ r), k).
Proof.
  revert acc. induction r as [|c r IH]; intros acc H; [rewrite sapp_nil_r; reflexivity|].
  cbn [all_dec] in H. apply andb_true_iff in H as [H1 H2].
  cbn [prun pstep num_step]. rewrite H1. rewrite IH by exact H2. rewrite sapp_assoc. reflexivity.
Qed.

Definition num_state (z : Z) : numst := if (z =? 0)%Z then NZero else NInt.

Lemma start_digit (c : ascii) (k : list frame) :
  is_dec c = true -> c <> "0"%char -> start_value c k = (MNum NInt (str1 c), k).
Proof.
  destruct c as [[] [] [] [] [] [] [] []]; intros H Hn; try discriminate H; try reflexivity.
  exfalso. apply Hn. reflexivity.
Qed.

Lemma digit_not_ws (c : ascii) : is_dec c = true -> is_ws c = false /\ (byte c =? 239)%N = false /\ Ascii.eqb c "]" = false.
Proof. destruct c as [[] [] [] [] [] [] [] []]; intros H; try discriminate H; repeat split. Qed.

(** Places where a value may start. *)
Definition val_mode (m : mode) : Prop := m = MStart \/ m = MVal \/ m = MArr0.

Lemma val_start (m : mode) (k : list frame) (c : ascii) :
  val_mode m -> is_ws c = false -> (byte c =? 239)%N = false -> Ascii.eqb c "]" = false ->
  pstep (m, k) c = start_value c k.
Proof.
  intros [-> | [-> | ->]] H1 H2 H3; cbn [pstep]; rewrite ?H2, ?H1, ?H3; reflexivity.
Qed.

Lemma dec_run (m : mode) (k : list frame) (n : N) :
  val_mode m -> prun (dec_of_N n) (m, k) = (MNum (num_state (Z.of_N n)) (dec_of_N n), k).
Proof.
  intros Hm. destruct (dec_of_N_shape n) as (c & r & E & Hc & Hr & Hcase). rewrite E.
  cbn [prun]. destruct (digit_not_ws c Hc) as (W1 & W2 & W3).
  rewrite val_start by assumption. unfold num_state.
  destruct Hcase as [(-> & -> & ->)|[Hn Hc0]].
  - reflexivity.
  - rewrite start_digit by assumption. rewrite num_digits by exact Hr.
    replace (Z.of_N n =? 0)%Z with false by lia. reflexivity.
Qed.

Lemma dec_neg_run (m : mode) (k : list frame) (p : positive) :
  val_mode m -> prun ("-" +++ dec_of_N (Npos p)) (m, k) = (MNum NInt ("-" +++ dec_of_N (Npos p)), k).
Proof.
  intros Hm. destruct (dec_of_N_shape (Npos p)) as (c & r & E & Hc & Hr & Hcase). rewrite E.
  destruct Hcase as [(H & _)|[Hn Hc0]]; [discriminate|].
  cbn [append prun]. rewrite val_start by (try exact Hm; reflexivity).
  change (start_value "-" k) with (MNum NMinus "-", k). cbn [pstep num_step].
  replace (Ascii.eqb c "0") with false by (symmetry; apply Ascii.eqb_neq; exact Hc0).
  rewrite Hc. rewrite num_digits by exact Hr. reflexivity.
Qed.

Lemma int_value_dec (z : Z) : int_value (dec_of_Z z) = z.
Proof.
  destruct z as [|p|p].
  - reflexivity.
  - cbn [dec_of_Z Z.to_N]. pose proof (dec_of_N_value (Npos p)) as Hv.
    destruct (dec_of_N_shape (Npos p)) as (c & r & E & Hc & _). rewrite E in *.
    unfold int_value. replace (Ascii.eqb c "-") with false; [rewrite Hv; reflexivity|].
    clear - Hc. destruct c as [[] [] [] [] [] [] [] []]; try discriminate Hc; reflexivity.
  - cbn [dec_of_Z append]. unfold int_value. cbn [Ascii.eqb]. 
    replace (Ascii.eqb "-" "-") with true by reflexivity. cbn iota.
    rewrite dec_of_N_value. reflexivity.
Qed.

Lemma int_run (m : mode) (k : list frame) (z : Z) :
  val_mode m -> prun (dec_of_Z z) (m, k) = (MNum (num_state z) (dec_of_Z z), k).
Proof.
  intros Hm. destruct z as [|p|p].
  - exact (dec_run m k 0 Hm).
  - exact (dec_run m k (Npos p) Hm).
  - exact (dec_neg_run m k p Hm).
Qed.

(** ** Values *)

(** Values as the serializers build them: 64-bit integers, distinct keys, valid
    UTF-8 and no floating point numbers. *)
Inductive jwf : json -> Prop :=
| jwf_null : jwf JNull
| jwf_bool b : jwf (JBool b)
| jwf_int z : int_fits z = true -> jwf (JInt z)
| jwf_str s : utf8_ok [] s = true -> jwf (JStr s)
| jwf_arr l : Forall jwf l -> jwf (JArr l)
| jwf_obj l : Forall (fun kv => utf8_ok [] (fst kv) = true /\ jwf (snd kv)) l ->
              NoDup (map fst l) -> jwf (JObj l).

Definition pend (v : json) (k : list frame) : pstate :=
  match v with JInt z => (MNum (num_state z) (dec_of_Z z), k) | _ => deliver v k end.

Lemma pend_step (v : json) (k : list frame) (c : ascii) :
  jwf v -> k <> [] -> c = ","%char \/ c = ch_nl -> pstep (pend v k) c = pstep (deliver v k) c.
Proof.
  intros Hv Hk Hc.
  assert (Hd : forall w, exists k', deliver w k = (MAfter, k')).
  { intros w. destruct k as [|[acc|acc key] k]; [congruence|eexists; reflexivity..]. }
  destruct v as [| |z| | | |]; try reflexivity.
  cbn [pend]. unfold pstep at 1.
  assert (Hs : num_step (num_state z) c = None).
  { unfold num_state. destruct Hc as [-> | ->]; destruct (z =? 0)%Z; reflexivity. }
  rewrite Hs.
  assert (Hn : num_value (num_state z) (dec_of_Z z) = Some (JInt z)).
  { unfold num_value, num_state. rewrite int_value_dec. inversion Hv as [| |? Hf| | |]; subst. rewrite Hf.
    destruct (z =? 0)%Z; reflexivity. }
  rewrite Hn. destruct (Hd (JInt z)) as [k' ->]. reflexivity.
Qed.

Fixpoint all_space (s : string) : bool :=
  match s with EmptyString => true | String c r => Ascii.eqb c " " && all_space r end.

Lemma all_space_app (a b : string) : all_space (a +++ b) = all_space a && all_space b.
Proof. induction a as [|c a IH]; [reflexivity|]. cbn [append all_space]. rewrite IH, andb_assoc. reflexivity. Qed.

(** States in which blanks are skipped. *)
Definition skips (st : pstate) : Prop := pstep st " " = st /\ pstep st ch_nl = st.

Lemma skip_spaces (st : pstate) (s : string) : skips st -> all_space s = true -> prun s st = st.
Proof.
  intros [H _]. induction s as [|c s IH]; [reflexivity|]. cbn [all_space prun].
  intros Hs. apply andb_true_iff in Hs as [Hc Hs]. apply Ascii.eqb_eq in Hc. subst. rewrite H. auto.
Qed.

Lemma skip_nl_spaces (st : pstate) (s : string) : skips st -> all_space s = true -> prun (nl +++ s) st = st.
Proof. intros H Hs. rewrite prun_app. cbn [nl str1 prun]. rewrite (proj2 H). apply skip_spaces; assumption. Qed.

Lemma skips_val (k : list frame) : skips (MVal, k). Proof. split; reflexivity. Qed.
Lemma skips_arr0 (k : list frame) : skips (MArr0, k). Proof. split; reflexivity. Qed.
Lemma skips_key0 (k : list frame) : skips (MKey0, k). Proof. split; reflexivity. Qed.
Lemma skips_key (k : list frame) : skips (MKey, k). Proof. split; reflexivity. Qed.
Lemma skips_after (v : json) (f : frame) (k : list frame) : skips (deliver v (f :: k)).
Proof. destruct f; split; reflexivity. Qed.

Lemma obj_set_fresh (l : list (string * json)) (key : string) (v : json) :
  ~ In key (map fst l) -> obj_set l key v = l ++ [(key, v)].
Proof.
  induction l as [|[k' v'] l IH]; [reflexivity|]. simpl. intros H.
  destruct (String.eqb_spec key k') as [->|Hn]; [exfalso; apply H; left; reflexivity|].
  rewrite IH by tauto. reflexivity.
Qed.

Definition runs (v : json) : Prop := forall ind m k,
  all_space ind = true -> val_mode m -> prun (dump ind v) (m, k) = pend v k.

Definition in_mode (m : mode) : Prop := m = MVal \/ m = MArr0.

Lemma in_val (m : mode) : in_mode m -> val_mode m.
Proof. unfold in_mode, val_mode. tauto. Qed.

Lemma in_skips (m : mode) (k : list frame) : in_mode m -> skips (m, k).
Proof. intros [-> | ->]; split; reflexivity. Qed.

Definition elem_text (ind : string) (y : json) : string := ind +++ dump ind y.

Lemma elem_run (ind : string) (x : json) (m : mode) (k : list frame) :
  all_space ind = true -> runs x -> in_mode m -> prun (elem_text ind x) (m, k) = pend x k.
Proof.
  intros Hi Rx Hm. unfold elem_text. rewrite prun_app, (skip_spaces _ ind) by (try apply in_skips; assumption).
  apply Rx; [exact Hi|apply in_val; exact Hm].
Qed.

Lemma elems_run (ind : string) (k : list frame) (l : list json) :
  all_space ind = true -> Forall jwf l -> Forall runs l ->
  forall x acc m, jwf x -> runs x -> in_mode m ->
  prun (join ("," +++ nl) (map (elem_text ind) (x :: l)) +++ nl) (m, FrArr acc :: k) =
  (MAfter, FrArr (rev (x :: l) ++ acc) :: k).
Proof.
  intros Hi. induction l as [|y l IH]; intros Hl Rl x acc m Hx Rx Hm.
  - cbn [map join]. rewrite prun_app, elem_run by assumption.
    unfold nl, str1. cbn [prun]. rewrite pend_step by (try exact Hx; try discriminate; right; reflexivity).
    reflexivity.
  - inversion Hl as [|? ? Hy Hl']; subst. inversion Rl as [|? ? Ry Rl']; subst.
    change (map (elem_text ind) (x :: y :: l)) with (elem_text ind x :: map (elem_text ind) (y :: l)).
    rewrite join_cons by discriminate. rewrite !sapp_assoc, prun_app, elem_run by assumption.
    rewrite (prun_app ","), (prun_app nl). cbn [prun].
    rewrite pend_step by (try exact Hx; try discriminate; left; reflexivity).
    change (pstep (deliver x (FrArr acc :: k)) ",") with (MVal, FrArr (x :: acc) :: k).
    change (prun nl (MVal, FrArr (x :: acc) :: k)) with (MVal, FrArr (x :: acc) :: k).
    rewrite (IH Hl' Rl' y (x :: acc) MVal Hy Ry (or_introl eq_refl)).
    do 3 f_equal. cbn [rev]. rewrite <- !app_assoc. reflexivity.
Qed.

Definition member_text (ind : string) (kv : string * json) : string :=
  ind +++ quoted (fst kv) +++ ": " +++ dump ind (snd kv).

Definition key_mode (m : mode) : Prop := m = MKey \/ m = MKey0.

Lemma member_run (ind : string) (kv : string * json) (m : mode) acc key (k : list frame) :
  all_space ind = true -> utf8_ok [] (fst kv) = true -> runs (snd kv) -> key_mode m ->
  prun (member_text ind kv) (m, FrObj acc key :: k) = pend (snd kv) (FrObj acc (fst kv) :: k).
Proof.
  intros Hi Hk Rx Hm. unfold member_text, quoted.
  rewrite prun_app, (skip_spaces _ ind); [|destruct Hm as [-> | ->]; split; reflexivity|exact Hi].
  rewrite sapp_assoc, prun_app.
  assert (E : prun (str1 ch_quote) (m, FrObj acc key :: k) = (MStr true "" SPlain, FrObj acc key :: k))
    by (destruct Hm as [-> | ->]; reflexivity).
  rewrite E, prun_app, quoted_run_key by exact Hk.
  rewrite prun_app. change (prun ": " (MColon, FrObj acc (fst kv) :: k)) with (MVal, FrObj acc (fst kv) :: k).
  apply Rx; [exact Hi|right; left; reflexivity].
Qed.

Definition mem_wf (kv : string * json) : Prop := utf8_ok [] (fst kv) = true /\ jwf (snd kv).

Lemma members_run (ind : string) (k : list frame) (l : list (string * json)) :
  all_space ind = true -> Forall mem_wf l -> Forall (fun kv => runs (snd kv)) l ->
  forall x acc key m, mem_wf x -> runs (snd x) -> key_mode m ->
  NoDup (map fst (acc ++ x :: l)) ->
  exists key',
  prun (join ("," +++ nl) (map (member_text ind) (x :: l)) +++ nl) (m, FrObj acc key :: k) =
  (MAfter, FrObj (acc ++ x :: l) key' :: k).
Proof.
  intros Hi. induction l as [|y l IH]; intros Hl Rl x acc key m [Hxk Hx] Rx Hm HN.
  - exists (fst x). cbn [map join]. rewrite prun_app, member_run by assumption.
    unfold nl, str1. cbn [prun]. rewrite pend_step by (try exact Hx; try discriminate; right; reflexivity).
    cbn [deliver pstep after_value is_ws]. rewrite obj_set_fresh.
    + destruct x; reflexivity.
    + rewrite map_app in HN. apply NoDup_remove_2 in HN. rewrite app_nil_r in HN. exact HN.
  - inversion Hl as [|? ? Hy Hl']; subst. inversion Rl as [|? ? Ry Rl']; subst.
    change (map (member_text ind) (x :: y :: l)) with (member_text ind x :: map (member_text ind) (y :: l)).
    rewrite join_cons by discriminate. rewrite !sapp_assoc, prun_app, member_run by assumption.
    assert (Hf : ~ In (fst x) (map fst acc)).
    { rewrite map_app in HN. apply NoDup_remove_2 in HN. intros H. apply HN. apply in_or_app. left. exact H. }
    rewrite (prun_app ","), (prun_app nl). cbn [prun].
    rewrite pend_step by (try exact Hx; try discriminate; left; reflexivity).
    change (pstep (deliver (snd x) (FrObj acc (fst x) :: k)) ",")
      with (MKey, FrObj (obj_set acc (fst x) (snd x)) (fst x) :: k).
    rewrite obj_set_fresh by exact Hf. replace (fst x, snd x) with x by (destruct x; reflexivity).
    change (prun nl (MKey, FrObj (acc ++ [x]) (fst x) :: k))
      with (MKey, FrObj (acc ++ [x]) (fst x) :: k).
    destruct (IH Hl' Rl' y (acc ++ [x]) (fst x) MKey Hy Ry (or_introl eq_refl)) as [key' ->].
    + rewrite <- app_assoc. exact HN.
    + exists key'. rewrite <- app_assoc. reflexivity.
Qed.

(** Induction over JSON values. *)
Section JsonInd.
  Variable P : json -> Prop.
  Hypothesis Hnull : P JNull.
  Hypothesis Hbool : forall b, P (JBool b).
  Hypothesis Hint : forall z, P (JInt z).
  Hypothesis Hreal : forall t, P (JReal t).
  Hypothesis Hstr : forall s, P (JStr s).
  Hypothesis Harr : forall l, Forall P l -> P (JArr l).
  Hypothesis Hobj : forall l, Forall (fun kv => P (snd kv)) l -> P (JObj l).
  Fixpoint json_ind2 (v : json) : P v :=
    match v with
    | JNull => Hnull
    | JBool b => Hbool b
    | JInt z => Hint z
    | JReal t => Hreal t
    | JStr s => Hstr s
    | JArr l => Harr l ((fix go l := match l return Forall P l with
                        | [] => Forall_nil _ | x :: r => Forall_cons _ (json_ind2 x) (go r) end) l)
    | JObj l => Hobj l ((fix go l := match l return Forall (fun kv : string * json => P (snd kv)) l with
                        | [] => Forall_nil _ | x :: r => Forall_cons _ (json_ind2 (snd x)) (go r) end) l)
    end.
End JsonInd.

Lemma dump_arr (ind : string) (x : json) (l : list json) :
  dump ind (JArr (x :: l)) =
  "[" +++ nl +++ (join ("," +++ nl) (map (elem_text (ind +++ indent4)) (x :: l)) +++ nl) +++ ind +++ "]".
Proof. rewrite sapp_assoc. reflexivity. Qed.

Lemma dump_obj (ind : string) (x : string * json) (l : list (string * json)) :
  dump ind (JObj (x :: l)) =
  "{" +++ nl +++ (join ("," +++ nl) (map (member_text (ind +++ indent4)) (x :: l)) +++ nl) +++ ind +++ "}".
Proof. rewrite sapp_assoc. reflexivity. Qed.

Lemma dump_runs (v : json) : jwf v -> runs v.
Proof.
  induction v as [|b|z|t|s|l IH|l IH] using json_ind2; intros Hv ind m k Hi Hm.
  - cbn [dump prun]. rewrite val_start by (exact Hm || reflexivity). reflexivity.
  - destruct b; cbn [dump prun]; rewrite val_start by (exact Hm || reflexivity); reflexivity.
  - apply int_run. exact Hm.
  - inversion Hv.
  - inversion Hv as [| | |? Hs| |]; subst. cbn [dump]. unfold quoted. cbn [str1 append prun].
    rewrite val_start by (exact Hm || reflexivity). apply quoted_run_val. exact Hs.
  - inversion Hv as [| | | |? Hl|]; subst. destruct l as [|x l].
    + cbn [dump prun]. rewrite val_start by (exact Hm || reflexivity). reflexivity.
    + rewrite dump_arr, prun_app. cbn [prun]. rewrite val_start by (exact Hm || reflexivity).
      change (start_value "[" k) with (MArr0, FrArr [] :: k).
      rewrite prun_app. change (prun nl (MArr0, FrArr [] :: k)) with (MArr0, FrArr [] :: k).
      inversion Hl as [|? ? Hx Hl']; subst. inversion IH as [|? ? IHx IHl]; subst.
      rewrite prun_app, elems_run.
      * rewrite prun_app, (skip_spaces _ ind) by (try exact Hi; split; reflexivity).
        cbn [prun pstep after_value is_ws]. rewrite app_nil_r, rev_involutive. reflexivity.
      * rewrite all_space_app, Hi. reflexivity.
      * exact Hl'.
      * rewrite Forall_forall in *. auto.
      * exact Hx.
      * auto.
      * right; reflexivity.
  - inversion Hv as [| | | | |? Hl HN]; subst. destruct l as [|x l].
    + cbn [dump prun]. rewrite val_start by (exact Hm || reflexivity). reflexivity.
    + rewrite dump_obj, prun_app. cbn [prun]. rewrite val_start by (exact Hm || reflexivity).
      change (start_value "{" k) with (MKey0, FrObj [] "" :: k).
      rewrite prun_app. change (prun nl (MKey0, FrObj [] "" :: k)) with (MKey0, FrObj [] "" :: k).
      inversion Hl as [|? ? Hx Hl']; subst. inversion IH as [|? ? IHx IHl]; subst.
      rewrite prun_app. destruct (members_run (ind +++ indent4) k l) with (x := x) (acc := @nil (string * json)) (key := "") (m := MKey0)
        as [key' ->].
      * rewrite all_space_app, Hi. reflexivity.
      * exact Hl'.
      * rewrite Forall_forall in *. intros kv Hkv. apply IHl; [exact Hkv|]. apply (Hl' kv Hkv).
      * exact Hx.
      * apply IHx. apply Hx.
      * right; reflexivity.
      * exact HN.
      * rewrite prun_app, (skip_spaces _ ind) by (try exact Hi; split; reflexivity). reflexivity.
Qed.

Lemma parse_dump (v : json) : jwf v -> parse_json (dump "" v) = Some v.
Proof.
  intros Hv. unfold parse_json. rewrite (dump_runs v Hv) by (reflexivity || left; reflexivity).
  destruct v; try reflexivity. cbn [pend pfinish]. unfold num_value, num_state. rewrite int_value_dec.
  inversion Hv as [| |? Hf| | |]; subst. rewrite Hf. destruct (z =? 0)%Z; reflexivity.
Qed.

(** ** Truncated text *)

(** States from which the end of input may yield a value. *)
Definition accepting (st : pstate) : Prop :=
  match st with
  | (MDone _, []) => True
  | (MNum _ _, []) => True
  | (MErr, _) => True
  | _ => False
  end.

Lemma accepting_step (st : pstate) (c : ascii) :
  accepting st -> byte c <> 0%N -> accepting (pstep st c).
Proof.
  destruct st as [m k]. destruct m; cbn [accepting]; try tauto.
  - destruct k; [|tauto]. intros _ Hc. cbn [pstep]. destruct (num_step st c); [exact I|].
    destruct (num_value st acc); [|exact I]. cbn [deliver after_value].
    destruct (is_ws c); [exact I|]. replace (byte c =? 0)%N with false by lia. exact I.
  - destruct k; [|tauto]. intros _ Hc. cbn [pstep after_value].
    destruct (is_ws c); [exact I|]. replace (byte c =? 0)%N with false by lia. exact I.
Qed.

Fixpoint no_nul (s : string) : bool :=
  match s with EmptyString => true | String c r => negb (byte c =? 0)%N && no_nul r end.

Lemma accepting_run (s : string) : forall st, accepting st -> no_nul s = true -> accepting (prun s st).
Proof.
  induction s as [|c s IH]; intros st H Hs; [exact H|]. cbn [no_nul prun] in *.
  apply andb_true_iff in Hs as [Hc Hs]. apply IH; [|exact Hs]. apply accepting_step; [exact H|lia].
Qed.

Lemma accepting_brace (st : pstate) : accepting st -> exists k, pstep st "}" = (MErr, k).
Proof.
  destruct st as [m k]. destruct m; cbn [accepting]; try tauto.
  - destruct k; [|tauto]. intros _. cbn [pstep].
    replace (num_step st "}") with (@None numst) by (destruct st; reflexivity).
    destruct (num_value st acc); eexists; reflexivity.
  - destruct k; [|tauto]. intros _. eexists. reflexivity.
  - intros _. eexists. reflexivity.
Qed.

Lemma finish_accepting (st : pstate) (v : json) :
  (match fst st with MDone _ => snd st = [] | MEnd _ => False | _ => True end) ->
  pfinish st = Some v -> accepting st.
Proof.
  destruct st as [m k]. destruct m; cbn [pfinish accepting fst snd]; try congruence; try tauto.
  - destruct k; [tauto|congruence].
  - intros ->. exact (fun _ => I).
Qed.

(** Without NUL bytes the machine never reaches [MEnd], and [MDone] only with
    an empty stack. *)
Definition tidy (st : pstate) : Prop :=
  match fst st with MDone _ => snd st = [] | MEnd _ => False | _ => True end.

Ltac dif := match goal with |- context [if ?b then _ else _] => destruct b end.

Lemma tidy_deliver (v : json) (k : list frame) : tidy (deliver v k).
Proof. destruct k as [|[]]; reflexivity || exact I. Qed.

Lemma tidy_after (c : ascii) (st : pstate) : tidy st -> byte c <> 0%N -> tidy (after_value c st).
Proof.
  destruct st as [m k]. intros H Hc. unfold after_value. destruct m; try exact I.
  - destruct k as [|[] k]; [exact I| |]; repeat dif; try exact I; apply tidy_deliver.
  - destruct (is_ws c); [exact H|]. replace (byte c =? 0)%N with false by lia. exact I.
Qed.

Lemma tidy_start (c : ascii) (k : list frame) : tidy (start_value c k).
Proof. unfold start_value. repeat dif; exact I. Qed.

Lemma tidy_str ik acc sub c k : tidy (str_step ik acc sub c k).
Proof.
  unfold str_step, str_done. destruct sub as [| |n v hi|hi|hi|p].
  - destruct (Ascii.eqb c ch_quote).
    + destruct ik; [destruct k as [|[]]; exact I|apply tidy_deliver].
    + repeat dif; try exact I. destruct (utf8_lead c) as [[|]|]; exact I.
  - repeat dif; exact I.
  - destruct (hex_val c); [|exact I]. destruct n as [|[|n]]; [| |exact I];
      destruct hi; repeat dif; exact I.
  - dif; exact I.
  - dif; exact I.
  - destruct p as [|[] p]; [exact I|]. dif; [|exact I]. destruct p; exact I.
Qed.

Lemma tidy_step (st : pstate) (c : ascii) : tidy st -> byte c <> 0%N -> tidy (pstep st c).
Proof.
  destruct st as [m k]. intros H Hc. destruct m; cbn [pstep].
  - repeat dif; try exact I. apply tidy_start.
  - dif; exact I.
  - dif; exact I.
  - dif; [exact I|apply tidy_start].
  - dif; [exact I|]. dif; [|apply tidy_start].
    destruct k as [|[]]; try exact I. apply tidy_deliver.
  - dif; [exact I|]. dif; [|dif; exact I].
    destruct k as [|[]]; try exact I. apply tidy_deliver.
  - repeat dif; exact I.
  - repeat dif; exact I.
  - apply tidy_after; assumption.
  - apply tidy_str.
  - destruct rest as [|x [|y r]]; try exact I; dif; try exact I. apply tidy_deliver.
  - destruct (num_step st c); [exact I|]. destruct (num_value st acc); [|exact I].
    apply tidy_after; [apply tidy_deliver|exact Hc].
  - apply tidy_after; assumption.
  - destruct H.
  - exact I.
Qed.

Lemma tidy_run (s : string) : forall st, tidy st -> no_nul s = true -> tidy (prun s st).
Proof.
  induction s as [|c s IH]; intros st H Hs; [exact H|]. cbn [no_nul prun] in *.
  apply andb_true_iff in Hs as [Hc Hs]. apply IH; [|exact Hs]. apply tidy_step; [exact H|lia].
Qed.

Lemma no_nul_app (a b : string) : no_nul (a +++ b) = no_nul a && no_nul b.
Proof. induction a as [|c a IH]; [reflexivity|]. cbn [append no_nul]. rewrite IH, andb_assoc. reflexivity. Qed.

(** The text of an object: nothing shorter parses. *)
Lemma parse_prefix_none (v : json) (body p q : string) :
  parse_json (body +++ "}") = Some v -> no_nul body = true ->
  body +++ "}" = p +++ q -> q <> "" -> parse_json p = None.
Proof.
  intros Hv Hn E Hq.
  assert (Hq' : exists q', q = q' +++ "}" /\ body = p +++ q').
  { clear - E Hq. revert p E. induction body as [|c b IH]; intros p E.
    - destruct p as [|d p]; [exists ""; split; [symmetry; exact E|reflexivity]|].
      cbn [append] in E. injection E as <- E. exfalso. apply Hq.
      symmetry in E. apply sapp_eq_nil in E. apply E.
    - destruct p as [|d p].
      + exists (String c b). split; [symmetry; exact E|reflexivity].
      + cbn [append] in E. injection E as <- E. destruct (IH p E) as (q' & H1 & H2).
        exists q'. split; [exact H1|rewrite H2; reflexivity]. }
  destruct Hq' as (q' & -> & ->). rewrite no_nul_app in Hn. apply andb_true_iff in Hn as [Hp Hq'].
  destruct (parse_json p) as [w|] eqn:Ep; [exfalso|reflexivity].
  unfold parse_json in *.
  assert (Ha : accepting (prun p (MStart, []))).
  { eapply finish_accepting; [|exact Ep]. apply (tidy_run p (MStart, [])); [exact I|exact Hp]. }
  rewrite sapp_assoc, !prun_app in Hv.
  assert (Hb := accepting_run q' _ Ha Hq'). destruct (accepting_brace _ Hb) as [k' Hk'].
  cbn [prun] in Hv. rewrite Hk' in Hv. discriminate Hv.
Qed.
