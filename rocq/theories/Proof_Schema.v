(** Storing and loading. *)
From Verif Require Import Prelude Model_Path Model_Json Model_Schema Spec_Json
  Proof_Prelude Proof_Json Proof_Dec Proof_JsonText.
From Coq Require Import ZifyBool ZifyNat ZifyN.

(** ** Values *)

Lemma get_all_map {A} (f : json -> option A) (g : A -> json) (l : list A) :
  (forall a, In a l -> f (g a) = Some a) -> get_all f (map g l) = Some l.
Proof.
  induction l as [|a l IH]; intros H; [reflexivity|]. cbn [map get_all].
  rewrite (H a) by (left; reflexivity). cbn [bind]. rewrite IH; [reflexivity|].
  intros b Hb. apply H. right. exact Hb.
Qed.

Lemma get_strings_rt (l : list string) : get_strings (strs_to_json l) = Some l.
Proof. apply get_all_map. reflexivity. Qed.

Lemma get_infos_rt (l : infolist) : get_infos (infolist_to_json l) = Some l.
Proof. apply get_all_map. intros [p h] _. reflexivity. Qed.

Lemma get_type_rt (t : target_type) : get_type (type_to_json t) = Some t.
Proof. destruct t; reflexivity. Qed.

Lemma target_value_rt (s : tschema) : target_from_json (target_to_json s) = Some s.
Proof.
  unfold target_from_json, get_at, target_to_json, jat.
  cbn [assoc String.eqb Ascii.eqb Bool.eqb].
  cbn [bind get_string get_bool].
  repeat (first [rewrite get_type_rt | rewrite get_infos_rt | rewrite get_strings_rt]; cbn [bind]).
  destruct s; reflexivity.
Qed.

Lemma idinfo_rt (r : string -> N) (i : idinfo) :
  Forall (fun b => (b < 256)%N) (ii_blob i) -> get_idinfo r (idinfo_to_json i) = Some i.
Proof.
  intros H. unfold get_idinfo, idinfo_to_json, get_at, jat.
  cbn [assoc String.eqb Ascii.eqb Bool.eqb bind].
  rewrite get_infos_rt. cbn [bind]. rewrite get_strings_rt. cbn [bind].
  cbn [get_array]. rewrite get_all_map; [destruct i; reflexivity|].
  intros b Hb. rewrite Forall_forall in H. specialize (H b Hb). cbn [get_u8]. f_equal.
  rewrite Z.mod_small by lia. lia.
Qed.

Lemma gen_value_rt (r : string -> N) (s : gschema) :
  gen_ok s -> gen_from_json r (gen_to_json s) = Some s.
Proof.
  intros [_ H]. unfold gen_from_json, gen_to_json, get_at, jat.
  cbn [assoc String.eqb Ascii.eqb Bool.eqb bind get_string get_map].
  assert (E : get_members (get_idinfo r) (map (fun kv => (fst kv, idinfo_to_json (snd kv))) (gs_ids s))
              = Some (gs_ids s)).
  { clear - H. induction (gs_ids s) as [|[k i] l IH]; [reflexivity|]. inversion H as [|? ? H1 H2]; subst.
    cbn [map fst snd get_members]. rewrite idinfo_rt by exact H1. cbn [bind]. rewrite IH by exact H2. reflexivity. }
  rewrite E. destruct s; reflexivity.
Qed.

(** ** Which values can be dumped *)

Lemma utf8_strs (l : list string) :
  utf8_json (strs_to_json l) = true <-> Forall valid_utf8 l.
Proof.
  cbn [utf8_json strs_to_json]. rewrite forallb_forall, Forall_forall. split.
  - intros H s Hs. apply utf8_ok_iff. apply (H (JStr s)). apply in_map. exact Hs.
  - intros H v Hv. apply in_map_iff in Hv as (s & <- & Hs). apply utf8_ok_iff. apply H. exact Hs.
Qed.

Lemma utf8_infos (l : infolist) :
  utf8_json (infolist_to_json l) = true <-> Forall valid_utf8 (info_strings l).
Proof.
  unfold infolist_to_json, info_strings. cbn [utf8_json].
  induction l as [|[p h] l IH]; [split; [constructor|reflexivity]|].
  cbn [map forallb flat_map app]. rewrite andb_true_iff, IH, !Forall_cons_iff, <- !utf8_ok_iff.
  cbn [pathinfo_to_json utf8_json forallb fst snd pi_path pi_hash].
  change (utf8_ok [] "path") with true. change (utf8_ok [] "hash") with true.
  cbn [andb]. rewrite !andb_true_iff. tauto.
Qed.

Lemma utf8_type (t : target_type) : utf8_json (type_to_json t) = true.
Proof. destruct t; reflexivity. Qed.

Lemma utf8_member (k : string) (v : json) (l : list (string * json)) :
  utf8_ok [] k = true ->
  (utf8_json (JObj ((k, v) :: l)) = true <-> utf8_json v = true /\ utf8_json (JObj l) = true).
Proof. intros Hk. cbn [utf8_json forallb fst snd]. rewrite Hk. cbn [andb]. apply andb_true_iff. Qed.

Lemma utf8_obj_nil : utf8_json (JObj []) = true <-> True.
Proof. split; reflexivity || exact (fun _ => I). Qed.

Lemma utf8_str (s : string) : utf8_json (JStr s) = true <-> valid_utf8 s.
Proof. apply utf8_ok_iff. Qed.

Lemma utf8_target (s : tschema) :
  utf8_json (target_to_json s) = true <-> Forall valid_utf8 (target_strings s).
Proof.
  unfold target_to_json. do 21 (rewrite utf8_member by reflexivity). rewrite utf8_obj_nil.
  unfold target_strings. rewrite Forall_cons_iff, !Forall_app.
  rewrite !utf8_infos, !utf8_strs, utf8_str. 
  pose proof (utf8_type (ts_type s)) as Ht. cbn [utf8_json]. tauto.
Qed.

Lemma utf8_ints (l : list N) : utf8_json (JArr (map (fun b => JInt (Z.of_N b)) l)) = true.
Proof. cbn [utf8_json]. induction l; [reflexivity|assumption]. Qed.

Lemma utf8_gen (s : gschema) :
  utf8_json (gen_to_json s) = true <-> Forall valid_utf8 (gen_strings s).
Proof.
  unfold gen_to_json. do 2 (rewrite utf8_member by reflexivity). rewrite utf8_obj_nil, utf8_str.
  unfold gen_strings. rewrite Forall_cons_iff.
  assert (E : utf8_json (JObj (map (fun kv => (fst kv, idinfo_to_json (snd kv))) (gs_ids s))) = true
              <-> Forall valid_utf8 (flat_map id_strings (gs_ids s))).
  { induction (gs_ids s) as [|[k i] l IH]; [split; [constructor|reflexivity]|].
    cbn [map flat_map fst snd]. rewrite Forall_app, <- IH. unfold id_strings at 1. cbn [fst snd]. rewrite Forall_cons_iff, Forall_app.
    change (utf8_json (JObj ((k, idinfo_to_json i) ::
             map (fun kv => (fst kv, idinfo_to_json (snd kv))) l)))
      with (utf8_ok [] k && utf8_json (idinfo_to_json i) &&
            utf8_json (JObj (map (fun kv => (fst kv, idinfo_to_json (snd kv))) l))).
    rewrite !andb_true_iff, utf8_ok_iff. unfold idinfo_to_json.
    do 3 (rewrite utf8_member by reflexivity). rewrite utf8_infos, utf8_strs.
    pose proof (utf8_ints (ii_blob i)) as Hb. pose proof utf8_obj_nil. tauto. }
  rewrite E. tauto.
Qed.

(** ** Well-formedness for the parser *)

Lemma jwf_strs (l : list string) : utf8_json (strs_to_json l) = true -> jwf (strs_to_json l).
Proof.
  rewrite utf8_strs, Forall_forall. intros H. constructor. apply Forall_forall. intros v Hv.
  apply in_map_iff in Hv as (s & <- & Hs). constructor. apply utf8_ok_iff. auto.
Qed.

Ltac nodup_keys := repeat constructor; cbn; intuition discriminate.

Lemma jwf_infos (l : infolist) : utf8_json (infolist_to_json l) = true -> jwf (infolist_to_json l).
Proof.
  cbn [utf8_json infolist_to_json]. rewrite forallb_forall. intros H. constructor. apply Forall_forall.
  intros v Hv. pose proof (H v Hv) as Hu. apply in_map_iff in Hv as ([p h] & <- & Hs).
  cbn [pathinfo_to_json utf8_json forallb fst snd pi_path pi_hash] in Hu.
  rewrite !andb_true_iff in Hu. destruct Hu as ((_ & Hp) & (_ & Hh) & _).
  unfold pathinfo_to_json. constructor; [|nodup_keys].
  repeat constructor; assumption.
Qed.

Lemma jwf_type (t : target_type) : jwf (type_to_json t).
Proof. destruct t; constructor; reflexivity. Qed.

Lemma jwf_member (k : string) (v : json) (l : list (string * json)) :
  utf8_ok [] k = true -> jwf v -> ~ In k (map fst l) -> jwf (JObj l) -> jwf (JObj ((k, v) :: l)).
Proof.
  intros Hk Hv Hn Hl. inversion Hl as [| | | | |? H1 H2]; subst.
  constructor; [constructor; [split; assumption|exact H1]|constructor; assumption].
Qed.

Lemma jwf_target (s : tschema) : utf8_json (target_to_json s) = true -> jwf (target_to_json s).
Proof.
  unfold target_to_json. do 21 (rewrite utf8_member by reflexivity). intros H.
  repeat match type of H with _ /\ _ => let H1 := fresh "U" in destruct H as [H1 H] end.
  repeat (apply jwf_member;
    [reflexivity
    |first [apply jwf_type | apply jwf_infos; assumption | apply jwf_strs; assumption
           | constructor; assumption | constructor]
    |cbn; intuition discriminate|]).
  constructor; constructor.
Qed.

Lemma jwf_gen (s : gschema) : gen_ok s -> utf8_json (gen_to_json s) = true -> jwf (gen_to_json s).
Proof.
  intros [HN Hb]. unfold gen_to_json. do 2 (rewrite utf8_member by reflexivity). intros (U1 & U2 & _).
  apply jwf_member; [reflexivity|constructor; exact U1|cbn; intuition discriminate|].
  apply jwf_member; [reflexivity| |cbn; intuition discriminate|constructor; constructor].
  constructor.
  - cbn [utf8_json] in U2. rewrite forallb_forall in U2. apply Forall_forall. intros kv Hkv.
    pose proof (U2 kv Hkv) as Hu. apply andb_true_iff in Hu as [Hk Hv]. split; [exact Hk|].
    apply in_map_iff in Hkv as ([k i] & <- & Hi). cbn [fst snd] in *.
    rewrite Forall_forall in Hb. specialize (Hb (k, i) Hi). cbn [snd] in Hb.
    unfold idinfo_to_json in *. revert Hv. do 3 (rewrite utf8_member by reflexivity). intros (V1 & V2 & _).
    apply jwf_member; [reflexivity|apply jwf_infos; exact V1|cbn; intuition discriminate|].
    apply jwf_member; [reflexivity|apply jwf_strs; exact V2|cbn; intuition discriminate|].
    apply jwf_member; [reflexivity| |cbn; intuition discriminate|].
    + constructor. apply Forall_forall. intros v Hv. apply in_map_iff in Hv as (b & <- & Hb').
      rewrite Forall_forall in Hb. specialize (Hb b Hb'). constructor. unfold int_fits. lia.
    + constructor; constructor.
  - rewrite map_map. exact HN.
Qed.

(** ** Text *)

Lemma store_text_some (s : tschema) (t : string) :
  store_text s = Some t -> utf8_json (target_to_json s) = true /\ t = dump "" (target_to_json s).
Proof. unfold store_text, dump4. destruct (utf8_json _); intros H; [injection H as <-; auto|discriminate]. Qed.

Lemma gen_store_text_some (s : gschema) (t : string) :
  gen_store_text s = Some t -> utf8_json (gen_to_json s) = true /\ t = dump "" (gen_to_json s).
Proof. unfold gen_store_text, dump4. destruct (utf8_json _); intros H; [injection H as <-; auto|discriminate]. Qed.

Lemma target_text_rt (s : tschema) (t : string) : store_text s = Some t -> load_text t = Some s.
Proof.
  intros H. apply store_text_some in H as [Hu ->]. unfold load_text.
  rewrite parse_dump by (apply jwf_target; exact Hu). apply target_value_rt.
Qed.

Lemma gen_text_rt (r : string -> N) (s : gschema) (t : string) :
  gen_ok s -> gen_store_text s = Some t -> gen_load_text r t = Some s.
Proof.
  intros Hok H. apply gen_store_text_some in H as [Hu ->]. unfold gen_load_text.
  rewrite parse_dump by (apply jwf_gen; assumption). apply gen_value_rt. exact Hok.
Qed.

Lemma store_text_iff (s : tschema) :
  (exists t, store_text s = Some t) <-> Forall valid_utf8 (target_strings s).
Proof.
  rewrite <- utf8_target. unfold store_text, dump4. destruct (utf8_json _).
  - split; [reflexivity|eexists; reflexivity].
  - split; [intros [? H]; discriminate|discriminate].
Qed.

Lemma gen_store_text_iff (s : gschema) :
  (exists t, gen_store_text s = Some t) <-> Forall valid_utf8 (gen_strings s).
Proof.
  rewrite <- utf8_gen. unfold gen_store_text, dump4. destruct (utf8_json _).
  - split; [reflexivity|eexists; reflexivity].
  - split; [intros [? H]; discriminate|discriminate].
Qed.

(** The text holds no NUL byte. *)
Lemma no_nul_escape_char (c : ascii) : no_nul (escape_char c) = true.
Proof. destruct c as [[] [] [] [] [] [] [] []]; reflexivity. Qed.

Lemma no_nul_escape (s : string) : no_nul (escape s) = true.
Proof.
  induction s as [|c s IH]; [reflexivity|]. cbn [escape]. rewrite no_nul_app, no_nul_escape_char, IH. reflexivity.
Qed.

Lemma no_nul_quoted (s : string) : no_nul (quoted s) = true.
Proof. unfold quoted. rewrite !no_nul_app, no_nul_escape. reflexivity. Qed.

Lemma no_nul_dec_all (s : string) : all_dec s = true -> no_nul s = true.
Proof.
  induction s as [|c s IH]; [reflexivity|]. cbn [all_dec no_nul]. rewrite !andb_true_iff.
  intros [H1 H2]. split; [|auto]. apply brange_spec in H1. lia.
Qed.

Lemma no_nul_dec (n : N) : no_nul (dec_of_N n) = true.
Proof.
  destruct (dec_of_N_shape n) as (c & r & -> & Hc & Hr & _). apply no_nul_dec_all.
  cbn [all_dec]. rewrite Hc, Hr. reflexivity.
Qed.

Lemma no_nul_spaces (s : string) : all_space s = true -> no_nul s = true.
Proof.
  induction s as [|c s IH]; [reflexivity|]. cbn [all_space no_nul]. rewrite !andb_true_iff.
  intros [H1 H2]. apply Ascii.eqb_eq in H1. subst. split; [reflexivity|auto].
Qed.

Lemma no_nul_join (sep : string) (l : list string) :
  no_nul sep = true -> Forall (fun s => no_nul s = true) l -> no_nul (join sep l) = true.
Proof.
  intros Hs. induction l as [|x l IH]; intros H; [reflexivity|]. inversion H as [|? ? H1 H2]; subst.
  destruct l as [|y l]; [exact H1|]. rewrite join_cons by discriminate.
  rewrite !no_nul_app, H1, Hs, IH by exact H2. reflexivity.
Qed.

Lemma no_nul_dump (v : json) : jwf v -> forall ind, all_space ind = true -> no_nul (dump ind v) = true.
Proof.
  induction v as [|b|z|t|s|l IH|l IH] using json_ind2; intros Hv ind Hi.
  - reflexivity.
  - destruct b; reflexivity.
  - cbn [dump]. unfold dec_of_Z. destruct z; [apply no_nul_dec..|].
    rewrite no_nul_app, no_nul_dec. reflexivity.
  - inversion Hv.
  - apply no_nul_quoted.
  - inversion Hv as [| | | |? Hl|]; subst. destruct l as [|x l]; [reflexivity|].
    assert (Hi' : all_space (ind +++ indent4) = true) by (rewrite all_space_app, Hi; reflexivity).
    rewrite dump_arr, !no_nul_app, (no_nul_spaces ind Hi), no_nul_join; [reflexivity|reflexivity|].
    rewrite Forall_forall in *. intros t Ht. apply in_map_iff in Ht as (y & <- & Hy).
    unfold elem_text. rewrite no_nul_app, no_nul_spaces by exact Hi'. apply IH; auto.
  - inversion Hv as [| | | | |? Hl HN]; subst. destruct l as [|x l]; [reflexivity|].
    assert (Hi' : all_space (ind +++ indent4) = true) by (rewrite all_space_app, Hi; reflexivity).
    rewrite dump_obj, !no_nul_app, (no_nul_spaces ind Hi), no_nul_join; [reflexivity|reflexivity|].
    rewrite Forall_forall in *. intros t Ht. apply in_map_iff in Ht as (y & <- & Hy).
    unfold member_text. rewrite !no_nul_app, (no_nul_spaces _ Hi), (no_nul_quoted (fst y)).
    change (no_nul indent4) with true. change (no_nul ": ") with true.
    cbn [no_nul andb]. rewrite IH; auto. apply Hl. exact Hy.
Qed.

Lemma obj_prefix_none (l : list (string * json)) (p : string) :
  jwf (JObj l) -> l <> [] -> strict_prefix p (dump "" (JObj l)) -> parse_json p = None.
Proof.
  intros Hv Hl (q & Hq & E). destruct l as [|x l]; [congruence|].
  pose proof (parse_dump _ Hv) as Hp. pose proof (no_nul_dump _ Hv "" eq_refl) as Hn.
  rewrite dump_obj in *. 
  set (body := "{" +++ nl +++ join ("," +++ nl) (map (member_text ("" +++ indent4)) (x :: l)) +++ nl).
  assert (Eb : "{" +++ nl +++ (join ("," +++ nl) (map (member_text ("" +++ indent4)) (x :: l)) +++ nl) +++ "" +++ "}"
               = body +++ "}").
  { unfold body. rewrite !sapp_assoc. reflexivity. }
  rewrite Eb in *. rewrite no_nul_app in Hn. apply andb_true_iff in Hn as [Hn _].
  eapply parse_prefix_none; eassumption.
Qed.

Lemma target_prefix (s : tschema) (t p : string) :
  store_text s = Some t -> strict_prefix p t -> load_text p = None.
Proof.
  intros H Hp. apply store_text_some in H as [Hu ->]. unfold load_text.
  rewrite (obj_prefix_none _ p (jwf_target s Hu)); [reflexivity|discriminate|exact Hp].
Qed.

Lemma gen_prefix (r : string -> N) (s : gschema) (t p : string) :
  gen_ok s -> gen_store_text s = Some t -> strict_prefix p t -> gen_load_text r p = None.
Proof.
  intros Hok H Hp. apply gen_store_text_some in H as [Hu ->]. unfold gen_load_text.
  rewrite (obj_prefix_none _ p (jwf_gen s Hok Hu)); [reflexivity|discriminate|exact Hp].
Qed.

(** ** Missing and ill-typed fields *)

Lemma get_string_iff (v : json) : (exists s, get_string v = Some s) <-> is_string v.
Proof.
  split; [|intros [s ->]; eexists; reflexivity].
  intros [s H]. destruct v; try discriminate. eexists; reflexivity.
Qed.

Lemma get_bool_iff (v : json) : (exists b, get_bool v = Some b) <-> has_shape ShBool v.
Proof.
  split; [|intros [s ->]; eexists; reflexivity].
  intros [s H]. destruct v; try discriminate. eexists; reflexivity.
Qed.

Lemma get_all_iff {A} (f : json -> option A) (P : json -> Prop) (l : list json) :
  (forall v, (exists a, f v = Some a) <-> P v) ->
  (exists r, get_all f l = Some r) <-> Forall P l.
Proof.
  intros H. induction l as [|v l IH].
  - split; [constructor|eexists; reflexivity].
  - cbn [get_all]. rewrite Forall_cons_iff, <- IH, <- H. split.
    + intros [r E]. destruct (f v) as [a|]; [|discriminate]. cbn [bind] in E.
      destruct (get_all f l) as [b|]; [|discriminate]. split; eexists; reflexivity.
    + intros [[a ->] [b ->]]. eexists; reflexivity.
Qed.

Lemma get_array_iff {A} (f : json -> option A) (P : json -> Prop) (v : json) :
  (forall v, (exists a, f v = Some a) <-> P v) ->
  (exists r, get_array f v = Some r) <-> exists l, v = JArr l /\ Forall P l.
Proof.
  intros H. split.
  - intros [r E]. destruct v; try discriminate. cbn [get_array] in E. eexists; split; [reflexivity|].
    apply (get_all_iff f P _ H). eauto.
  - intros (l & -> & Hl). apply (get_all_iff f P _ H). exact Hl.
Qed.

Lemma get_pathinfo_iff (v : json) : (exists i, get_pathinfo v = Some i) <-> is_info v.
Proof.
  unfold get_pathinfo, is_info, jat. split.
  - intros [i E]. destruct v as [| | | | | |l]; try discriminate E.
    destruct (assoc "path" l) as [[]|] eqn:E1; try discriminate E.
    destruct (assoc "hash" l) as [[]|] eqn:E2; try discriminate E.
    cbn in E. do 3 eexists. eauto.
  - intros (l & p & h & -> & -> & ->). eexists. reflexivity.
Qed.

Definition getter_ok {A} (f : json -> option A) (sh : shape) : Prop :=
  forall v, (exists a, f v = Some a) <-> has_shape sh v.

Lemma g_string : getter_ok get_string ShString. Proof. exact get_string_iff. Qed.
Lemma g_bool : getter_ok get_bool ShBool. Proof. exact get_bool_iff. Qed.
Lemma g_strings : getter_ok get_strings ShStrings.
Proof. intros v. apply get_array_iff. exact get_string_iff. Qed.
Lemma g_infos : getter_ok get_infos ShInfos.
Proof. intros v. apply get_array_iff. exact get_pathinfo_iff. Qed.
Lemma g_type : getter_ok get_type ShAny.
Proof. intros v. split; [intros _; exact I|intros _; destruct v; eexists; reflexivity]. Qed.

Definition field_ok (j : json) (ks : string * shape) : Prop :=
  exists v, member j (fst ks) = Some v /\ has_shape (snd ks) v.

Lemma bind_at {A B} (j : json) (k : string) (f : json -> option A) (sh : shape) (c : A -> option B) (P : Prop) :
  getter_ok f sh -> (forall a, (exists b, c a = Some b) <-> P) ->
  (exists b, bind (get_at j k f) c = Some b) <-> (field_ok j (k, sh) /\ P).
Proof.
  intros Hf Hc. unfold get_at, field_ok. cbn [fst snd]. split.
  - intros [b E]. change (jat j k) with (member j k) in E.
    destruct (member j k) as [v|] eqn:Em; [|discriminate]. cbn [bind] in E.
    destruct (f v) as [a|] eqn:Ef; [|discriminate]. cbn [bind] in E. split.
    + exists v. split; [reflexivity|]. apply Hf. eauto.
    + apply (Hc a). eauto.
  - intros [(v & Em & Hs) HP]. change (jat j k) with (member j k). rewrite Em. cbn [bind].
    apply Hf in Hs as [a Ha]. rewrite Ha. cbn [bind]. apply Hc. exact HP.
Qed.

Lemma target_from_json_iff (j : json) :
  (exists s, target_from_json j = Some s) <->
  Forall (fun ks => exists v, member j (fst ks) = Some v /\ has_shape (snd ks) v) target_fields.
Proof.
  change (fun ks : string * shape => exists v, member j (fst ks) = Some v /\ has_shape (snd ks) v)
    with (field_ok j).
  unfold target_from_json, target_fields. rewrite !Forall_cons_iff.
  repeat (apply bind_at;
    [first [exact g_string | exact g_type | exact g_infos | exact g_strings | exact g_bool] | intros ?]).
  split; [constructor|intros _; eexists; reflexivity].
Qed.

Lemma target_from_json_ext (j j' : json) :
  (forall k, In k target_keys -> member j k = member j' k) ->
  target_from_json j = target_from_json j'.
Proof.
  intros H. unfold target_from_json, get_at.
  change (jat j) with (member j). change (jat j') with (member j').
  unfold target_keys in H.
  repeat (rewrite (H _) by (cbn [In]; tauto)). reflexivity.
Qed.

Lemma load_atomic (st : tschema * bool) (file : option string) :
  let r := load_from_file load_text st file in
  (snd r = true /\ exists t, file = Some t /\ load_text t = Some (fst (fst r)) /\ snd (fst r) = true)
  \/ (snd r = false /\ fst (fst r) = fst st /\ (file = None \/ snd (fst r) = false)).
Proof.
  unfold load_from_file. destruct file as [t|]; [|right; auto].
  destruct (load_text t) as [s|] eqn:E; [left|right].
  - cbn. split; [reflexivity|]. eauto.
  - cbn. auto.
Qed.
