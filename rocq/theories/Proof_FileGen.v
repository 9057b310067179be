(** FileGenerator and TemplateGenerator. *)
From Verif Require Import Prelude Proof_Prelude Model_Path Model_Json Model_Schema Spec_Json Proof_Dec
  Proof_Schema Model_Command Model_Target Spec_Target Proof_TargetBase Model_Gen Spec_Gen Proof_Gen Proof_GenInv
  Proof_GenMain Proof_GenRuns Proof_GenSel Model_FileGen Spec_FileGen.

(** ** MessagePack round trip *)
Lemma string_bytes s : string_of (bytes_of s) = s.
Proof.
  unfold string_of, bytes_of. rewrite map_map. rewrite map_ext with (g := fun x => x) by (intros a; apply ascii_N_embedding).
  rewrite map_id. apply string_of_list_ascii_of_string.
Qed.
Lemma bytes_length s : N.of_nat (length (bytes_of s)) = slen s.
Proof.
  unfold slen, bytes_of. rewrite map_length. f_equal. induction s as [|c s IH]; cbn; [reflexivity|]. f_equal. exact IH.
Qed.
Lemma take_app (x r : list N) : take (N.of_nat (length x)) (x ++ r) = Some (x, r).
Proof.
  induction x as [|b x IH]; [destruct r; reflexivity|]. cbn [length app take].
  replace (N.eqb (N.of_nat (S (length x))) 0) with false by (symmetry; apply N.eqb_neq; lia).
  replace (N.pred (N.of_nat (S (length x)))) with (N.of_nat (length x)) by lia. rewrite IH. reflexivity.
Qed.
Lemma str_n_bytes s r : str_n (slen s) (bytes_of s ++ r) = Some (s, r).
Proof. unfold str_n. rewrite <- bytes_length, take_app, string_bytes. reflexivity. Qed.

Lemma take2 a b r : take 2 (a :: b :: r) = Some ([a; b], r).
Proof. exact (take_app [a; b] r). Qed.
Lemma take4 a b c d r : take 4 (a :: b :: c :: d :: r) = Some ([a; b; c; d], r).
Proof. exact (take_app [a; b; c; d] r). Qed.
Lemma take1 a r : take 1 (a :: r) = Some ([a], r).
Proof. exact (take_app [a] r). Qed.
Lemma len2 n r : (n < 65536)%N -> len 2 (be2 n ++ r) = Some (n, r).
Proof.
  intros H. unfold len, be2. cbn [app]. rewrite take2. f_equal. f_equal. unfold be. cbn [fold_left].
  rewrite (N.div_mod n 256) at 3 by lia. lia.
Qed.
Lemma len4 n r : (n < 4294967296)%N -> len 4 (be4 n ++ r) = Some (n, r).
Proof.
  intros H. unfold len, be4, be2. cbn [app]. rewrite take4. f_equal. f_equal. unfold be. cbn [fold_left].
  set (a := (n / 65536)%N). set (b := (n mod 65536)%N).
  assert (E1 : n = (65536 * a + b)%N) by (apply N.div_mod; lia).
  assert (E2 : a = (256 * (a / 256) + a mod 256)%N) by (apply N.div_mod; lia).
  assert (E3 : b = (256 * (b / 256) + b mod 256)%N) by (apply N.div_mod; lia).
  lia.
Qed.

Lemma enc_str_cons s : (slen s < 4294967296)%N -> exists b t, enc_str s = b :: t /\ (160 <= b)%N.
Proof.
  intros H. unfold enc_str, str_prefix. destruct (N.ltb (slen s) 32) eqn:A; [eexists; eexists; split; [reflexivity|lia]|].
  destruct (N.ltb (slen s) 256) eqn:B; [eexists; eexists; split; [reflexivity|lia]|].
  destruct (N.ltb (slen s) 65536) eqn:C; [eexists; eexists; split; [reflexivity|lia]|].
  apply N.ltb_lt in H. rewrite H. eexists; eexists; split; [reflexivity|lia].
Qed.
Lemma dec_str_enc s r : (slen s < 4294967296)%N -> dec_str (enc_str s ++ r) = Some (s, r).
Proof.
  intros H. unfold enc_str, str_prefix. destruct (N.ltb (slen s) 32) eqn:A.
  - cbn [app dec_str]. apply N.ltb_lt in A.
    replace (N.leb 160 (160 + slen s)) with true by (symmetry; apply N.leb_le; lia).
    replace (N.ltb (160 + slen s) 192) with true by (symmetry; apply N.ltb_lt; lia). cbn [andb].
    replace (160 + slen s - 160)%N with (slen s) by lia. apply str_n_bytes.
  - destruct (N.ltb (slen s) 256) eqn:B.
    { cbn [app dec_str]. change (N.leb 160 217 && N.ltb 217 192) with false. cbn iota. change (N.eqb 217 217) with true. cbn iota.
      unfold with_len, len. rewrite take1. unfold be. cbn [fold_left]. replace (0 * 256 + slen s)%N with (slen s) by lia.
      apply str_n_bytes. }
    destruct (N.ltb (slen s) 65536) eqn:C.
    { rewrite <- app_assoc. cbn [app dec_str]. change (N.leb 160 218 && N.ltb 218 192) with false. cbn iota.
      change (N.eqb 218 217) with false. change (N.eqb 218 218) with true. cbn iota.
      unfold with_len. change (N.div (slen s) 256 :: N.modulo (slen s) 256 :: bytes_of s ++ r) with (be2 (slen s) ++ bytes_of s ++ r).
      rewrite len2 by (apply N.ltb_lt; exact C). apply str_n_bytes. }
    assert (D := H). apply N.ltb_lt in D. rewrite D. rewrite <- app_assoc. cbn [app dec_str].
    change (N.leb 160 219 && N.ltb 219 192) with false. cbn iota.
    change (N.eqb 219 217) with false. change (N.eqb 219 218) with false. change (N.eqb 219 219) with true. cbn iota.
    unfold with_len. rewrite len4 by exact H. apply str_n_bytes.
Qed.
Lemma dec_val_str f s r : (slen s < 4294967296)%N -> dec_val (S f) (enc_str s ++ r) = Some (MStr s, r).
Proof.
  intros H. destruct (enc_str_cons s H) as (b & t & E & L). assert (D := dec_str_enc s r H). rewrite E in *. cbn [app] in *.
  cbn [dec_val].
  replace (N.ltb b 128) with false by (symmetry; apply N.ltb_ge; lia).
  replace (N.ltb b 144) with false by (symmetry; apply N.ltb_ge; lia).
  replace (N.ltb b 160) with false by (symmetry; apply N.ltb_ge; lia).
  rewrite D. reflexivity.
Qed.
Lemma dec_many_strs f cs : forall k, Forall (fun c => (slen c < 4294967296)%N) cs -> length cs <= k ->
  dec_many (dec_val (S f)) k (N.of_nat (length cs)) (flat_map enc_str cs) = Some (map MStr cs, []).
Proof.
  induction cs as [|c cs IH]; intros k F L; [destruct k; reflexivity|]. apply Forall_cons_iff in F as [F1 F2].
  destruct k as [|k]; cbn [length] in L; [lia|]. cbn [length flat_map dec_many map].
  replace (N.eqb (N.of_nat (S (length cs))) 0) with false by (symmetry; apply N.eqb_neq; lia).
  rewrite dec_val_str by exact F1. replace (N.pred (N.of_nat (S (length cs)))) with (N.of_nat (length cs)) by lia.
  rewrite IH by (try assumption; lia). reflexivity.
Qed.
Lemma enc_strs_length cs : Forall (fun c => (slen c < 4294967296)%N) cs -> length cs <= length (flat_map enc_str cs).
Proof.
  induction cs as [|c cs IH]; intros F; cbn [length flat_map]; [lia|]. apply Forall_cons_iff in F as [F1 F2].
  rewrite app_length. destruct (enc_str_cons c F1) as (b & t & E & _). rewrite E. cbn [length]. specialize (IH F2). lia.
Qed.
Lemma strings_of_map cs : strings_of (map MStr cs) = Some cs.
Proof. induction cs as [|c cs IH]; cbn; [reflexivity|]. rewrite IH. reflexivity. Qed.

Lemma dec_fixarr f n r : (n < 16)%N -> dec_val (S f) ((144 + n)%N :: r) = arr_n (dec_val f) n r.
Proof.
  intros H. cbn [dec_val].
  replace (N.ltb (144 + n) 128) with false by (symmetry; apply N.ltb_ge; lia).
  replace (N.ltb (144 + n) 144) with false by (symmetry; apply N.ltb_ge; lia).
  replace (N.ltb (144 + n) 160) with true by (symmetry; apply N.ltb_lt; lia).
  replace (144 + n - 144)%N with n by lia. reflexivity.
Qed.
Lemma dec_arr16 f r : dec_val (S f) (220%N :: r) = with_len 2 (arr_n (dec_val f)) r.
Proof. reflexivity. Qed.
Lemma dec_arr32 f r : dec_val (S f) (221%N :: r) = with_len 4 (arr_n (dec_val f)) r.
Proof. reflexivity. Qed.

Lemma from_to_msgpack cs : encodable cs -> from_msgpack (to_msgpack cs) = Some (MArr (map MStr cs)).
Proof.
  intros [H F]. change (Forall (fun c => (slen c < 4294967296)%N) cs) in F. unfold from_msgpack.
  assert (Y : forall f, arr_n (dec_val (S f)) (N.of_nat (length cs)) (flat_map enc_str cs) = Some (MArr (map MStr cs), [])).
  { intros f. unfold arr_n. rewrite dec_many_strs; [reflexivity|exact F|exact (enc_strs_length cs F)]. }
  assert (X : dec_val (S (length (to_msgpack cs))) (to_msgpack cs) = Some (MArr (map MStr cs), [])); [|rewrite X; reflexivity].
  unfold to_msgpack, arr_prefix. destruct (N.ltb _ 16) eqn:A; [|destruct (N.ltb _ 65536) eqn:B].
  - cbn [app length]. rewrite dec_fixarr by (apply N.ltb_lt; exact A). apply Y.
  - rewrite <- app_comm_cons. cbn [length]. rewrite dec_arr16. unfold with_len. rewrite len2 by (apply N.ltb_lt; exact B). apply Y.
  - assert (D := H). apply N.ltb_lt in D. rewrite D. rewrite <- app_comm_cons. cbn [length]. rewrite dec_arr32.
    unfold with_len. rewrite len4 by exact H. apply Y.
Qed.
Lemma deserialize_msgpack cs : encodable cs -> deserialize (to_msgpack cs) = Some cs.
Proof. intros H. unfold deserialize. rewrite (from_to_msgpack cs H). apply strings_of_map. Qed.
Lemma be2_bytes n : (n < 65536)%N -> Forall (fun b => (b < 256)%N) (be2 n).
Proof.
  intros H. constructor; [|constructor; [|constructor]].
  - apply N.div_lt_upper_bound; lia.
  - apply N.mod_lt. lia.
Qed.
Lemma be4_bytes n : (n < 4294967296)%N -> Forall (fun b => (b < 256)%N) (be4 n).
Proof.
  intros H. apply Forall_app. split; apply be2_bytes; [apply N.div_lt_upper_bound; lia|apply N.mod_lt; lia].
Qed.
Lemma enc_str_bytes s : Forall (fun b => (b < 256)%N) (enc_str s).
Proof.
  apply Forall_app. split.
  - unfold str_prefix. destruct (N.ltb (slen s) 32) eqn:A; [apply N.ltb_lt in A; constructor; [lia|constructor]|].
    destruct (N.ltb (slen s) 256) eqn:B; [apply N.ltb_lt in B; constructor; [lia|constructor; [lia|constructor]]|].
    destruct (N.ltb (slen s) 65536) eqn:C; [apply N.ltb_lt in C; constructor; [lia|apply be2_bytes; exact C]|].
    destruct (N.ltb (slen s) 4294967296) eqn:D; [apply N.ltb_lt in D; constructor; [lia|apply be4_bytes; exact D]|constructor].
  - unfold bytes_of. apply Forall_forall. intros b I. apply in_map_iff in I as (c & <- & _). apply N_ascii_bounded.
Qed.
Lemma to_msgpack_bytes cs : Forall (fun b => (b < 256)%N) (to_msgpack cs).
Proof.
  unfold to_msgpack. apply Forall_app. split.
  - unfold arr_prefix. destruct (N.ltb _ 16) eqn:A; [apply N.ltb_lt in A; constructor; [lia|constructor]|].
    destruct (N.ltb _ 65536) eqn:C; [apply N.ltb_lt in C; constructor; [lia|apply be2_bytes; exact C]|].
    destruct (N.ltb _ 4294967296) eqn:D; [apply N.ltb_lt in D; constructor; [lia|apply be4_bytes; exact D]|constructor].
  - apply Forall_forall. intros b I. apply in_flat_map in I as (s & _ & I). exact (proj1 (Forall_forall _ _) (enc_str_bytes s) b I).
Qed.

(** ** The handler *)
Lemma strings_handler_sane cs : encodable cs -> sane_handler (strings_handler cs).
Proof.
  intros E. split; cbn [strings_handler bh_verify bh_equal bh_data].
  - rewrite (from_to_msgpack cs E). reflexivity.
  - rewrite (deserialize_msgpack cs E). f_equal. apply str_list_eqb_eq. reflexivity.
Qed.
Lemma file_blobs_lawful : lawful file_blobs.
Proof.
  intros id R. unfold file_blobs. destruct (String.eqb id "Generate"); [|discriminate]. intros [= <-]. split; [reflexivity|congruence].
Qed.

(** ** The callback *)
Lemma run_commands_in_order r : forall cs k, Forall (fun c => c <> "") cs ->
  in_order (fun j => r (k + j)) cs (fst (run_commands r k cs)) (snd (run_commands r k cs)).
Proof.
  induction cs as [|c cs IH]; intros k F; cbn [run_commands].
  - left. split; [reflexivity|]. split; [reflexivity|]. intros j J. cbn in J. lia.
  - apply Forall_cons_iff in F as [F1 F2]. destruct (String.eqb c "") eqn:E; [apply String.eqb_eq in E; contradiction|].
    destruct (r k) eqn:K.
    + specialize (IH (S k) F2). destruct (run_commands r (S k) cs) as [e ok]. cbn [fst snd] in *.
      destruct IH as [(A & B & C)|(A & j & B & C & D & G)].
      * left. split; [exact A|]. split; [congruence|]. intros [|j] J; [replace (k + 0) with k by lia; exact K|].
        cbn [length] in J. specialize (C j ltac:(lia)). replace (k + S j) with (S k + j) by lia. exact C.
      * right. split; [exact A|]. exists (S j). cbn [length]. split; [lia|]. split; [rewrite C; reflexivity|].
        split; [replace (k + S j) with (S k + j) by lia; exact D|]. intros [|j'] J; [replace (k + 0) with k by lia; exact K|].
        replace (k + S j') with (S k + j') by lia. apply G. lia.
    + right. split; [reflexivity|]. exists 0. cbn [length]. split; [lia|]. split; [reflexivity|].
      split; [replace (k + 0) with k by lia; exact K|]. intros j J. lia.
Qed.
Lemma run_commands_empty r : forall cs k, In "" cs -> snd (run_commands r k cs) = false.
Proof.
  induction cs as [|c cs IH]; intros k I; [destruct I|]. cbn [run_commands]. destruct (String.eqb c "") eqn:E; [reflexivity|].
  destruct I as [->|I]; [rewrite String.eqb_refl in E; discriminate|]. destruct (r k); [|reflexivity].
  specialize (IH (S k) I). destruct (run_commands r (S k) cs). exact IH.
Qed.
Lemma run_commands_ok r : forall cs k, snd (run_commands r k cs) = true -> fst (run_commands r k cs) = cs.
Proof.
  induction cs as [|c cs IH]; intros k; cbn [run_commands]; [reflexivity|]. destruct (String.eqb c ""); [discriminate|].
  destruct (r k); [|discriminate]. specialize (IH (S k)). destruct (run_commands r (S k) cs) as [e ok]. cbn [fst snd] in *.
  intros O. f_equal. exact (IH O).
Qed.
Lemma callback_in_order r cs : encodable cs -> Forall (fun c => c <> "") cs ->
  in_order r cs (fst (file_callback r (to_msgpack cs))) (snd (file_callback r (to_msgpack cs))).
Proof.
  intros E F. unfold file_callback. rewrite (deserialize_msgpack cs E). exact (run_commands_in_order r cs 0 F).
Qed.

Lemma run_commands_success r : forall cs k, snd (run_commands r k cs) = true -> forall j, j < length cs -> r (k + j) = true.
Proof.
  induction cs as [|c cs IH]; intros k H j Hj; [inversion Hj|]. cbn [run_commands] in H. destruct (String.eqb c ""); [discriminate|].
  destruct (r k) eqn:R; [|discriminate]. specialize (IH (S k)). destruct (run_commands r (S k) cs) as [e ok]. cbn [snd] in *.
  destruct j as [|j]; [rewrite Nat.add_0_r; exact R|]. rewrite Nat.add_succ_r. apply (IH H j). cbn [length] in Hj. lia.
Qed.
Lemma callback_success r blob : snd (file_callback r blob) = true ->
  exists cs, deserialize blob = Some cs /\ fst (file_callback r blob) = cs /\ forall k, k < length cs -> r k = true.
Proof.
  unfold file_callback. destruct (deserialize blob) as [cs|]; [|discriminate]. intros H. exists cs. split; [reflexivity|].
  split; [exact (run_commands_ok r cs 0 H)|exact (run_commands_success r cs 0 H)].
Qed.

(** ** Configuration *)
Lemma fdo_commands f c f' : fdo f c = AOk f' -> forall r, fg_commands f' ++ expansions f' r = fg_commands f ++ expansions f (c :: r).
Proof.
  intros H r. cbn [expansions]. rewrite H. destruct c as [k p|p|p|p args]; cbn [fdo] in H.
  - destruct (add_pattern (fg_base f) k p); try discriminate. injection H as <-. reflexivity.
  - injection H as <-. reflexivity.
  - injection H as <-. reflexivity.
  - destruct (construct (go_args (fg_base f)) p args) as [s| |]; try discriminate. injection H as <-. cbn [fg_commands].
    rewrite <- app_assoc. reflexivity.
Qed.
Lemma commands_in_call_order l : forall f f', fdo_all f l = AOk f' -> fg_commands f' = fg_commands f ++ expansions f l.
Proof.
  induction l as [|c l IH]; intros f f' H; cbn [fdo_all] in H.
  - injection H as <-. symmetry. apply app_nil_r.
  - destruct (fdo f c) as [f1| |] eqn:E; try discriminate. rewrite (IH _ _ H). exact (fdo_commands _ _ _ E l).
Qed.
Lemma expansions_count l : forall f f', fdo_all f l = AOk f' ->
  length (expansions f l) = length (filter (fun c => match c with FCommand _ _ => true | _ => false end) l).
Proof.
  induction l as [|c l IH]; intros f f' H; cbn [fdo_all expansions filter] in *; [reflexivity|].
  destruct (fdo f c) as [f1| |] eqn:E; try discriminate. rewrite app_length, (IH _ _ H).
  destruct c as [k p|p|p|p args]; cbn [length]; try reflexivity. cbn [fdo] in E.
  destruct (construct (go_args (fg_base f)) p args); try discriminate. reflexivity.
Qed.

Lemma fbuild_id f o : fbuild f = AOk o -> assoc "Generate" (go_ids (fg_base f)) = None /\
  exists g, go_ids o = go_ids (fg_base f) ++ [("Generate", g)] /\ gi_handler g = Some (strings_handler (fg_commands f)) /\
    go_args o = go_args (fg_base f).
Proof.
  unfold fbuild, add_id_info. destruct (assoc "Generate" (go_ids (fg_base f))); [discriminate|].
  destruct (construct_all _ (fg_in f)) as [ins| |]; try discriminate.
  destruct (construct_all _ (fg_out f)) as [outs| |]; try discriminate. intros [= <-]. split; [reflexivity|]. eexists. cbn [go_ids].
  split; [reflexivity|]. split; reflexivity.
Qed.

(** ** The log *)
Lemma made_log u8 id : forall evs m st, gexec u8 (ginit m) evs = Some st -> forall a, gd_made (g_disk st) id = Some a ->
  exists l1 c l2, g_log st = l1 ++ c :: l2 /\ gc_id c = id /\ gc_ok c = true /\ gc_art c = a /\ Forall (fun c => gc_id c <> id) l2.
Proof.
  induction evs as [|ev evs IH] using rev_ind; intros m st H a A.
  - injection H as <-. discriminate.
  - rewrite gexec_app in H. destruct (gexec u8 (ginit m) evs) as [st0|] eqn:E; [|discriminate].
    cbn [gexec] in H. destruct (gstep u8 st0 ev) as [st1|] eqn:S; [|discriminate]. injection H as ->.
    assert (X : (g_log st = g_log st0 /\ gd_made (g_disk st) = gd_made (g_disk st0)) \/
      exists i c ok, g_log st = g_log st0 ++ [GC i c ok] /\ gd_made (g_disk st) = upd (gd_made (g_disk st0)) i (if ok then Some c else None)).
    { clear -S. destruct ev as [f t| | | |o'| |i|i ok w|w|n]; cbn [gstep] in S.
      - injection S as <-. left; auto.
      - injection S as <-. left; auto.
      - destruct (g_pc st0); try discriminate; injection S as <-; left; auto.
      - injection S as <-. left; auto.
      - destruct (g_pc st0); try discriminate. unfold gstart in S. destruct (gobj_ok o'); [|discriminate]. injection S as <-. left; auto.
      - destruct (g_pc st0); try discriminate. injection S as <-. unfold gsetup. destruct (negb (g_ok st0)); left; auto.
      - destruct (g_pc st0), (assoc i (g_tasks st0)) as [[]|], (assoc i (go_ids (g_cfg st0))) as [g|]; try discriminate.
        injection S as <-. left. unfold genter. destruct (negb (g_ok st0)); [auto|].
        destruct (convert _ g) as [cur|]; [|auto]. destruct (assoc i _) as [pr|]; [|auto].
        destruct (is_changed _ pr cur) as [[]|]; auto.
      - destruct (g_pc st0), (assoc i (g_tasks st0)) as [[]|]; try discriminate. injection S as <-. right. unfold gcallback.
        destruct ok; gsp; eexists; eexists; eexists; split; reflexivity.
      - destruct (finish_keeps u8 st0 w st S) as (_ & _ & _ & _ & M & _ & L & _). left; auto.
      - destruct (g_pc st0); try discriminate. destruct (forallb _ _ && gdirty st0); [|discriminate].
        destruct (bind (final_text st0) (short n)); [|discriminate]. injection S as <-. left; auto. }
    destruct X as [(X1 & X2)|(i & c & ok & X1 & X2)]; rewrite X1; rewrite X2 in A.
    + exact (IH m st0 E a A).
    + unfold upd in A. destruct (String.eqb id i) eqn:Ei.
      * apply String.eqb_eq in Ei as <-. destruct ok; [|discriminate]. injection A as <-.
        exists (g_log st0), (GC id c true), []. repeat split; auto.
      * destruct (IH m st0 E a A) as (l1 & c1 & l2 & Y1 & Y2 & Y3 & Y4 & Y5). exists l1, c1, (l2 ++ [GC i c ok]).
        rewrite Y1, <- app_assoc. split; [reflexivity|]. split; [exact Y2|]. split; [exact Y3|]. split; [exact Y4|].
        apply Forall_app. split; [exact Y5|]. constructor; [|constructor]. cbn [gc_id]. intros ->. rewrite String.eqb_refl in Ei. discriminate.
Qed.
Lemma history_exec rg bd u8 m0 evs h st : ghistory rg bd u8 m0 evs h st -> gexec u8 (ginit m0) evs = Some st.
Proof.
  intros H. induction H as [|evs h st ev st' H IH A S]; [reflexivity|]. rewrite gexec_app, IH. cbn [gexec]. rewrite S. reflexivity.
Qed.
Lemma cfg_step u8 st ev st' : gstep u8 st ev = Some st' ->
  match ev with GStart o => g_cfg st' = o | _ => g_cfg st' = g_cfg st end.
Proof.
  intros S. destruct ev as [f t| | | |o'| |i|i ok w|w|n]; cbn [gstep] in S.
  - injection S as <-. reflexivity.
  - injection S as <-. reflexivity.
  - destruct (g_pc st); try discriminate; injection S as <-; reflexivity.
  - injection S as <-. reflexivity.
  - destruct (g_pc st); try discriminate. unfold gstart in S. destruct (gobj_ok o'); [|discriminate]. injection S as <-. reflexivity.
  - destruct (g_pc st); try discriminate. injection S as <-. unfold gsetup. destruct (negb (g_ok st)); reflexivity.
  - destruct (g_pc st), (assoc i (g_tasks st)) as [[]|], (assoc i (go_ids (g_cfg st))) as [g|]; try discriminate.
    injection S as <-. unfold genter. destruct (negb (g_ok st)); [reflexivity|].
    destruct (convert _ g) as [cur|]; [|reflexivity]. destruct (assoc i _) as [pr|]; [|reflexivity].
    destruct (is_changed _ pr cur) as [[]|]; reflexivity.
  - destruct (g_pc st), (assoc i (g_tasks st)) as [[]|]; try discriminate. injection S as <-. unfold gcallback.
    destruct ok; reflexivity.
  - destruct (finish_keeps u8 st w st' S) as (_ & _ & _ & _ & _ & M & _). exact M.
  - destruct (g_pc st); try discriminate. destruct (forallb _ _ && gdirty st); [|discriminate].
    destruct (bind (final_text st) (short n)); [|discriminate]. injection S as <-. reflexivity.
Qed.
Lemma cfg_exec u8 evs : forall st st', gexec u8 st evs = Some st' -> (forall o, ~ In (GStart o) evs) -> g_cfg st' = g_cfg st.
Proof.
  induction evs as [|ev evs IH]; intros st st' H N; cbn [gexec] in H; [injection H as <-; reflexivity|].
  destruct (gstep u8 st ev) as [st1|] eqn:S; [|discriminate]. rewrite (IH st1 st' H (fun o K => N o (or_intror K))).
  apply cfg_step in S. destruct ev; try exact S. exfalso. exact (N o (or_introl eq_refl)).
Qed.
Lemma cfg_run u8 st pre o evs st' : gexec u8 st (pre ++ GStart o :: evs) = Some st' -> (forall o, ~ In (GStart o) evs) -> g_cfg st' = o.
Proof.
  intros H N. rewrite gexec_app in H. destruct (gexec u8 st pre) as [st0|]; [|discriminate]. cbn [gexec] in H.
  destruct (gstep u8 st0 (GStart o)) as [st1|] eqn:S; [|discriminate]. rewrite (cfg_exec _ _ _ _ H N). exact (cfg_step _ _ _ _ S).
Qed.

(** C45: the last callback executed the present commands. *)
Lemma file_current rg u8 m0 evs w h st f :
  ghistory rg file_blobs u8 m0 (evs ++ [GFinish w]) h st -> g_ok st = true ->
  fbuild f = AOk (g_cfg st) -> encodable (fg_commands f) ->
  exists a, gd_made (g_disk st) "Generate" = Some a /\ deserialize (ga_blob a) = Some (fg_commands f).
Proof.
  intros H O B E. destruct (fbuild_id _ _ B) as (_ & g & G1 & G2 & _).
  assert (I : In ("Generate", g) (go_ids (g_cfg st))) by (rewrite G1; apply in_app_iff; right; left; reflexivity).
  destruct (run_current _ _ _ _ _ _ _ _ file_blobs_lawful H O _ _ I) as (a & A & _ & _ & Bl & _).
  exists a. split; [exact A|]. unfold blob_current in Bl. rewrite G2 in Bl. cbn [strings_handler bh_data] in Bl.
  change (file_blobs "Generate") with (Some (fun x y => deserialize x = deserialize y)) in Bl. cbn beta iota in Bl.
  rewrite Bl. apply deserialize_msgpack. exact E.
Qed.
Lemma file_executed rg u8 m0 evs w h st f :
  ghistory rg file_blobs u8 m0 (evs ++ [GFinish w]) h st -> g_ok st = true ->
  fbuild f = AOk (g_cfg st) -> encodable (fg_commands f) -> Forall file_call (g_log st) ->
  exists l1 c l2 r, g_log st = l1 ++ c :: l2 /\ Forall (fun c => gc_id c <> "Generate") l2 /\ gc_id c = "Generate" /\
    file_callback r (ga_blob (gc_art c)) = (fg_commands f, true).
Proof.
  intros H O B E F. destruct (file_current _ _ _ _ _ _ _ _ H O B E) as (a & A & D).
  destruct (made_log u8 "Generate" _ _ _ (history_exec _ _ _ _ _ _ _ H) a A) as (l1 & c & l2 & L1 & L2 & L3 & L4 & L5).
  rewrite L1 in F. apply Forall_app in F as [_ F]. apply Forall_cons_iff in F as [(r & R) _].
  exists l1, c, l2, r. split; [exact L1|]. split; [exact L5|]. split; [exact L2|]. rewrite L4 in *. unfold file_callback in *.
  rewrite D in *. rewrite L3 in R. destruct (run_commands r 0 (fg_commands f)) as [e ok] eqn:X. cbn [snd] in R.
  subst ok. f_equal. assert (Y := run_commands_ok r (fg_commands f) 0). rewrite X in Y. exact (Y eq_refl).
Qed.

(** Changed commands are executed. *)
Lemma made_kept_step u8 st ev st' id :
  gstep u8 st ev = Some st' -> (forall w, ev <> GCall id true w) ->
  gd_made (g_disk st') id = gd_made (g_disk st) id \/ gd_made (g_disk st') id = None.
Proof.
  intros S C. destruct ev as [f t| | | |o'| |i|i ok w|w|n]; cbn [gstep] in S.
  - injection S as <-. left; auto.
  - injection S as <-. left; auto.
  - destruct (g_pc st); try discriminate; injection S as <-; left; auto.
  - injection S as <-. left; auto.
  - destruct (g_pc st); try discriminate. unfold gstart in S. destruct (gobj_ok o'); [|discriminate]. injection S as <-. left; auto.
  - destruct (g_pc st); try discriminate. injection S as <-. unfold gsetup. destruct (negb (g_ok st)); left; auto.
  - destruct (g_pc st), (assoc i (g_tasks st)) as [[]|], (assoc i (go_ids (g_cfg st))) as [g|]; try discriminate.
    injection S as <-. left. unfold genter. destruct (negb (g_ok st)); [auto|].
    destruct (convert _ g) as [cur|]; [|auto]. destruct (assoc i _) as [pr|]; [|auto].
    destruct (is_changed _ pr cur) as [[]|]; auto.
  - destruct (g_pc st), (assoc i (g_tasks st)) as [[]|]; try discriminate. injection S as <-. unfold gcallback.
    destruct ok; gsp; unfold upd; destruct (String.eqb id i) eqn:E; auto.
    apply String.eqb_eq in E as ->. exfalso. exact (C w eq_refl).
  - destruct (finish_keeps u8 st w st' S) as (_ & _ & _ & _ & M & _). left. rewrite M. reflexivity.
  - destruct (g_pc st); try discriminate. destruct (forallb _ _ && gdirty st); [|discriminate].
    destruct (bind (final_text st) (short n)); [|discriminate]. injection S as <-. left; auto.
Qed.
Lemma made_kept u8 id evs : forall st st', gexec u8 st evs = Some st' -> (forall w, ~ In (GCall id true w) evs) ->
  gd_made (g_disk st') id = gd_made (g_disk st) id \/ gd_made (g_disk st') id = None.
Proof.
  induction evs as [|ev evs IH]; intros st st' H C; cbn [gexec] in H.
  - injection H as <-. left. reflexivity.
  - destruct (gstep u8 st ev) as [st1|] eqn:S; [|discriminate].
    assert (X := IH st1 st' H (fun w K => C w (or_intror K))).
    assert (Y := made_kept_step u8 st ev st1 id S (fun w K => C w (or_introl K))).
    destruct X as [X|X]; [|right; exact X]. rewrite X. exact Y.
Qed.
Lemma called_dec id evs : (exists w, In (GCall id true w) evs) \/ forall w, ~ In (GCall id true w) evs.
Proof.
  induction evs as [|ev evs IH]; [right; intros y []|].
  destruct IH as [(y & Y)|IH]; [left; exists y; right; exact Y|].
  assert (Dec : (exists y, ev = GCall id true y) \/ forall y, ev <> GCall id true y).
  { destruct ev as [f t| | | |o'| |i|i ok w|w|n]; try (right; discriminate).
    destruct (string_dec i id) as [->|Ne]; [|right; congruence]. destruct ok; [left; eauto|right; discriminate]. }
  destruct Dec as [(y & ->)|Dec]; [left; exists y; left; reflexivity|].
  right. intros y [K|K]; [exact (Dec y K)|exact (IH y K)].
Qed.
Lemma file_changed rg u8 m0 evs1 w1 h1 st1 f1 evs2 w2 h2 st2 f2 :
  ghistory rg file_blobs u8 m0 (evs1 ++ [GFinish w1]) h1 st1 -> g_ok st1 = true ->
  fbuild f1 = AOk (g_cfg st1) -> encodable (fg_commands f1) ->
  ghistory rg file_blobs u8 m0 ((evs1 ++ [GFinish w1]) ++ evs2 ++ [GFinish w2]) h2 st2 -> g_ok st2 = true ->
  fbuild f2 = AOk (g_cfg st2) -> encodable (fg_commands f2) ->
  fg_commands f1 <> fg_commands f2 -> exists w, In (GCall "Generate" true w) evs2.
Proof.
  intros H1 O1 B1 E1 H2 O2 B2 E2 N. destruct (called_dec "Generate" evs2) as [D|D]; [exact D|]. exfalso.
  destruct (file_current _ _ _ _ _ _ _ _ H1 O1 B1 E1) as (a1 & A1 & D1).
  assert (X2 := history_exec _ _ _ _ _ _ _ H2). rewrite app_assoc in H2.
  destruct (file_current _ _ _ _ _ _ _ _ H2 O2 B2 E2) as (a2 & A2 & D2).
  rewrite gexec_app, (history_exec _ _ _ _ _ _ _ H1) in X2.
  destruct (made_kept u8 "Generate" _ _ _ X2) as [K|K].
  - intros w I. apply in_app_iff in I as [I|[I|[]]]; [exact (D w I)|discriminate].
  - rewrite A1, A2 in K. injection K as ->. apply N. congruence.
  - congruence.
Qed.

(** ** Templates *)
Lemma template_current rg bd u8 m0 args text evs w h st id g i :
  lawful bd -> ghistory rg bd u8 m0 (evs ++ [GFinish w]) h st -> g_ok st = true -> Forall (same_args args) evs ->
  Forall (template_call text) (g_log st) -> In (id, g) (go_ids (g_cfg st)) -> inputs_of g = [i] ->
  exists a t s, gd_made (g_disk st) id = Some a /\ ga_outputs a = outputs_of g /\ gd_mt (g_disk st) i = Some t /\
    template_text text a = Some s /\ construct args (text i t) [] = FOk s.
Proof.
  intros L H O SA F I Ei. destruct (run_current _ _ _ _ _ _ _ _ L H O id g I) as (a & A & A1 & A2 & _ & A4).
  destruct (made_args _ _ _ _ args _ _ _ H) as (_ & Ar).
  { apply Forall_app. split; [exact SA|]. constructor; [exact Logic.I|constructor]. }
  specialize (Ar id a A).
  destruct (made_log u8 id _ _ _ (history_exec _ _ _ _ _ _ _ H) a A) as (l1 & c & l2 & L1 & L2 & L3 & L4 & L5).
  rewrite L1 in F. apply Forall_app in F as [_ F]. apply Forall_cons_iff in F as [F _]. specialize (F L3). rewrite L4 in F.
  assert (M := A4 i). rewrite Ei in M. specialize (M (or_introl eq_refl)).
  unfold template_text in F. rewrite A1, Ei, M in F. destruct (gd_mt (g_disk st) i) as [t|] eqn:T; [|elim F; reflexivity].
  exists a, t. rewrite Ar in F. destruct (construct args (text i t) []) as [s| |] eqn:C; try (elim F; reflexivity).
  exists s. split; [exact A|]. split; [exact A2|]. split; [reflexivity|]. split; [|reflexivity].
  unfold template_text. rewrite A1, Ei, M, Ar, C. reflexivity.
Qed.

Lemma tbuild_spec root : forall l o o', tbuild root o l = AOk o' ->
  go_args o' = go_args o /\ (forall x, In x (go_ids o) -> In x (go_ids o')) /\
  forall i out, In (i, out) l -> exists p q, construct (go_args o) i [] = FOk p /\ construct (go_args o) out [] = FOk q /\
    In (lexically_relative (to_path_string p) root, GI [p] [q] None) (go_ids o').
Proof.
  induction l as [|[i out] l IH]; intros o o' H; cbn [tbuild] in H.
  - injection H as <-. split; [reflexivity|]. split; [auto|]. intros i out [].
  - destruct (construct (go_args o) i []) as [p| |] eqn:C; try discriminate.
    destruct (add_id_info o (lexically_relative (to_path_string p) root) [i] [out] None) as [o1| |] eqn:A; try discriminate.
    unfold add_id_info in A. destruct (assoc _ (go_ids o)); [discriminate|]. cbn [construct_all] in A. rewrite C in A.
    destruct (construct (go_args o) out []) as [q| |] eqn:D; try discriminate. injection A as <-.
    destruct (IH _ _ H) as (H1 & H2 & H3). cbn [go_args go_ids] in *. split; [exact H1|]. split.
    + intros x X. apply H2. apply in_app_iff. left. exact X.
    + intros i' out' [K|K]; [|exact (H3 i' out' K)]. injection K as <- <-. exists p, q. split; [exact C|]. split; [exact D|].
      apply H2. apply in_app_iff. right. left. reflexivity.
Qed.
Lemma templates_current rg bd u8 m0 args text evs w h st root t i out :
  lawful bd -> ghistory rg bd u8 m0 (evs ++ [GFinish w]) h st -> g_ok st = true -> Forall (same_args args) evs ->
  Forall (template_call text) (g_log st) -> tbuild root (tg_base t) (tg_infos t) = AOk (g_cfg st) -> go_args (tg_base t) = args ->
  In (i, out) (tg_infos t) ->
  exists p q id a time s, construct args i [] = FOk p /\ construct args out [] = FOk q /\
    gd_made (g_disk st) id = Some a /\ ga_outputs a = [to_path_string q] /\
    gd_mt (g_disk st) (to_path_string p) = Some time /\
    template_text text a = Some s /\ construct args (text (to_path_string p) time) [] = FOk s.
Proof.
  intros L H O SA F B Ea I. destruct (tbuild_spec _ _ _ _ B) as (_ & _ & X). destruct (X i out I) as (p & q & C1 & C2 & J).
  rewrite Ea in C1, C2.
  destruct (template_current _ _ _ _ args text _ _ _ _ _ _ (to_path_string p) L H O SA F J eq_refl) as (a & t' & s & Y1 & Y2 & Y3 & Y4 & Y5).
  exists p, q, (lexically_relative (to_path_string p) root), a, t', s. split; [exact C1|]. split; [exact C2|]. split; [exact Y1|].
  split; [exact Y2|]. auto.
Qed.

Lemma tbuild_taken root : forall l o o' i p, tbuild root o l = AOk o' -> construct (go_args o) i [] = FOk p ->
  assoc (lexically_relative (to_path_string p) root) (go_ids o) <> None -> ~ In i (map fst l).
Proof.
  induction l as [|[j out] l IH]; intros o o' i p H C A; cbn [tbuild map fst] in *; [intros []|].
  destruct (construct (go_args o) j []) as [q| |] eqn:Cj; try discriminate.
  destruct (add_id_info o (lexically_relative (to_path_string q) root) [j] [out] None) as [o1| |] eqn:Ad; try discriminate.
  unfold add_id_info in Ad. destruct (assoc (lexically_relative (to_path_string q) root) (go_ids o)) as [x|] eqn:Aq; [discriminate|].
  destruct (construct_all (go_args o) [j]) as [ins| |]; try discriminate.
  destruct (construct_all (go_args o) [out]) as [outs| |]; try discriminate. injection Ad as <-.
  intros [K|K].
  - subst j. rewrite C in Cj. injection Cj as ->. congruence.
  - refine (IH _ o' i p H _ _ K); cbn [go_args go_ids]; [exact C|]. rewrite assoc_app. destruct (assoc (lexically_relative (to_path_string p) root) (go_ids o)) eqn:Z; [discriminate|]. exfalso. exact (A eq_refl).
Qed.
Lemma tbuild_nodup root : forall l o o', tbuild root o l = AOk o' -> NoDup (map fst l).
Proof.
  induction l as [|[j out] l IH]; intros o o' H; cbn [tbuild map fst] in *; [constructor|].
  destruct (construct (go_args o) j []) as [q| |] eqn:Cj; try discriminate.
  destruct (add_id_info o (lexically_relative (to_path_string q) root) [j] [out] None) as [o1| |] eqn:Ad; try discriminate.
  constructor; [|exact (IH _ _ H)]. unfold add_id_info in Ad.
  destruct (assoc (lexically_relative (to_path_string q) root) (go_ids o)) as [x|] eqn:Aq; [discriminate|].
  destruct (construct_all (go_args o) [j]) as [ins| |]; try discriminate.
  destruct (construct_all (go_args o) [out]) as [outs| |]; try discriminate. injection Ad as <-.
  apply (tbuild_taken root l _ o' j q H); cbn [go_args go_ids]; [exact Cj|].
  rewrite assoc_app. destruct (assoc _ (go_ids o)); [discriminate|]. cbn [assoc]. rewrite String.eqb_refl. discriminate.
Qed.
