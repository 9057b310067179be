(** Lemmas about the functions of [Model_Target]: user schema, hashing, checks,
    commands. *)
From Verif Require Import Prelude Proof_Prelude Model_Path Proof_Path Model_Json Model_Schema Proof_Dec
  Proof_Schema Model_Command Spec_Command Proof_Command Model_ToolchainConfig Model_Target Spec_Target.

Ltac tsp := cbn [ts_name ts_type ts_sources ts_headers ts_pchs ts_libs ts_external_libs ts_include_dirs ts_lib_dirs
  ts_preprocessor_flags ts_common_compile_flags ts_pch_compile_flags ts_pch_object_flags ts_asm_compile_flags
  ts_c_compile_flags ts_cpp_compile_flags ts_link_flags ts_compile_deps ts_link_deps ts_pch_compiled ts_target_linked
  with_sources with_headers with_pchs with_libs with_deps with_linked update_store update_pch_compiled
  update_target_compiled add_source] in *.
Ltac stp := cbn [s_disk s_pc s_cfg s_ord s_user s_load s_buf s_dirty s_ok s_log with_disk with_pc with_user with_buf
  with_dirty with_ok log_cmd fail killed d_mt d_pch d_obj d_tgt d_store d_pch_bad d_obj_bad d_tgt_bad set_mt set_pch
  set_obj set_tgt set_store] in *.

(** ** Paths of the user schema *)

Definition npath (p : string) : Prop := to_path_string p = p.
Definition nlist (l : infolist) : Prop := Forall (fun i => npath (pi_path i)) l.

Lemma infos_fold (l : list string) (acc : infolist) :
  fold_left (fun acc p => il_emplace acc p "") l acc =
  acc ++ map (fun p => PI (to_path_string p) "") l.
Proof.
  revert acc. induction l as [|p l IH]; intros acc; cbn [fold_left map].
  - rewrite app_nil_r. reflexivity.
  - rewrite IH. unfold il_emplace. rewrite <- app_assoc. reflexivity.
Qed.
Lemma infos_map (l : list string) : infos l = map (fun p => PI (to_path_string p) "") l.
Proof. unfold infos. rewrite infos_fold. reflexivity. Qed.

Lemma infos_nlist (l : list string) : nlist (infos l).
Proof.
  rewrite infos_map. unfold nlist. rewrite Forall_map. apply Forall_forall. intros p _. cbn [pi_path].
  apply to_path_string_idem.
Qed.
Lemma infos_hash (l : list string) : Forall (fun i => pi_hash i = "") (infos l).
Proof. rewrite infos_map, Forall_map. apply Forall_forall. reflexivity. Qed.

Lemma nlist_paths (l : infolist) : nlist l <-> Forall npath (il_paths l).
Proof. unfold nlist, il_paths. rewrite Forall_map. reflexivity. Qed.

(** ** Stripping the hashes *)

Definition strip_l (l : infolist) : infolist := map (fun i => PI (pi_path i) "") l.
Definition strip (u : tschema) : tschema :=
  TS (ts_name u) (ts_type u) (strip_l (ts_sources u)) (strip_l (ts_headers u)) (strip_l (ts_pchs u))
     (strip_l (ts_libs u)) (ts_external_libs u) (ts_include_dirs u) (ts_lib_dirs u)
     (ts_preprocessor_flags u) (ts_common_compile_flags u) (ts_pch_compile_flags u)
     (ts_pch_object_flags u) (ts_asm_compile_flags u) (ts_c_compile_flags u) (ts_cpp_compile_flags u)
     (ts_link_flags u) (strip_l (ts_compile_deps u)) (strip_l (ts_link_deps u))
     (ts_pch_compiled u) (ts_target_linked u).
Definition like (c : cfg) (u : tschema) : Prop := strip u = user_of c.

Lemma strip_paths (l : infolist) : il_paths (strip_l l) = il_paths l.
Proof. unfold il_paths, strip_l. rewrite map_map. reflexivity. Qed.
Lemma strip_paths_eq (a b : infolist) : il_paths a = il_paths b -> strip_l a = strip_l b.
Proof.
  unfold strip_l. intros H.
  assert (E : forall l : infolist, map (fun i => PI (pi_path i) "") l = map (fun p => PI p "") (il_paths l)).
  { intros l. unfold il_paths. rewrite map_map. reflexivity. }
  rewrite !E, H. reflexivity.
Qed.
Lemma strip_infos (l : list string) : strip_l (infos l) = infos l.
Proof. rewrite infos_map. unfold strip_l. rewrite map_map. reflexivity. Qed.

Lemma like_user (c : cfg) : like c (user_of c).
Proof. unfold like, strip, user_of. cbn. rewrite !strip_infos. reflexivity. Qed.

Section Like.
Variables (c : cfg) (u : tschema) (L : like c u).
Ltac fld g := pose proof (f_equal g L) as H; unfold strip in H; cbn in H.
Lemma like_sources : il_paths (ts_sources u) = sources c.
Proof using L. fld ts_sources. unfold sources. cbn. rewrite <- H. symmetry. apply strip_paths. Qed.
Lemma like_headers : il_paths (ts_headers u) = headers c.
Proof using L. fld ts_headers. unfold headers. cbn. rewrite <- H. symmetry. apply strip_paths. Qed.
Lemma like_pchs : il_paths (ts_pchs u) = pchs c.
Proof using L. fld ts_pchs. unfold pchs. cbn. rewrite <- H. symmetry. apply strip_paths. Qed.
Lemma like_libs : il_paths (ts_libs u) = libs c.
Proof using L. fld ts_libs. unfold libs. cbn. rewrite <- H. symmetry. apply strip_paths. Qed.
Lemma like_cdeps : il_paths (ts_compile_deps u) = compile_deps c.
Proof using L. fld ts_compile_deps. unfold compile_deps. cbn. rewrite <- H. symmetry. apply strip_paths. Qed.
Lemma like_ldeps : il_paths (ts_link_deps u) = link_deps c.
Proof using L. fld ts_link_deps. unfold link_deps. cbn. rewrite <- H. symmetry. apply strip_paths. Qed.
Lemma like_flags :
  ts_external_libs u = c_external_libs c /\ ts_include_dirs u = dirs (c_include_dirs c) /\
  ts_lib_dirs u = dirs (c_lib_dirs c) /\ ts_preprocessor_flags u = c_preprocessor c /\
  ts_common_compile_flags u = c_common c /\ ts_pch_compile_flags u = c_pch_compile c /\
  ts_pch_object_flags u = c_pch_object c /\ ts_asm_compile_flags u = c_asm_flags c /\
  ts_c_compile_flags u = c_c_flags c /\ ts_cpp_compile_flags u = c_cpp_flags c /\
  ts_link_flags u = c_link c.
Proof using L.
  repeat split; [fld ts_external_libs|fld ts_include_dirs|fld ts_lib_dirs|fld ts_preprocessor_flags|
    fld ts_common_compile_flags|fld ts_pch_compile_flags|fld ts_pch_object_flags|fld ts_asm_compile_flags|
    fld ts_c_compile_flags|fld ts_cpp_compile_flags|fld ts_link_flags]; exact H.
Qed.
End Like.

Lemma sources_npath (c : cfg) : Forall npath (sources c).
Proof. apply nlist_paths, infos_nlist. Qed.
Lemma headers_npath (c : cfg) : Forall npath (headers c).
Proof. apply nlist_paths, infos_nlist. Qed.
Lemma pchs_npath (c : cfg) : Forall npath (pchs c).
Proof. apply nlist_paths, infos_nlist. Qed.
Lemma libs_npath (c : cfg) : Forall npath (libs c).
Proof. apply nlist_paths, infos_nlist. Qed.
Lemma cdeps_npath (c : cfg) : Forall npath (compile_deps c).
Proof. apply nlist_paths, infos_nlist. Qed.
Lemma ldeps_npath (c : cfg) : Forall npath (link_deps c).
Proof. apply nlist_paths, infos_nlist. Qed.

Lemma contains_pch_iff (c : cfg) : contains_pch c = true <-> pchs c <> [].
Proof.
  unfold contains_pch, pchs, il_paths. destruct (ts_pchs (user_of c)); cbn; split; intros H; congruence.
Qed.
Lemma contains_pch_false (c : cfg) : contains_pch c = false <-> pchs c = [].
Proof.
  unfold contains_pch, pchs, il_paths. destruct (ts_pchs (user_of c)); cbn; split; intros H; congruence.
Qed.

(** ** Hashing *)

Definition hashed (mt : times) (f h : string) : Prop := exists t, mt f = Some t /\ h = dec_of_N t.
Definition Hashed (mt : times) (l : list string) (i : infolist) : Prop :=
  Forall2 (fun p x => pi_path x = p /\ hashed mt p (pi_hash x)) l i.

Lemma dec_nonempty (n : N) : dec_of_N n <> "".
Proof. destruct (dec_of_N_shape n) as (x & r & -> & _). discriminate. Qed.
Lemma hashed_empty (mt : times) (f : string) : ~ hashed mt f "".
Proof. intros (t & _ & H). symmetry in H. exact (dec_nonempty t H). Qed.
Lemma hashed_fun (mt : times) (f h h' : string) : hashed mt f h -> hashed mt f h' -> h = h'.
Proof. intros (t & A & ->) (t' & B & ->). congruence. Qed.
Lemma hashed_time (mt mt' : times) (f h : string) : hashed mt f h -> hashed mt' f h -> mt f = mt' f.
Proof. intros (t & A & E) (t' & B & E'). rewrite A, B. f_equal. apply dec_of_N_inj. congruence. Qed.

Lemma Hashed_fun (mt : times) (l : list string) (a b : infolist) : Hashed mt l a -> Hashed mt l b -> a = b.
Proof.
  intros A. revert b. induction A as [|p x l a [Hx1 Hx2] _ IH]; intros b B; inversion B as [|? y ? b' [Hy1 Hy2] Hb]; subst.
  - reflexivity.
  - f_equal; [|exact (IH _ Hb)]. destruct x as [xp xh], y as [yp yh]. cbn in *. subst yp.
    f_equal. exact (hashed_fun _ _ _ _ Hx2 Hy2).
Qed.
Lemma Hashed_paths (mt : times) (l : list string) (a : infolist) : Hashed mt l a -> il_paths a = l.
Proof. intros A. induction A as [|p x l a [Hx _] _ IH]; cbn; [reflexivity|]. unfold il_paths in IH. congruence. Qed.
Lemma Hashed_In (mt : times) (l : list string) (a : infolist) (i : pathinfo) :
  Hashed mt l a -> In i a -> hashed mt (pi_path i) (pi_hash i).
Proof.
  intros A. induction A as [|p x l a [Hx1 Hx2] _ IH]; intros Hi; [contradiction|].
  destruct Hi as [->|Hi]; [rewrite Hx1; exact Hx2|exact (IH Hi)].
Qed.
Lemma Hashed_of (mt : times) (a : infolist) :
  (forall i, In i a -> hashed mt (pi_path i) (pi_hash i)) -> Hashed mt (il_paths a) a.
Proof.
  induction a as [|i a IH]; intros H; cbn; constructor.
  - split; [reflexivity|apply H; left; reflexivity].
  - apply IH. intros j Hj. apply H. right. exact Hj.
Qed.
Lemma Hashed_ex (mt : times) (l : list string) (a : infolist) (p : string) :
  Hashed mt l a -> In p l -> exists i, In i a /\ pi_path i = p /\ hashed mt p (pi_hash i).
Proof.
  intros A. induction A as [|q x l a [Hx1 Hx2] _ IH]; intros Hp; [contradiction|].
  destruct Hp as [->|Hp].
  - exists x. split; [left; reflexivity|]. split; assumption.
  - destruct (IH Hp) as (i & Hi & E). exists i. split; [right; exact Hi|exact E].
Qed.

Lemma compute_hash_ok (mt : times) (p : string) (h : string) :
  npath p -> (compute_hash mt p = Ok h <-> hashed mt p h).
Proof.
  intros Hp. unfold compute_hash, hashed. rewrite Hp. destruct (mt p) as [t|]; split.
  - intros [= <-]. eauto.
  - intros (t' & [= <-] & ->). reflexivity.
  - discriminate.
  - intros (t' & H & _). discriminate.
Qed.

Lemma hash_all_spec (mt : times) (l l' : infolist) (b : bool) :
  nlist l -> hash_all mt l = (l', b) ->
  il_paths l' = il_paths l /\
  (b = true -> Hashed mt (il_paths l) l') /\
  (forall i, In i l' -> In i l \/ hashed mt (pi_path i) (pi_hash i)).
Proof.
  revert l' b. induction l as [|i l IH]; intros l' b Hn H; cbn [hash_all] in H.
  - injection H as <- <-. repeat split; [constructor|intros j []].
  - apply Forall_cons_iff in Hn as [Hp Hn].
    destruct (compute_hash mt (pi_path i)) as [h|] eqn:E.
    + apply compute_hash_ok in E; [|exact Hp].
      destruct (hash_all mt l) as [r b'] eqn:Er. injection H as <- <-.
      destruct (IH _ _ Hn eq_refl) as (A & B & C). split; [cbn; f_equal; exact A|]. split.
      * intros Hb. cbn. constructor; [split; [reflexivity|exact E]|apply B; exact Hb].
      * intros j [<-|Hj]; [right; exact E|]. destruct (C j Hj) as [D|D]; [left; right; exact D|right; exact D].
    + injection H as <- <-. repeat split; [discriminate|]. intros j Hj. left. exact Hj.
Qed.
Lemma hash_all_same (mt : times) (l : infolist) :
  nlist l -> Hashed mt (il_paths l) l -> hash_all mt l = (l, true).
Proof.
  intros Hn. induction l as [|i l IH]; intros H; [reflexivity|]. apply Forall_cons_iff in Hn as [Hp Hn].
  unfold Hashed in H. cbn in H. inversion H as [|? ? ? ? [_ Hx] Hr]; subst. cbn [hash_all].
  apply compute_hash_ok in Hx; [|exact Hp]. rewrite Hx.
  change (Hashed mt (il_paths l) l) in Hr. rewrite (IH Hn Hr). destruct i. reflexivity.
Qed.
Lemma hash_all_true (mt : times) (l : infolist) :
  nlist l -> (forall p, In p (il_paths l) -> mt p <> None) -> exists l', hash_all mt l = (l', true).
Proof.
  induction l as [|i l IH]; intros Hn H; cbn [hash_all]; [eauto|]. apply Forall_cons_iff in Hn as [Hp Hn].
  unfold compute_hash. rewrite Hp. destruct (mt (pi_path i)) eqn:E.
  - destruct (IH Hn) as (l' & ->). { intros p Hin. apply H. right. exact Hin. } eauto.
  - exfalso. apply (H (pi_path i)); [left; reflexivity|exact E].
Qed.

(** ** Comparisons *)

Lemma pathinfo_eqb_eq (a b : pathinfo) : pathinfo_eqb a b = true <-> a = b.
Proof.
  unfold pathinfo_eqb. destruct a as [p h], b as [p' h']. cbn. rewrite andb_true_iff, !String.eqb_eq.
  split; [intros [-> ->]; reflexivity|intros [= -> ->]; split; reflexivity].
Qed.
Lemma infolist_eqb_eq (a b : infolist) : infolist_eqb a b = true <-> a = b.
Proof.
  revert b. induction a as [|x a IH]; intros [|y b]; cbn; split; intros H; try discriminate; try reflexivity.
  - apply andb_true_iff in H as [H1 H2]. apply pathinfo_eqb_eq in H1. apply IH in H2. congruence.
  - injection H as -> ->. apply andb_true_iff. split; [apply pathinfo_eqb_eq; reflexivity|apply IH; reflexivity].
Qed.

(** The checks as propositions about the stored schema, the configuration and
    the times. *)
Record pchclean (s : tschema) (c : cfg) (mt : times) : Prop := {
  pc_pre : ts_preprocessor_flags s = c_preprocessor c;
  pc_com : ts_common_compile_flags s = c_common c;
  pc_pch : ts_pch_compile_flags s = c_pch_compile c;
  pc_c : ts_c_compile_flags s = c_c_flags c;
  pc_cpp : ts_cpp_compile_flags s = c_cpp_flags c;
  pc_inc : ts_include_dirs s = dirs (c_include_dirs c);
  pc_hdr : Hashed mt (headers c) (ts_headers s);
  pc_pchs : Hashed mt (pchs c) (ts_pchs s);
  pc_done : ts_pch_compiled s = true }.
Record objclean (s : tschema) (c : cfg) (mt : times) : Prop := {
  oc_pre : ts_preprocessor_flags s = c_preprocessor c;
  oc_com : ts_common_compile_flags s = c_common c;
  oc_pch : ts_pch_object_flags s = c_pch_object c;
  oc_asm : ts_asm_compile_flags s = c_asm_flags c;
  oc_c : ts_c_compile_flags s = c_c_flags c;
  oc_cpp : ts_cpp_compile_flags s = c_cpp_flags c;
  oc_inc : ts_include_dirs s = dirs (c_include_dirs c);
  oc_hdr : Hashed mt (headers c) (ts_headers s);
  oc_dep : Hashed mt (compile_deps c) (ts_compile_deps s) }.
Record linkclean (s : tschema) (c : cfg) (mt : times) : Prop := {
  lc_link : ts_link_flags s = c_link c;
  lc_dirs : ts_lib_dirs s = dirs (c_lib_dirs c);
  lc_ext : ts_external_libs s = c_external_libs c;
  lc_dep : Hashed mt (link_deps c) (ts_link_deps s);
  lc_libs : Hashed mt (libs c) (ts_libs s);
  lc_done : ts_target_linked s = true }.
(** Source [p] is recorded in [s] with its present time. *)
Definition matches (s : tschema) (mt : times) (p : string) : Prop :=
  exists h, il_lookup (ts_sources s) p = Some h /\ hashed mt p h.
Definition srcclean (s : tschema) (c : cfg) (mt : times) : Prop :=
  (forall p, In p (sources c) -> matches s mt p) /\
  (forall p, In p (il_paths (ts_sources s)) -> In p (sources c)).

Lemma Hashed_eq_iff (mt : times) (l : list string) (a b : infolist) :
  Hashed mt l b -> (a = b <-> Hashed mt l a).
Proof. intros H. split; [intros ->; exact H|]. intros H'. exact (Hashed_fun _ _ _ _ H' H). Qed.

Lemma pch_same_iff (s u : tschema) (c : cfg) (mt : times) :
  like c u -> Hashed mt (headers c) (ts_headers u) -> Hashed mt (pchs c) (ts_pchs u) ->
  (pch_same s u = true <-> pchclean s c mt).
Proof.
  intros L H1 H2. destruct (like_flags c u L) as (F1 & F2 & F3 & F4 & F5 & F6 & F7 & F8 & F9 & F10 & F11).
  unfold pch_same. rewrite !andb_true_iff, !str_list_eqb_eq, !infolist_eqb_eq.
  rewrite F2, F4, F5, F6, F9, F10.
  rewrite (Hashed_eq_iff _ _ _ _ H1), (Hashed_eq_iff _ _ _ _ H2).
  split; [intros H; constructor; tauto|intros []; tauto].
Qed.
Lemma obj_same_iff (s u : tschema) (c : cfg) (mt : times) :
  like c u -> Hashed mt (headers c) (ts_headers u) -> Hashed mt (compile_deps c) (ts_compile_deps u) ->
  (obj_same s u = true <-> objclean s c mt).
Proof.
  intros L H1 H2. destruct (like_flags c u L) as (F1 & F2 & F3 & F4 & F5 & F6 & F7 & F8 & F9 & F10 & F11).
  unfold obj_same. rewrite !andb_true_iff, !str_list_eqb_eq, !infolist_eqb_eq.
  rewrite F2, F4, F5, F7, F8, F9, F10.
  rewrite (Hashed_eq_iff _ _ _ _ H1), (Hashed_eq_iff _ _ _ _ H2).
  split; [intros H; constructor; tauto|intros []; tauto].
Qed.
Lemma link_same_iff (s u : tschema) (c : cfg) (mt : times) :
  like c u -> Hashed mt (libs c) (ts_libs u) -> Hashed mt (link_deps c) (ts_link_deps u) ->
  (link_same s u = true <-> linkclean s c mt).
Proof.
  intros L H1 H2. destruct (like_flags c u L) as (F1 & F2 & F3 & F4 & F5 & F6 & F7 & F8 & F9 & F10 & F11).
  unfold link_same. rewrite !andb_true_iff, !str_list_eqb_eq, !infolist_eqb_eq.
  rewrite F1, F3, F11.
  rewrite (Hashed_eq_iff _ _ _ _ H1), (Hashed_eq_iff _ _ _ _ H2).
  split; [intros H; constructor; tauto|intros []; tauto].
Qed.

(** ** RecompileSources *)

Lemma assoc_remove_other {B} (k k' : string) (l : list (string * B)) :
  k <> k' -> assoc k' (assoc_remove k l) = assoc k' l.
Proof.
  intros H. induction l as [|[x v] l IH]; [reflexivity|]. cbn.
  destruct (String.eqb k x) eqn:E.
  - apply String.eqb_eq in E. subst x. rewrite IH.
    destruct (String.eqb k' k) eqn:E2; [apply String.eqb_eq in E2; congruence|reflexivity].
  - cbn. rewrite IH. reflexivity.
Qed.
Lemma assoc_remove_In {B} (k : string) (l : list (string * B)) (x : string * B) :
  In x (assoc_remove k l) <-> In x l /\ fst x <> k.
Proof.
  induction l as [|[a v] l IH]; cbn; [tauto|]. destruct (String.eqb k a) eqn:E.
  - apply String.eqb_eq in E. subst a. rewrite IH. split.
    + intros [H1 H2]. tauto.
    + intros [[<-|H1] H2]; [cbn in H2; congruence|tauto].
  - apply String.eqb_neq in E. cbn. rewrite IH. split.
    + intros [<-|[H1 H2]]; [cbn; split; [left; reflexivity|congruence]|tauto].
    + intros [[<-|H1] H2]; tauto.
Qed.

(** For a source list without repetition: who is selected, who is not, and when
    the target becomes dirty. *)
Lemma recompile_loop_spec (cur : infolist) : forall prev sel dum ch,
  NoDup (il_paths cur) -> recompile_loop prev cur = (sel, dum, ch) ->
  (forall i, In i sel <-> In i cur /\ assoc (pi_path i) prev <> Some (pi_hash i)) /\
  (forall i, In i dum <-> In i cur /\ assoc (pi_path i) prev = Some (pi_hash i)) /\
  (ch = false <-> sel = [] /\ (forall x, In x prev -> In (fst x) (il_paths cur))) /\
  Permutation cur (sel ++ dum).
Proof.
  induction cur as [|i cur IH]; intros prev sel dum ch N H; cbn [recompile_loop] in H.
  - injection H as <- <- <-. split; [cbn; tauto|]. split; [cbn; tauto|]. split; [|constructor].
    destruct prev as [|x prev]; cbn.
    + split; [intros _; split; [reflexivity|intros ? []]|reflexivity].
    + split; [discriminate|]. intros [_ K]. destruct (K x (or_introl eq_refl)).
  - cbn in N. apply NoDup_cons_iff in N as [N1 N2].
    assert (Hne : forall j, In j cur -> pi_path i <> pi_path j).
    { intros j Hj E. apply N1. rewrite E. apply in_map. exact Hj. }
    destruct (assoc (pi_path i) prev) as [h|] eqn:E.
    + destruct (recompile_loop (assoc_remove (pi_path i) prev) cur) as [[sel0 dum0] ch0] eqn:R.
      destruct (IH _ _ _ _ N2 R) as (A & B & C & D).
      assert (HI : forall j, In j cur -> assoc (pi_path j) (assoc_remove (pi_path i) prev) = assoc (pi_path j) prev).
      { intros j Hj. apply assoc_remove_other. exact (Hne j Hj). }
      assert (HC : (forall x, In x (assoc_remove (pi_path i) prev) -> In (fst x) (il_paths cur)) <->
                   (forall x, In x prev -> In (fst x) (il_paths (i :: cur)))).
      { split; intros K x Hx.
        - cbn. destruct (string_dec (pi_path i) (fst x)) as [Heq|Hn]; [left; exact Heq|right].
          apply K. apply assoc_remove_In. split; [exact Hx|congruence].
        - apply assoc_remove_In in Hx as [Hx Hn]. destruct (K x Hx) as [Heq|Hin]; [congruence|exact Hin]. }
      destruct (String.eqb h (pi_hash i)) eqn:Eh; injection H as <- <- <-.
      * apply String.eqb_eq in Eh. subst h. repeat split.
        -- apply A in H. right. tauto.
        -- apply A in H. rewrite HI in H; tauto.
        -- intros [[<-|Hj] Hx]; [congruence|]. apply A. rewrite HI; tauto.
        -- destruct H as [<-|H]; [left; reflexivity|right]. apply B in H. tauto.
        -- destruct H as [<-|H]; [exact E|]. apply B in H. rewrite HI in H; tauto.
        -- intros [[<-|Hj] Hx]; [left; reflexivity|right]. apply B. rewrite HI; tauto.
        -- apply C in H. tauto.
        -- apply C in H as [_ K]. apply HC. exact K.
        -- intros [-> K]. apply C. split; [reflexivity|]. apply HC. exact K.
        -- rewrite D. apply Permutation_middle.
      * apply String.eqb_neq in Eh. repeat split.
        -- destruct H as [<-|H]; [left; reflexivity|right]. apply A in H. tauto.
        -- destruct H as [<-|H]; [congruence|]. apply A in H. rewrite HI in H; tauto.
        -- intros [[<-|Hj] Hx]; [left; reflexivity|right]. apply A. rewrite HI; tauto.
        -- apply B in H. right. tauto.
        -- apply B in H. rewrite HI in H; tauto.
        -- intros [[<-|Hj] Hx]; [congruence|]. apply B. rewrite HI; tauto.
        -- discriminate.
        -- discriminate.
        -- intros [K _]. discriminate.
        -- cbn. constructor. exact D.
    + destruct (recompile_loop prev cur) as [[sel0 dum0] ch0] eqn:R. injection H as <- <- <-.
      destruct (IH _ _ _ _ N2 R) as (A & B & C & D). repeat split.
      -- destruct H as [<-|H]; [left; reflexivity|right]. apply A in H. tauto.
      -- destruct H as [<-|H]; [congruence|]. apply A in H. tauto.
      -- intros [[<-|Hj] Hx]; [left; reflexivity|right]. apply A. tauto.
      -- apply B in H. right. tauto.
      -- apply B in H. tauto.
      -- intros [[<-|Hj] Hx]; [congruence|]. apply B. tauto.
      -- discriminate.
      -- discriminate.
      -- intros [K _]. discriminate.
      -- cbn. constructor. exact D.
Qed.

Lemma recompile_sources_spec (prev cur sel dum : infolist) (ch : bool) :
  NoDup (il_paths cur) -> recompile_sources prev cur = (sel, dum, ch) ->
  (forall i, In i sel <-> In i cur /\ il_lookup prev (pi_path i) <> Some (pi_hash i)) /\
  (forall i, In i dum <-> In i cur /\ il_lookup prev (pi_path i) = Some (pi_hash i)) /\
  (ch = false <-> sel = [] /\ (forall p, In p (il_paths prev) -> In p (il_paths cur))) /\
  Permutation cur (sel ++ dum).
Proof.
  intros N H. destruct (recompile_loop_spec _ _ _ _ _ N H) as (A & B & C & D).
  split; [exact A|]. split; [exact B|]. split; [|exact D]. rewrite C.
  split; intros [E K]; (split; [exact E|]).
  - intros p Hp. unfold il_paths in Hp. apply in_map_iff in Hp as (i & <- & Hi).
    apply (K (pi_path i, pi_hash i)). apply (in_map (fun i => (pi_path i, pi_hash i))) in Hi. exact Hi.
  - intros x Hx. apply in_map_iff in Hx as (i & <- & Hi). cbn. apply K. apply in_map. exact Hi.
Qed.

(** ** Commands depend only on the options they mention *)

Lemma construct_congr (pat : string) (l : list string) (d d' : command) (a a' : list (string * string)) :
  avoids pat l -> (forall k, ~ In k l -> assoc k (d ++ a) = assoc k (d' ++ a')) ->
  construct d pat a = construct d' pat a'.
Proof.
  intros (toks & -> & Ht & Hf) H. rewrite !construct_render by exact Ht. f_equal. apply expand_ext.
  intros n Hn. rewrite <- !assoc_first_value. apply H. intros K. exact (Hf n K Hn).
Qed.

Lemma default_args_assoc (e : tenv) (c : cfg) (k : string) :
  assoc k (default_args e c) = assoc k
    ([ ("include_dirs", aggregate_with_prefix (tc_prefix_include (te_tc e)) (dirs (c_include_dirs c)));
      ("lib_dirs", aggregate_with_prefix (tc_prefix_lib (te_tc e)) (dirs (c_lib_dirs c)));
      ("preprocessor_flags", aggregate (c_preprocessor c));
      ("common_compile_flags", aggregate (c_common c));
      ("link_flags", aggregate (c_link c));
      ("asm_compiler", to_display_string (te_asm e));
      ("c_compiler", to_display_string (te_cc e));
      ("cpp_compiler", to_display_string (te_cxx e));
      ("archiver", to_display_string (te_ar e));
      ("linker", to_display_string (te_ld e)) ] ++
    [ ("pch_compile_flags", if contains_pch c then aggregate (c_pch_compile c) else "");
      ("pch_object_flags", if contains_pch c then aggregate (c_pch_object c) else "");
      ("pch_object_output", if contains_pch c then
          to_display_string (pch_object_path (te_build e) (tc_pch_header_ext (te_tc e)) (tc_obj_ext (te_tc e)))
          else "")]).
Proof.
  unfold default_args. rewrite !add_defaults_assoc, assoc_app. cbn [assoc command_init user_of ts_include_dirs
    ts_lib_dirs ts_preprocessor_flags ts_common_compile_flags ts_link_flags ts_pch_compile_flags ts_pch_object_flags].
  destruct (contains_pch c); reflexivity.
Qed.

(** The options a compile command depends on. *)
Record obj_opts (c c' : cfg) : Prop := {
  oo_pch : contains_pch c = contains_pch c';
  oo_inc : dirs (c_include_dirs c) = dirs (c_include_dirs c');
  oo_pre : c_preprocessor c = c_preprocessor c';
  oo_com : c_common c = c_common c';
  oo_pc : contains_pch c = true -> c_pch_compile c = c_pch_compile c';
  oo_po : c_pch_object c = c_pch_object c';
  oo_asm : c_asm_flags c = c_asm_flags c';
  oo_c : c_c_flags c = c_c_flags c';
  oo_cpp : c_cpp_flags c = c_cpp_flags c' }.
Record pch_opts (e : tenv) (c c' : cfg) : Prop := {
  po_pch : contains_pch c = true;
  po_pch' : contains_pch c' = true;
  po_lang : contains_cpp e c = contains_cpp e c';
  po_inc : dirs (c_include_dirs c) = dirs (c_include_dirs c');
  po_pre : c_preprocessor c = c_preprocessor c';
  po_com : c_common c = c_common c';
  po_pc : c_pch_compile c = c_pch_compile c';
  po_c : c_c_flags c = c_c_flags c';
  po_cpp : c_cpp_flags c = c_cpp_flags c' }.
Record link_opts (c c' : cfg) : Prop := {
  lo_obj : obj_opts c c';
  lo_libdirs : dirs (c_lib_dirs c) = dirs (c_lib_dirs c');
  lo_link : c_link c = c_link c';
  lo_libs : libs c = libs c';
  lo_ext : c_external_libs c = c_external_libs c' }.

Ltac split_key :=
  match goal with
  | |- context [String.eqb ?k ?x] =>
      is_var k; destruct (String.eqb_spec k x);
      [subst k; try reflexivity; try (exfalso; match goal with H : ~ In _ _ |- _ => apply H; cbn; tauto end)|]
  end.

Lemma select_flags_congr (c c' : cfg) (x : file_ext) :
  c_asm_flags c = c_asm_flags c' -> c_c_flags c = c_c_flags c' -> c_cpp_flags c = c_cpp_flags c' ->
  select_flags c x = select_flags c' x.
Proof. intros A B C. unfold select_flags. cbn. rewrite A, B, C. reflexivity. Qed.

Lemma compile_congr (e : tenv) (c c' : cfg) (s : string) :
  avoids (te_compile_command e) ["link_flags"; "lib_dirs"] -> obj_opts c c' ->
  compile_command e c s = compile_command e c' s.
Proof.
  intros Ht []. unfold compile_command. apply (construct_congr _ _ _ _ _ _ Ht). intros k Hk.
  rewrite (select_flags_congr c c') by assumption.
  rewrite !assoc_app, !default_args_assoc. rewrite <- !oo_pch0, oo_inc0, oo_pre0, oo_com0, oo_po0.
  assert (E : (if contains_pch c then aggregate (c_pch_compile c) else "") =
              (if contains_pch c then aggregate (c_pch_compile c') else "")).
  { destruct (contains_pch c); [rewrite oo_pc0 by reflexivity|]; reflexivity. }
  rewrite E. cbn [assoc app].
  repeat split_key. reflexivity.
Qed.

Lemma pch_congr (e : tenv) (c c' : cfg) :
  avoids (te_pch_command e) ["link_flags"; "lib_dirs"; "pch_object_flags"] -> pch_opts e c c' ->
  pch_command e c = pch_command e c'.
Proof.
  intros Ht []. unfold pch_command. apply (construct_congr _ _ _ _ _ _ Ht). intros k Hk.
  rewrite po_lang0.
  assert (E : select_flags c (if contains_cpp e c' then ExtCpp else ExtC) =
              select_flags c' (if contains_cpp e c' then ExtCpp else ExtC)).
  { unfold select_flags. destruct (contains_cpp e c'); cbn; congruence. }
  rewrite E.
  rewrite !assoc_app, !default_args_assoc. rewrite po_pch0, po_pch'0, po_inc0, po_pre0, po_com0, po_pc0.
  cbn [assoc app].
  repeat split_key. reflexivity.
Qed.

Lemma link_congr (e : tenv) (c c' : cfg) (ord : list string) :
  link_opts c c' -> link_command e c ord = link_command e c' ord.
Proof.
  intros [[] ? ? ? ?]. unfold link_command. unfold construct. apply fscan_ext. intros k.
  cbn [user_of ts_libs ts_external_libs].
  change (il_paths (infos (c_libs c))) with (libs c). change (il_paths (infos (c_libs c'))) with (libs c').
  rewrite lo_libs0, lo_ext0.
  rewrite !assoc_app, !default_args_assoc. rewrite <- !oo_pch0, oo_inc0, oo_pre0, oo_com0, oo_po0, lo_libdirs0, lo_link0.
  assert (E : (if contains_pch c then aggregate (c_pch_compile c) else "") =
              (if contains_pch c then aggregate (c_pch_compile c') else "")).
  { destruct (contains_pch c); [rewrite oo_pc0 by reflexivity|]; reflexivity. }
  rewrite E. reflexivity.
Qed.
