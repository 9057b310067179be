(** A repeated run does what a run of a new process would do. *)
From Verif Require Import Prelude Proof_Prelude Model_Path Model_Json Model_Schema Model_Command Spec_Command
  Model_ToolchainConfig Model_Target Spec_Target Proof_TargetBase Proof_TargetInv Proof_TargetRun
  Proof_TargetStep Proof_TargetStep2 Proof_TargetMain Model_Again Spec_Again.

(** ** Hashing depends on the paths only *)

Lemma hash_all_two (mt : times) : forall a b a' b' x y,
  il_paths a = il_paths b -> hash_all mt a = (a', x) -> hash_all mt b = (b', y) ->
  x = y /\ (x = true -> a' = b') /\ il_paths a' = il_paths a /\ il_paths b' = il_paths b.
Proof.
  induction a as [|i a IH]; intros [|j b] a' b' x y P A B; try discriminate P.
  - cbn in A, B. injection A as <- <-. injection B as <- <-. repeat split.
  - unfold il_paths in P. cbn [map] in P. injection P as Pi P. cbn [hash_all] in A, B. rewrite <- Pi in B.
    destruct (compute_hash mt (pi_path i)) as [hh|].
    + destruct (hash_all mt a) as [ra xa] eqn:Ea. destruct (hash_all mt b) as [rb xb] eqn:Eb.
      injection A as <- <-. injection B as <- <-.
      destruct (IH b ra rb xa xb P eq_refl Eb) as (K1 & K2 & K3 & K4). split; [exact K1|]. split.
      { intros K. rewrite (K2 K). reflexivity. }
      unfold il_paths in *. cbn [map pi_path]. rewrite K3, K4, Pi. split; reflexivity.
    + injection A as <- <-. injection B as <- <-. repeat split. discriminate.
Qed.

Lemma like_headers_w c u l : like c u -> il_paths l = il_paths (ts_headers u) -> like c (with_headers u l).
Proof. unfold like. intros <- H. apply strip_paths_eq in H. unfold strip. tsp. rewrite H. reflexivity. Qed.
Lemma like_pchs_w c u l : like c u -> il_paths l = il_paths (ts_pchs u) -> like c (with_pchs u l (ts_pch_compiled u)).
Proof. unfold like. intros <- H. apply strip_paths_eq in H. unfold strip. tsp. rewrite H. reflexivity. Qed.
Lemma like_sources_w c u l : like c u -> il_paths l = il_paths (ts_sources u) -> like c (with_sources u l).
Proof. unfold like. intros <- H. apply strip_paths_eq in H. unfold strip. tsp. rewrite H. reflexivity. Qed.
Lemma like_libs_w c u l : like c u -> il_paths l = il_paths (ts_libs u) -> like c (with_libs u l).
Proof. unfold like. intros <- H. apply strip_paths_eq in H. unfold strip. tsp. rewrite H. reflexivity. Qed.
Lemma like_cdeps_w c u l : like c u -> il_paths l = il_paths (ts_compile_deps u) -> like c (with_deps u l (ts_link_deps u)).
Proof. unfold like. intros <- H. apply strip_paths_eq in H. unfold strip. tsp. rewrite H. reflexivity. Qed.
Lemma like_ldeps_w c u l : like c u -> il_paths l = il_paths (ts_link_deps u) -> like c (with_deps u (ts_compile_deps u) l).
Proof. unfold like. intros <- H. apply strip_paths_eq in H. unfold strip. tsp. rewrite H. reflexivity. Qed.

Section Two.
Context (mt : times) (c : cfg).

Lemma pch_pre_two (u v u' v' : tschema) (x y : bool) :
  like c u -> like c v -> pch_pre mt u = (u', x) -> pch_pre mt v = (v', y) ->
  x = y /\ like c u' /\ like c v' /\ (x = true -> ts_headers u' = ts_headers v' /\ ts_pchs u' = ts_pchs v').
Proof.
  intros Lu Lv U V. unfold pch_pre in U, V.
  destruct (hash_all mt (ts_headers u)) as [hu b1] eqn:E1. destruct (hash_all mt (ts_headers v)) as [hv b2] eqn:E2.
  assert (P1 : il_paths (ts_headers u) = il_paths (ts_headers v)) by (rewrite (like_headers c u Lu), (like_headers c v Lv); reflexivity).
  destruct (hash_all_two mt _ _ _ _ _ _ P1 E1 E2) as (<- & K1 & K2 & K3).
  pose proof (like_headers_w c u hu Lu K2) as Lu1. pose proof (like_headers_w c v hv Lv K3) as Lv1.
  destruct b1.
  - destruct (hash_all mt (ts_pchs (with_headers u hu))) as [pu b3] eqn:E3.
    destruct (hash_all mt (ts_pchs (with_headers v hv))) as [pv b4] eqn:E4.
    assert (P2 : il_paths (ts_pchs (with_headers u hu)) = il_paths (ts_pchs (with_headers v hv)))
      by (rewrite (like_pchs c _ Lu1), (like_pchs c _ Lv1); reflexivity).
    destruct (hash_all_two mt _ _ _ _ _ _ P2 E3 E4) as (<- & K4 & K5 & K6).
    injection U as <- <-. injection V as <- <-. split; [reflexivity|].
    split; [exact (like_pchs_w c _ _ Lu1 K5)|]. split; [exact (like_pchs_w c _ _ Lv1 K6)|].
    intros K. tsp. split; [exact (K1 eq_refl)|exact (K4 K)].
  - injection U as <- <-. injection V as <- <-. split; [reflexivity|]. split; [exact Lu1|]. split; [exact Lv1|discriminate].
Qed.

Lemma obj_pre_two (u v u' v' : tschema) (x y : bool) :
  like c u -> like c v -> obj_pre mt u = (u', x) -> obj_pre mt v = (v', y) ->
  x = y /\ like c u' /\ like c v' /\
  (x = true -> ts_sources u' = ts_sources v' /\ ts_headers u' = ts_headers v' /\ ts_compile_deps u' = ts_compile_deps v').
Proof.
  intros Lu Lv U V. unfold obj_pre in U, V.
  destruct (hash_all mt (ts_sources u)) as [su b1] eqn:E1. destruct (hash_all mt (ts_sources v)) as [sv b2] eqn:E2.
  assert (P1 : il_paths (ts_sources u) = il_paths (ts_sources v)) by (rewrite (like_sources c u Lu), (like_sources c v Lv); reflexivity).
  destruct (hash_all_two mt _ _ _ _ _ _ P1 E1 E2) as (<- & K1 & K2 & K3).
  pose proof (like_sources_w c u su Lu K2) as Lu1. pose proof (like_sources_w c v sv Lv K3) as Lv1.
  destruct b1.
  - destruct (hash_all mt (ts_headers (with_sources u su))) as [hu b3] eqn:E3.
    destruct (hash_all mt (ts_headers (with_sources v sv))) as [hv b4] eqn:E4.
    assert (P2 : il_paths (ts_headers (with_sources u su)) = il_paths (ts_headers (with_sources v sv)))
      by (rewrite (like_headers c _ Lu1), (like_headers c _ Lv1); reflexivity).
    destruct (hash_all_two mt _ _ _ _ _ _ P2 E3 E4) as (<- & K4 & K5 & K6).
    pose proof (like_headers_w c _ hu Lu1 K5) as Lu2. pose proof (like_headers_w c _ hv Lv1 K6) as Lv2.
    destruct b3.
    + destruct (hash_all mt (ts_compile_deps (with_headers (with_sources u su) hu))) as [du b5] eqn:E5.
      destruct (hash_all mt (ts_compile_deps (with_headers (with_sources v sv) hv))) as [dv b6] eqn:E6.
      assert (P3 : il_paths (ts_compile_deps (with_headers (with_sources u su) hu)) =
                   il_paths (ts_compile_deps (with_headers (with_sources v sv) hv)))
        by (rewrite (like_cdeps c _ Lu2), (like_cdeps c _ Lv2); reflexivity).
      destruct (hash_all_two mt _ _ _ _ _ _ P3 E5 E6) as (<- & K7 & K8 & K9).
      injection U as <- <-. injection V as <- <-. split; [reflexivity|].
      split; [exact (like_cdeps_w c _ _ Lu2 K8)|]. split; [exact (like_cdeps_w c _ _ Lv2 K9)|].
      intros K. tsp. split; [exact (K1 eq_refl)|]. split; [exact (K4 eq_refl)|exact (K7 K)].
    + injection U as <- <-. injection V as <- <-. split; [reflexivity|]. split; [exact Lu2|]. split; [exact Lv2|discriminate].
  - injection U as <- <-. injection V as <- <-. split; [reflexivity|]. split; [exact Lu1|]. split; [exact Lv1|discriminate].
Qed.

Lemma link_pre_two (u v u' v' : tschema) (x y : bool) :
  like c u -> like c v -> link_pre mt u = (u', x) -> link_pre mt v = (v', y) ->
  x = y /\ like c u' /\ like c v' /\ (x = true -> ts_libs u' = ts_libs v' /\ ts_link_deps u' = ts_link_deps v').
Proof.
  intros Lu Lv U V. unfold link_pre in U, V.
  destruct (hash_all mt (ts_libs u)) as [hu b1] eqn:E1. destruct (hash_all mt (ts_libs v)) as [hv b2] eqn:E2.
  assert (P1 : il_paths (ts_libs u) = il_paths (ts_libs v)) by (rewrite (like_libs c u Lu), (like_libs c v Lv); reflexivity).
  destruct (hash_all_two mt _ _ _ _ _ _ P1 E1 E2) as (<- & K1 & K2 & K3).
  pose proof (like_libs_w c u hu Lu K2) as Lu1. pose proof (like_libs_w c v hv Lv K3) as Lv1.
  destruct b1.
  - destruct (hash_all mt (ts_link_deps (with_libs u hu))) as [pu b3] eqn:E3.
    destruct (hash_all mt (ts_link_deps (with_libs v hv))) as [pv b4] eqn:E4.
    assert (P2 : il_paths (ts_link_deps (with_libs u hu)) = il_paths (ts_link_deps (with_libs v hv)))
      by (rewrite (like_ldeps c _ Lu1), (like_ldeps c _ Lv1); reflexivity).
    destruct (hash_all_two mt _ _ _ _ _ _ P2 E3 E4) as (<- & K4 & K5 & K6).
    injection U as <- <-. injection V as <- <-. split; [reflexivity|].
    split; [exact (like_ldeps_w c _ _ Lu1 K5)|]. split; [exact (like_ldeps_w c _ _ Lv1 K6)|].
    intros K. tsp. split; [exact (K1 eq_refl)|exact (K4 K)].
  - injection U as <- <-. injection V as <- <-. split; [reflexivity|]. split; [exact Lu1|]. split; [exact Lv1|discriminate].
Qed.

Lemma pch_same_two (l u v : tschema) :
  like c u -> like c v -> ts_headers u = ts_headers v -> ts_pchs u = ts_pchs v -> pch_same l u = pch_same l v.
Proof.
  intros Lu Lv A B. destruct (like_flags c u Lu) as (F1 & F2 & F3 & F4 & F5 & F6 & F7 & F8 & F9 & F10 & F11).
  destruct (like_flags c v Lv) as (G1 & G2 & G3 & G4 & G5 & G6 & G7 & G8 & G9 & G10 & G11).
  unfold pch_same. rewrite F2, F4, F5, F6, F9, F10, A, B, G2, G4, G5, G6, G9, G10. reflexivity.
Qed.
Lemma obj_same_two (l u v : tschema) :
  like c u -> like c v -> ts_headers u = ts_headers v -> ts_compile_deps u = ts_compile_deps v -> obj_same l u = obj_same l v.
Proof.
  intros Lu Lv A B. destruct (like_flags c u Lu) as (F1 & F2 & F3 & F4 & F5 & F6 & F7 & F8 & F9 & F10 & F11).
  destruct (like_flags c v Lv) as (G1 & G2 & G3 & G4 & G5 & G6 & G7 & G8 & G9 & G10 & G11).
  unfold obj_same. rewrite F2, F4, F5, F7, F8, F9, F10, A, B, G2, G4, G5, G7, G8, G9, G10. reflexivity.
Qed.
Lemma link_same_two (l u v : tschema) :
  like c u -> like c v -> ts_libs u = ts_libs v -> ts_link_deps u = ts_link_deps v -> link_same l u = link_same l v.
Proof.
  intros Lu Lv A B. destruct (like_flags c u Lu) as (F1 & F2 & F3 & F4 & F5 & F6 & F7 & F8 & F9 & F10 & F11).
  destruct (like_flags c v Lv) as (G1 & G2 & G3 & G4 & G5 & G6 & G7 & G8 & G9 & G10 & G11).
  unfold link_same. rewrite F1, F3, F11, A, B, G1, G3, G11. reflexivity.
Qed.
End Two.

(** ** The simulation *)

(** [k]: the repeated run follows one that has built something, [sh] is a new
    process without state file; otherwise [sh] is a new process with the same one. *)
Record Sim (k : bool) (L L' : list xcmd) (st sh : tstate) : Prop := {
  m_pc : s_pc sh = s_pc st;
  m_cfg : s_cfg sh = s_cfg st;
  m_ord : s_ord sh = s_ord st;
  m_ok : s_ok sh = s_ok st;
  m_like : like (s_cfg st) (s_user st);
  m_like' : like (s_cfg st) (s_user sh);
  m_disk : s_disk sh = if k then set_store (s_disk st) None else s_disk st;
  m_gate : if k then s_dirty st = true /\ s_load sh = None
           else s_dirty sh = s_dirty st /\ s_load sh = s_load st;
  m_log : exists x, s_log st = L ++ x /\ s_log sh = L' ++ x }.

Lemma m_mt k L L' st sh : Sim k L L' st sh -> d_mt (s_disk sh) = d_mt (s_disk st).
Proof. intros H. rewrite (m_disk _ _ _ _ _ H). destruct k; reflexivity. Qed.
Lemma log_app {A} (a b x : list A) (y : A) (L L' : list A) :
  a = L ++ x -> b = L' ++ x -> exists x', a ++ [y] = L ++ x' /\ b ++ [y] = L' ++ x'.
Proof. intros -> ->. exists (x ++ [y]). rewrite !app_assoc. split; reflexivity. Qed.

Section SimStep.
Context (e : tenv) (k : bool) (L L' : list xcmd) (st sh : tstate) (S : Sim k L L' st sh).

Ltac sim0 := constructor; stp; auto; try congruence.

Lemma sim_pch_check : Sim k L L' (pch_check st) (pch_check sh).
Proof using S.
  pose proof (m_mt _ _ _ _ _ S) as Mt. destruct S as [P C O K U U' D G LG].
  unfold pch_check. rewrite K. destruct (s_ok st) eqn:OK; cbn [negb]; [|sim0; congruence].
  rewrite Mt.
  destruct (pch_pre (d_mt (s_disk st)) (s_user st)) as [u x] eqn:E1.
  destruct (pch_pre (d_mt (s_disk st)) (s_user sh)) as [v y] eqn:E2.
  destruct (pch_pre_two _ _ _ _ _ _ _ _ U U' E1 E2) as (<- & Lu & Lv & X).
  destruct x; cbn [negb]; [|sim0]. destruct (X eq_refl) as [X1 X2]. stp.
  destruct k.
  - destruct G as [G1 G2]. rewrite G1, G2. cbn [orb]. rewrite orb_true_r. sim0.
  - destruct G as [G1 G2]. rewrite G1, G2.
    replace (match s_load st with None => true | Some l => negb (pch_same l v) end)
      with (match s_load st with None => true | Some l => negb (pch_same l u) end).
    2:{ destruct (s_load st); [|reflexivity]. rewrite (pch_same_two (s_cfg st) t u v); auto. }
    destruct (s_dirty st || _) eqn:Dd; sim0. 
Qed.

Lemma sim_obj_check : Sim k L L' (obj_check st) (obj_check sh).
Proof using S.
  pose proof (m_mt _ _ _ _ _ S) as Mt. destruct S as [P C O K U U' D G LG].
  unfold obj_check. rewrite K. destruct (s_ok st) eqn:OK; cbn [negb]; [|sim0; congruence].
  rewrite Mt.
  destruct (obj_pre (d_mt (s_disk st)) (s_user st)) as [u x] eqn:E1.
  destruct (obj_pre (d_mt (s_disk st)) (s_user sh)) as [v y] eqn:E2.
  destruct (obj_pre_two _ _ _ _ _ _ _ _ U U' E1 E2) as (<- & Lu & Lv & X).
  destruct x; cbn [negb]; [|sim0]. destruct (X eq_refl) as (X0 & X1 & X2). stp.
  destruct k.
  - destruct G as [G1 G2]. rewrite G1, G2. cbn [orb].
    replace (match s_load st with None => true | Some _ => true end) with true by (destruct (s_load st); reflexivity).
    rewrite X0. sim0.
  - destruct G as [G1 G2]. rewrite G1, G2.
    replace (match s_load st with None => true | Some l => s_dirty st || negb (obj_same l v) end)
      with (match s_load st with None => true | Some l => s_dirty st || negb (obj_same l u) end).
    2:{ destruct (s_load st); [|reflexivity]. rewrite (obj_same_two (s_cfg st) t u v); auto. }
    rewrite <- X0.
    set (r := if (match s_load st with None => true | Some l => s_dirty st || negb (obj_same l u) end) then _ else _).
    destruct r as [[sel dum] dd]. sim0.
Qed.

Lemma sim_link_check : Sim k L L' (link_check st) (link_check sh).
Proof using S.
  pose proof (m_mt _ _ _ _ _ S) as Mt. destruct S as [P C O K U U' D G LG].
  unfold link_check. rewrite K. destruct (s_ok st) eqn:OK; cbn [negb]; [|sim0; congruence].
  rewrite Mt.
  destruct (link_pre (d_mt (s_disk st)) (s_user st)) as [u x] eqn:E1.
  destruct (link_pre (d_mt (s_disk st)) (s_user sh)) as [v y] eqn:E2.
  destruct (link_pre_two _ _ _ _ _ _ _ _ U U' E1 E2) as (<- & Lu & Lv & X).
  destruct x; cbn [negb]; [|sim0]. destruct (X eq_refl) as [X1 X2]. stp.
  destruct k.
  - destruct G as [G1 G2]. rewrite G1, G2. cbn [orb].
    replace (match s_load st with None => true | Some _ => true end) with true by (destruct (s_load st); reflexivity). sim0.
  - destruct G as [G1 G2]. rewrite G1, G2.
    replace (match s_load st with None => true | Some l => s_dirty st || negb (link_same l v) end)
      with (match s_load st with None => true | Some l => s_dirty st || negb (link_same l u) end).
    2:{ destruct (s_load st); [|reflexivity]. rewrite (link_same_two (s_cfg st) t u v); auto. }
    sim0.
Qed.

Lemma sim_pch_exec (r : xres pch_art) (st' : tstate) :
  pch_exec e st r = Some st' -> exists sh', pch_exec e sh r = Some sh' /\ Sim k L L' st' sh'.
Proof using S.
  intros H. pose proof (m_mt _ _ _ _ _ S) as Mt. destruct S as [P C O K U U' D G (x & LG1 & LG2)].
  unfold pch_exec in *. rewrite C. destruct (pch_command e (s_cfg st)) as [cmd| |]; try discriminate.
  injection H as <-. eexists. split; [reflexivity|].
  rewrite (like_pchs _ _ U), (like_pchs _ _ U').
  destruct (run_res cmd r) as [|lo|]; constructor; stp; auto; try congruence;
    try (rewrite D; destruct k; reflexivity); try (exact (log_app _ _ _ _ _ _ LG1 LG2)); try (exists x; split; assumption).
Qed.
Lemma sim_link_exec (r : xres tgt_art) (st' : tstate) :
  link_exec e st r = Some st' -> exists sh', link_exec e sh r = Some sh' /\ Sim k L L' st' sh'.
Proof using S.
  intros H. pose proof (m_mt _ _ _ _ _ S) as Mt. destruct S as [P C O K U U' D G (x & LG1 & LG2)].
  unfold link_exec in *. rewrite C, O. destruct (link_command e (s_cfg st) (s_ord st)) as [cmd| |]; try discriminate.
  injection H as <-. eexists. split; [reflexivity|].
  destruct (run_res cmd r) as [|lo|]; constructor; stp; auto; try congruence;
    try (rewrite D; destruct k; reflexivity); try (exact (log_app _ _ _ _ _ _ LG1 LG2)); try (exists x; split; assumption).
Qed.
Lemma sim_compile (s : string) (p : infolist) (r : xres obj_art) (st' : tstate) :
  compile_one e st s p r = Some st' -> exists sh', compile_one e sh s p r = Some sh' /\ Sim k L L' st' sh'.
Proof using S.
  intros H. pose proof (m_mt _ _ _ _ _ S) as Mt. destruct S as [P C O K U U' D G (x & LG1 & LG2)].
  unfold compile_one in *. rewrite C. destruct (take_pending s p) as [[i rest]|]; [|discriminate].
  destruct (compile_command e (s_cfg st) s) as [cmd| |]; try discriminate.
  injection H as <-. eexists. split; [reflexivity|].
  destruct (run_res cmd r) as [|lo|]; constructor; stp; auto; try congruence;
    try (rewrite D; destruct k; reflexivity); try (exact (log_app _ _ _ _ _ _ LG1 LG2)); try (exists x; split; assumption).
Qed.

Lemma sim_step (ev : event) (st' : tstate) :
  of_run ev = true -> step e st ev = Some st' -> exists sh', step e sh ev = Some sh' /\ Sim k L L' st' sh'.
Proof using S.
  intros OR H. pose proof (m_pc _ _ _ _ _ S) as P. pose proof S as [_ C O K U U' D G LG].
  destruct ev; try discriminate OR; cbn [step] in *; rewrite ?P.
  - injection H as <-. eexists. split; [reflexivity|]. constructor; stp; auto. rewrite D. destruct k; reflexivity.
  - injection H as <-. eexists. split; [reflexivity|]. constructor; stp; auto.
  - injection H as <-. eexists. split; [reflexivity|]. constructor; stp; auto. rewrite D. destruct k; reflexivity.
  - injection H as <-. eexists. split; [reflexivity|]. constructor; stp; auto. rewrite D. destruct k; reflexivity.
  - injection H as <-. eexists. split; [reflexivity|]. constructor; stp; auto. rewrite D. destruct k; reflexivity.
  - destruct (s_pc st); try discriminate H. injection H as <-. eexists. split; [reflexivity|]. apply sim_pch_check.
  - destruct (s_pc st); try discriminate H. apply sim_pch_exec. exact H.
  - destruct (s_pc st); try discriminate H. injection H as <-. eexists. split; [reflexivity|]. apply sim_obj_check.
  - destruct (s_pc st); try discriminate H. apply sim_compile. exact H.
  - destruct (s_pc st) as [| | | |[|? ?]| |]; try discriminate H. injection H as <-. eexists. split; [reflexivity|]. apply sim_link_check.
  - destruct (s_pc st); try discriminate H. apply sim_link_exec. exact H.
Qed.
End SimStep.
