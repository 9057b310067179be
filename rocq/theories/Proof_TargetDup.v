(** A source that is added twice is compiled, and the target linked, in every run. *)
From Verif Require Import Prelude Model_Json Model_Schema Model_Command Model_ToolchainConfig Model_Target
  Spec_Command Spec_Target Proof_Prelude Proof_TargetBase Proof_TargetStep Proof_TargetMain Proof_TargetRuns.

Lemma hash_all_paths (mt : times) (l l' : infolist) (b : bool) : hash_all mt l = (l', b) -> il_paths l' = il_paths l.
Proof.
  revert l' b. induction l as [|i l IH]; intros l' b H; cbn [hash_all] in H; [injection H as <- <-; reflexivity|].
  destruct (compute_hash mt (pi_path i)).
  - destruct (hash_all mt l) as [r b'] eqn:Er. injection H as <- <-. cbn. f_equal. exact (IH _ _ eq_refl).
  - injection H as <- <-. reflexivity.
Qed.

Lemma assoc_remove_same {B} (k : string) (l : list (string * B)) : assoc k (assoc_remove k l) = None.
Proof.
  induction l as [|[x v] l IH]; [reflexivity|]. cbn [assoc_remove]. destruct (String.eqb k x) eqn:E; [exact IH|].
  cbn [assoc]. rewrite E. exact IH.
Qed.

Lemma none_selected (cur : infolist) : forall prev dum ch,
  recompile_loop prev cur = ([], dum, ch) ->
  NoDup (il_paths cur) /\ forall p, In p (il_paths cur) -> assoc p prev <> None.
Proof.
  induction cur as [|i cur IH]; intros prev dum ch H; cbn [recompile_loop] in H.
  - split; [constructor|intros p []].
  - destruct (assoc (pi_path i) prev) as [h|] eqn:E.
    + destruct (recompile_loop (assoc_remove (pi_path i) prev) cur) as [[sel0 dum0] ch0] eqn:R.
      destruct (String.eqb h (pi_hash i)); [|discriminate]. injection H as -> <- <-.
      destruct (IH _ _ _ R) as [A B].
      assert (N : forall p, In p (il_paths cur) -> p <> pi_path i).
      { intros p Hp ->. apply (B _ Hp). apply assoc_remove_same. }
      split.
      * cbn. constructor; [|exact A]. intros K. exact (N _ K eq_refl).
      * intros p [<-|Hp]; [congruence|]. specialize (B p Hp). rewrite assoc_remove_other in B; [exact B|].
        intros K. exact (N p Hp (eq_sym K)).
    + destruct (recompile_loop prev cur) as [[? ?] ?]. discriminate.
Qed.

Lemma selected_dirty (cur : infolist) : forall prev i sel dum ch,
  recompile_loop prev cur = (i :: sel, dum, ch) -> ch = true.
Proof.
  induction cur as [|j cur IH]; intros prev i sel dum ch H; cbn [recompile_loop] in H; [discriminate|].
  destruct (assoc (pi_path j) prev).
  - destruct (recompile_loop _ cur) as [[sel0 dum0] ch0] eqn:R. destruct (String.eqb _ _).
    + injection H as -> <- <-. exact (IH _ _ _ _ _ R).
    + congruence.
  - destruct (recompile_loop prev cur) as [[? ?] ?]. congruence.
Qed.

Definition has_obj (l : list xcmd) : Prop := exists s cmd, In (XObj s cmd) l.
Definition has_link (l : list xcmd) : Prop := exists cmd, In (XLink cmd) l.

(** Where a run over the sources of [c] stands while nothing has failed. *)
Definition DupInv (base : list xcmd) (c : cfg) (st : tstate) : Prop :=
  s_ok st = true -> exists l, s_log st = base ++ l /\
  match s_pc st with
  | PcPch | PcPchExec | PcObj => il_paths (ts_sources (s_user st)) = sources c
  | PcCompile pend => s_dirty st = true /\ (pend <> [] \/ has_obj l)
  | PcLinkExec => has_obj l
  | PcEnd | Idle => has_obj l /\ has_link l
  end.

Lemma snoc_log (base l : list xcmd) (x : xcmd) : (base ++ l) ++ [x] = base ++ (l ++ [x]).
Proof. symmetry. apply app_assoc. Qed.
Lemma has_obj_snoc (l : list xcmd) (x : xcmd) : has_obj l -> has_obj (l ++ [x]).
Proof. intros (s & cmd & H). exists s, cmd. apply in_or_app. left. exact H. Qed.

Lemma pch_pre_sources (mt : times) (u u' : tschema) (b : bool) :
  pch_pre mt u = (u', b) -> il_paths (ts_sources u') = il_paths (ts_sources u).
Proof.
  unfold pch_pre. destruct (hash_all mt (ts_headers u)) as [h b1]. destruct b1.
  - destruct (hash_all mt (ts_pchs (with_headers u h))) as [q b2]. intros [= <- <-]. reflexivity.
  - intros [= <- <-]. reflexivity.
Qed.
Lemma obj_pre_sources (mt : times) (u u' : tschema) (b : bool) :
  obj_pre mt u = (u', b) -> il_paths (ts_sources u') = il_paths (ts_sources u).
Proof.
  unfold obj_pre. destruct (hash_all mt (ts_sources u)) as [s b1] eqn:E. apply hash_all_paths in E. destruct b1.
  - destruct (hash_all mt (ts_headers (with_sources u s))) as [h b2]. destruct b2.
    + destruct (hash_all mt _) as [q b3]. intros [= <- <-]. exact E.
    + intros [= <- <-]. exact E.
  - intros [= <- <-]. exact E.
Qed.

Lemma DupInv_step base c e st ev st' :
  ~ NoDup (sources c) -> step e st ev = Some st' -> own ev -> DupInv base c st -> DupInv base c st'.
Proof.
  intros N S O H. destruct ev; try destruct O; cbn [step] in S.
  - destruct (s_pc st) eqn:E; try discriminate. injection S as <-. unfold DupInv in *. rewrite E in H.
    unfold pch_check. destruct (s_ok st) eqn:Eo; [|cbn [negb]; stp; intros K; congruence]. cbn [negb].
    destruct (pch_pre (d_mt (s_disk st)) (s_user st)) as [u b] eqn:Ep. apply pch_pre_sources in Ep.
    destruct b; [|stp; discriminate]. cbn [negb]. destruct (H eq_refl) as (l & Hl & Hs).
    destruct (_ || _); stp; intros _; exists l; (split; [exact Hl|]); congruence.
  - destruct (s_pc st) eqn:E; try discriminate. unfold DupInv in *. rewrite E in H. unfold pch_exec in S.
    destruct (pch_command _ _); try discriminate. injection S as <-. destruct (run_res _ _); stp; try discriminate.
    intros Ho. destruct (H Ho) as (l & Hl & Hs). eexists. split; [rewrite Hl; apply snoc_log|exact Hs].
  - destruct (s_pc st) eqn:E; try discriminate. injection S as <-. unfold DupInv in *. rewrite E in H.
    unfold obj_check. destruct (s_ok st) eqn:Eo; [|cbn [negb]; stp; intros K; congruence]. cbn [negb].
    destruct (obj_pre (d_mt (s_disk st)) (s_user st)) as [u b] eqn:Ep. apply obj_pre_sources in Ep.
    destruct b; [|stp; discriminate]. cbn [negb]. destruct (H eq_refl) as (l & Hl & Hs).
    assert (Hu : il_paths (ts_sources u) = sources c) by congruence.
    assert (Hn : ts_sources u <> []) by (intros K; rewrite K in Hu; apply N; rewrite <- Hu; constructor).
    stp. destruct (s_load st) as [ld|] eqn:El; [|stp; intros _; exists l; auto].
    destruct (s_dirty st || negb (obj_same ld u)); [stp; intros _; exists l; auto|].
    destruct (recompile_sources (ts_sources ld) (ts_sources u)) as [[x y] z] eqn:R. stp. intros _. exists l. split; [exact Hl|].
    unfold recompile_sources in R. assert (Hx : x <> []).
    { intros ->. apply none_selected in R as [R _]. rewrite Hu in R. exact (N R). }
    split; [|left; exact Hx]. destruct x; [congruence|]. apply selected_dirty in R. exact R.
  - destruct (s_pc st) eqn:E; try discriminate. unfold DupInv in *. rewrite E in H. unfold compile_one in S.
    destruct (take_pending _ _) as [[i r']|] eqn:Tk; [|discriminate].
    destruct (compile_command _ _ _) as [cmd| |]; try discriminate. injection S as <-. destruct (run_res _ _); stp; try discriminate.
    intros Ho. destruct (H Ho) as (l & Hl & Hd & _). eexists. split; [rewrite Hl; apply snoc_log|].
    split; [exact Hd|]. right. exists s, cmd. apply in_or_app. right. left. reflexivity.
  - destruct (s_pc st) as [| | | |[|? ?]| |] eqn:E; try discriminate. injection S as <-. unfold DupInv in *. rewrite E in H.
    unfold link_check. destruct (s_ok st) eqn:Eo; [|cbn [negb]; stp; intros K; congruence]. cbn [negb].
    destruct (link_pre _ _) as [u b]. destruct b; [|stp; discriminate]. cbn [negb].
    destruct (H eq_refl) as (l & Hl & Hd & [K|K]); [congruence|]. stp. rewrite Hd. cbn [orb].
    replace (match s_load st with Some _ => true | None => true end) with true by (destruct (s_load st); reflexivity).
    intros _. exists l. auto.
  - destruct (s_pc st) eqn:E; try discriminate. unfold DupInv in *. rewrite E in H. unfold link_exec in S.
    destruct (link_command _ _ _) as [cmd| |]; try discriminate. injection S as <-. destruct (run_res _ _); stp; try discriminate.
    intros Ho. destruct (H Ho) as (l & Hl & K). eexists. split; [rewrite Hl; apply snoc_log|].
    split; [apply has_obj_snoc; exact K|]. exists cmd. apply in_or_app. right. left. reflexivity.
  - destruct (s_pc st) eqn:E; try discriminate.
    assert (S' : step e st (EvEnd w) = Some st') by (cbn [step]; rewrite E; exact S).
    destruct (end_log _ _ _ _ S') as (K & Hlog & Hok).
    unfold DupInv in *. rewrite E in H. rewrite K, Hlog. intros Ho. apply H. destruct (s_ok st); [reflexivity|]. rewrite (Hok eq_refl) in Ho. discriminate.
Qed.

(** C04: with a repeated source no successful run is idle. *)
Theorem repeated_source_compiled e st c ord run st2 :
  ~ NoDup (sources c) -> exec e st (EvStart c ord :: run) = Some st2 -> Forall own run ->
  s_pc st2 = Idle -> s_ok st2 = true ->
  exists l, s_log st2 = s_log st ++ l /\ (exists s cmd, In (XObj s cmd) l) /\ (exists cmd, In (XLink cmd) l).
Proof.
  intros N X F P Ho. cbn [exec] in X. destruct (step e st (EvStart c ord)) as [st1|] eqn:S; [|discriminate].
  assert (B : DupInv (s_log st) c st1).
  { cbn [step] in S. destruct (s_pc st) eqn:E; try discriminate. unfold start in S. destruct (_ || _); [discriminate|].
    destruct (forallb _ _); injection S as <-; unfold DupInv; stp; [|discriminate].
    intros _. exists []. split; [symmetry; apply app_nil_r|]. destruct (contains_pch c); reflexivity. }
  clear S. revert st1 X B. induction F as [|ev evs O F IH]; intros st1 X B.
  - injection X as ->. unfold DupInv in B. rewrite P in B. exact (B Ho).
  - cbn [exec] in X. destruct (step e st1 ev) as [st3|] eqn:S; [|discriminate].
    exact (IH st3 X (DupInv_step _ _ _ _ _ _ N S O B)).
Qed.
