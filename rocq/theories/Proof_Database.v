(** A target's record and the commands it stands for. *)
From Verif Require Import Prelude Proof_Prelude Model_Path Model_Json Model_Schema Spec_Json Proof_Dec
  Proof_Schema Model_Command Spec_Command Proof_Command Model_ToolchainConfig Model_Target Spec_Target
  Proof_TargetBase Proof_TargetInv Proof_TargetRun Proof_TargetStep Proof_TargetMain Proof_TargetDup
  Model_Reg Model_Project Model_CompileCommands Model_Database.

(** ** Records *)

(** The record [l] has these options of compile commands and these sources. *)
Record Opts (l : tschema) (c : cfg) : Prop := {
  op_inc : ts_include_dirs l = dirs (c_include_dirs c);
  op_pre : ts_preprocessor_flags l = c_preprocessor c;
  op_com : ts_common_compile_flags l = c_common c;
  op_po : ts_pch_object_flags l = c_pch_object c;
  op_asm : ts_asm_compile_flags l = c_asm_flags c;
  op_c : ts_c_compile_flags l = c_c_flags c;
  op_cpp : ts_cpp_compile_flags l = c_cpp_flags c }.
Definition LinkOpts (l : tschema) (c : cfg) : Prop :=
  ts_link_flags l = c_link c /\ ts_lib_dirs l = dirs (c_lib_dirs c).
Definition PchOpts (l : tschema) (c : cfg) : Prop :=
  contains_pch c = true -> ts_pchs l <> [] /\ ts_pch_compile_flags l = c_pch_compile c.
Definition Srcs (l : tschema) (c : cfg) : Prop := forall p, In p (il_paths (ts_sources l)) <-> In p (sources c).
Record Desc (l : tschema) (c : cfg) : Prop := {
  de_opts : Opts l c; de_link : LinkOpts l c; de_pch : PchOpts l c; de_srcs : Srcs l c;
  de_done : ts_target_linked l = true }.
Definition Full (l : tschema) (c : cfg) : Prop := Desc l c /\ (ts_pchs l <> [] -> contains_pch c = true).

Lemma compile_congr_all (e : tenv) (c c' : cfg) (s : string) :
  obj_opts c c' -> c_link c = c_link c' -> dirs (c_lib_dirs c) = dirs (c_lib_dirs c') ->
  compile_command e c s = compile_command e c' s.
Proof.
  intros [] A B. unfold compile_command. unfold construct. apply fscan_ext. intros k.
  rewrite (select_flags_congr c c') by assumption.
  rewrite !assoc_app, !default_args_assoc. rewrite <- !oo_pch, oo_inc, oo_pre, oo_com, oo_po, A, B.
  assert (E : (if contains_pch c then aggregate (c_pch_compile c) else "") =
              (if contains_pch c then aggregate (c_pch_compile c') else "")).
  { destruct (contains_pch c); [rewrite oo_pc by reflexivity|]; reflexivity. }
  rewrite E. reflexivity.
Qed.

Lemma same_commands (e : tenv) (l : tschema) (c c' : cfg) : Full l c -> Full l c' ->
  (forall s, In s (sources c) <-> In s (sources c')) /\
  forall s, compile_command e c s = compile_command e c' s.
Proof.
  intros [[[] [L1 L2] P S _] F] [[O' [L1' L2'] P' S' _] F']. destruct O'. split.
  - intros s. rewrite <- (S s). exact (S' s).
  - intros s. apply compile_congr_all; [|congruence|congruence].
    assert (EP : contains_pch c = contains_pch c').
    { destruct (contains_pch c) eqn:E.
      - symmetry. apply F'. exact (proj1 (P E)).
      - destruct (contains_pch c') eqn:E'; [|reflexivity]. exfalso. pose proof (F (proj1 (P' E'))) as K. congruence. }
    constructor; try congruence. intros E. rewrite EP in E. destruct (P' E) as [_ A]. rewrite <- EP in E. destruct (P E) as [_ B]. congruence.
Qed.

(** ** Runs *)

Lemma recompile_cover (cur : infolist) : forall prev sel dum ch, recompile_loop prev cur = (sel, dum, ch) ->
  forall i, In i cur <-> In i (sel ++ dum).
Proof.
  induction cur as [|i cur IH]; intros prev sel dum ch H x; cbn [recompile_loop] in H.
  - injection H as <- <- _. reflexivity.
  - destruct (assoc (pi_path i) prev) as [hh|].
    + destruct (recompile_loop (assoc_remove (pi_path i) prev) cur) as [[s d] b] eqn:R.
      pose proof (IH _ _ _ _ R x) as K. destruct (String.eqb hh (pi_hash i)); injection H as <- <- _;
        cbn [In app]; rewrite ?in_app_iff in *; cbn [In]; tauto.
    + destruct (recompile_loop prev cur) as [[s d] b] eqn:R. pose proof (IH _ _ _ _ R x) as K. injection H as <- <- _.
      cbn [In app]. rewrite in_app_iff in *. cbn [In]. tauto.
Qed.

Definition PchDone (b : tschema) (c : cfg) : Prop := contains_pch c = true -> ts_pchs b <> [].
Definition All (b : tschema) (pend : infolist) (c : cfg) : Prop :=
  forall p, In p (sources c) -> In p (il_paths (ts_sources b) ++ il_paths pend).
Definition Stg (st : tstate) : Prop :=
  let c := s_cfg st in let b := s_buf st in
  match s_pc st with
  | Idle => True
  | PcPch => contains_pch c = true /\ s_dirty st = false
  | PcPchExec => contains_pch c = true /\ s_dirty st = true
  | PcObj => s_ok st = true -> PchDone b c /\
      (s_dirty st = false -> contains_pch c = true -> exists l, s_load st = Some l /\ PchOpts l c)
  | PcCompile pend =>
      (forall i, In i pend -> In (pi_path i) (sources c)) /\
      (s_ok st = true -> PchDone b c /\ All b pend c /\
        (s_dirty st = false -> exists l, s_load st = Some l /\ PchOpts l c /\ Opts l c /\ Srcs l c))
  | PcLinkExec => s_dirty st = true /\ PchDone b c /\ All b [] c
  | PcEnd => s_ok st = true ->
      (s_dirty st = true -> ts_target_linked b = true) /\
      (s_dirty st = false -> exists l, s_load st = Some l /\ Desc l c)
  end.
Record RunI (st : tstate) : Prop := {
  ri_like : like (s_cfg st) (s_user st);
  ri_pchs : ts_pchs (s_buf st) <> [] -> contains_pch (s_cfg st) = true;
  ri_srcs : forall p, In p (il_paths (ts_sources (s_buf st))) -> In p (sources (s_cfg st));
  ri_link : ts_target_linked (s_buf st) = true -> PchDone (s_buf st) (s_cfg st) /\ All (s_buf st) [] (s_cfg st);
  ri_nolink : match s_pc st with PcEnd => True | _ => ts_target_linked (s_buf st) = false end;
  ri_stg : Stg st }.

Lemma pchs_nonempty c u : like c u -> contains_pch c = true -> ts_pchs u <> [].
Proof. intros L P K. apply contains_pch_iff in P. apply P. rewrite <- (like_pchs c u L), K. reflexivity. Qed.
Lemma pchs_nonempty' c u : like c u -> ts_pchs u <> [] -> contains_pch c = true.
Proof.
  intros L P. apply contains_pch_iff. rewrite <- (like_pchs c u L). intros K. apply P. unfold il_paths in K.
  destruct (ts_pchs u); [reflexivity|discriminate].
Qed.

Lemma RunI_edit st f t : RunI st -> RunI (with_disk st (set_mt (s_disk st) (upd (d_mt (s_disk st)) f t))).
Proof. intros []. constructor; stp; assumption. Qed.
Lemma RunI_fail st : RunI st -> RunI (with_ok st false).
Proof.
  intros [A B C D N S]. constructor; stp; try assumption. unfold Stg in *. stp. destruct (s_pc st); try assumption; try discriminate.
  split; [exact (proj1 S)|discriminate].
Qed.

Lemma RunI_step e st ev st' : in_taskflow ev = true -> step e st ev = Some st' -> RunI st -> s_pc st' <> Idle -> RunI st'.
Proof.
  intros F S R NI. pose proof R as R'. destruct R' as [L P Sr K N G]. unfold Stg in G.
  destruct ev; try discriminate; cbn [step] in S.
  - (* PCH check *)
    destruct (s_pc st) eqn:E; try discriminate. injection S as <-. destruct G as [G1 G2].
    unfold pch_check. destruct (s_ok st) eqn:Eo; cbn [negb].
    + destruct (pch_pre (d_mt (s_disk st)) (s_user st)) as [u b] eqn:Ep.
      destruct (pch_pre_like _ _ _ _ _ L Ep) as (L' & HH & _). stp. destruct b; cbn [negb].
      * destruct (HH eq_refl) as [H1 H2]. rewrite G2. cbn [orb].
        destruct (match s_load st with None => true | Some l => negb (pch_same l u) end) eqn:Ed.
        -- constructor; stp; try assumption. split; [exact G1|reflexivity].
        -- destruct (s_load st) as [l|] eqn:El; [|discriminate]. apply negb_false_iff in Ed.
           apply (pch_same_iff _ _ _ _ L' H1 H2) in Ed. constructor; stp; tsp; try assumption.
           ++ intros _. exact G1.
           ++ congruence.
           ++ unfold Stg. stp. tsp. intros _. split.
              ** intros _. exact (pchs_nonempty _ _ L' G1).
              ** intros _ _. exists l. split; [exact El|]. intros _. destruct Ed. split; [|exact pc_pch].
                 intros Z. rewrite Z in pc_pchs. apply Hashed_paths in pc_pchs. apply contains_pch_iff in G1. apply G1. symmetry. exact pc_pchs.
      * constructor; stp; try assumption. discriminate.
    + constructor; stp; try assumption. unfold Stg. stp. congruence.
  - (* PCH command *)
    destruct (s_pc st) eqn:E; try discriminate. unfold pch_exec in S. destruct (pch_command e (s_cfg st)) as [cmd| |]; try discriminate.
    destruct G as [G1 G2]. injection S as <-. destruct (run_res cmd r); constructor; stp; tsp; try assumption; try discriminate.
    + intros _. exact G1.
    + congruence.
    + unfold Stg. stp. tsp. intros _. split; [intros _; exact (pchs_nonempty _ _ L G1)|congruence].
  - (* object check *)
    destruct (s_pc st) eqn:E; try discriminate. injection S as <-.
    unfold obj_check. destruct (s_ok st) eqn:Eo; cbn [negb].
    + destruct (G eq_refl) as [G1 G2].
      destruct (obj_pre (d_mt (s_disk st)) (s_user st)) as [u b] eqn:Ep.
      destruct (obj_pre_like _ _ _ _ _ L Ep) as (L' & HH & _). stp. destruct b; cbn [negb].
      2: { constructor; stp; try assumption. unfold Stg. stp. split; [intros i []|discriminate]. }
      destruct (HH eq_refl) as (H1 & H2 & H3). pose proof (like_sources _ _ L') as Ls.
      set (dirty := match s_load st with Some l => s_dirty st || negb (obj_same l u) | None => true end).
      destruct dirty eqn:Ed.
      * constructor; stp; cbn [fold_left]; try assumption. unfold Stg. stp. split.
        -- intros i Hi. rewrite <- Ls. apply in_map. exact Hi.
        -- intros _. split; [exact G1|]. split; [|discriminate]. intros p Hp. apply in_app_iff. right. rewrite Ls. exact Hp.
      * unfold dirty in Ed. clear dirty. destruct (s_load st) as [l|] eqn:El; [|discriminate].
        apply orb_false_iff in Ed as [Ed1 Ed2]. apply negb_false_iff in Ed2.
        apply (obj_same_iff _ _ _ _ L' H2 H3) in Ed2.
        destruct (recompile_sources (ts_sources l) (ts_sources u)) as [[sel dum] ch] eqn:Er.
        unfold recompile_sources in Er. pose proof (recompile_cover _ _ _ _ _ Er) as Cv.
        assert (Sel : forall i, In i sel -> In (pi_path i) (sources (s_cfg st))).
        { intros i Hi. rewrite <- Ls. apply in_map. apply Cv. apply in_app_iff. left. exact Hi. }
        assert (Dum : forall i, In i dum -> In (pi_path i) (sources (s_cfg st))).
        { intros i Hi. rewrite <- Ls. apply in_map. apply Cv. apply in_app_iff. right. exact Hi. }
        assert (Nd : nlist dum).
        { apply Forall_forall. intros i Hi. exact (proj1 (Forall_forall _ _) (sources_npath (s_cfg st)) _ (Dum i Hi)). }
        rewrite (fold_add _ _ Nd). constructor; stp; tsp; try assumption.
        -- intros p Hp. unfold il_paths in Hp. rewrite map_app in Hp. apply in_app_iff in Hp as [Hp|Hp]; [exact (Sr p Hp)|].
           apply in_map_iff in Hp as (i & <- & Hi). exact (Dum i Hi).
        -- congruence.
        -- unfold Stg. stp. tsp. split; [exact Sel|]. intros _. split; [exact G1|]. split.
           ++ intros p Hp. tsp. rewrite <- Ls in Hp. apply in_map_iff in Hp as (i & <- & Hi). apply Cv in Hi.
              unfold il_paths. rewrite map_app. rewrite !in_app_iff in *. destruct Hi as [Hi|Hi]; [right|left; right]; apply in_map; exact Hi.
           ++ intros ->. exists l. split; [exact El|]. split; [|split].
              ** destruct (contains_pch (s_cfg st)) eqn:Ec; [|intros Z; congruence]. destruct (G2 Ed1 eq_refl) as (l' & [= <-] & Q). exact Q.
              ** destruct Ed2. constructor; assumption.
              ** assert (sel = []) as ->.
                 { destruct sel as [|i sel]; [reflexivity|]. apply selected_dirty in Er. discriminate. }
                 destruct (none_selected _ _ _ _ Er) as [ND Kn]. fold (recompile_sources (ts_sources l) (ts_sources u)) in Er.
                 destruct (recompile_sources_spec _ _ _ _ _ ND Er) as (_ & _ & Ch & _). destruct (proj1 Ch eq_refl) as [_ B].
                 intros p. rewrite <- Ls. split; [exact (B p)|]. intros Hp. specialize (Kn p Hp).
                 destruct (assoc p _) eqn:Ea; [|congruence]. apply assoc_In in Ea. apply in_map_iff in Ea as (i & [= <- _] & Hi). apply in_map. exact Hi.
    + constructor; stp; try assumption. unfold Stg. stp. split; [intros i []|congruence].
  - (* one compile *)
    destruct (s_pc st) eqn:E; try discriminate. unfold compile_one in S.
    destruct (take_pending s pending) as [[i rest]|] eqn:Tk; [|discriminate]. apply take_pending_spec in Tk as [Tk1 Tk2].
    destruct (compile_command e (s_cfg st) s) as [cmd| |]; try discriminate. injection S as <-. destruct G as [G1 G2].
    assert (Pr : forall j, In j rest -> In (pi_path j) (sources (s_cfg st))).
    { intros j Hj. apply G1. apply (Permutation_in _ (Permutation_sym Tk2)). right. exact Hj. }
    assert (Pi : In (pi_path i) (sources (s_cfg st))).
    { apply G1. apply (Permutation_in _ (Permutation_sym Tk2)). left. reflexivity. }
    assert (Ni : npath (pi_path i)) by exact (proj1 (Forall_forall _ _) (sources_npath (s_cfg st)) _ Pi).
    destruct (run_res cmd r).
    + rewrite (add_source_npath _ _ Ni). constructor; stp; tsp; try assumption.
      * intros p Hp. unfold il_paths in Hp. rewrite map_app in Hp. apply in_app_iff in Hp as [Hp|[<-|[]]]; [exact (Sr p Hp)|exact Pi].
      * congruence.
      * unfold Stg. stp. tsp. split; [exact Pr|]. intros Ho. destruct (G2 Ho) as (A1 & A2 & A3). split; [exact A1|]. split.
        -- intros p Hp. tsp. specialize (A2 p Hp). unfold il_paths in *. rewrite map_app. rewrite !in_app_iff in *.
           destruct A2 as [A2|A2]; [left; left; exact A2|]. apply (Permutation_in _ (Permutation_map pi_path Tk2)) in A2.
           destruct A2 as [A2|A2]; [left; right; left; exact A2|right; exact A2].
        -- exact A3.
    + constructor; stp; try assumption; try exact Logic.I. unfold Stg. stp. split; [exact Pr|discriminate].
    + constructor; stp; try assumption; try exact Logic.I. unfold Stg. stp. split; [exact Pr|discriminate].
  - (* link check *)
    destruct (s_pc st) as [| | | |[|]| |] eqn:E; try discriminate. injection S as <-. destruct G as [_ G].
    unfold link_check. destruct (s_ok st) eqn:Eo; cbn [negb].
    + destruct (G eq_refl) as (G1 & G2 & G3). destruct (link_pre (d_mt (s_disk st)) (s_user st)) as [u b] eqn:Ep.
      destruct (link_pre_like _ _ _ _ _ L Ep) as (L' & HH & _). stp. destruct b; cbn [negb].
      2: { constructor; stp; try assumption; try exact Logic.I. unfold Stg. stp. discriminate. }
      destruct (HH eq_refl) as [H1 H2].
      set (dirty := match s_load st with Some l => s_dirty st || negb (link_same l u) | None => true end).
      destruct dirty eqn:Ed.
      * constructor; stp; try assumption; try exact Logic.I. unfold Stg. stp. auto.
      * unfold dirty in Ed. clear dirty. destruct (s_load st) as [l|] eqn:El; [|discriminate].
        apply orb_false_iff in Ed as [Ed1 Ed2]. apply negb_false_iff in Ed2.
        apply (link_same_iff _ _ _ _ L' H1 H2) in Ed2. destruct (G3 Ed1) as (l' & [= <-] & Q1 & Q2 & Q3).
        constructor; stp; try assumption; try exact Logic.I. unfold Stg. stp. intros _. split; [discriminate|]. intros _. exists l. split; [exact El|].
        destruct Ed2. constructor; try assumption. split; assumption.
    + constructor; stp; try assumption; try exact Logic.I. unfold Stg. stp. congruence.
  - (* link command *)
    destruct (s_pc st) eqn:E; try discriminate. unfold link_exec in S. destruct (link_command e _ _) as [cmd| |]; try discriminate.
    injection S as <-. destruct G as (G1 & G2 & G3). destruct (run_res cmd r); constructor; stp; tsp; try assumption; try discriminate.
    + intros _. split; assumption.
    + exact Logic.I.
    + unfold Stg. stp. tsp. intros _. split; [reflexivity|]. congruence.
    + exact Logic.I.
    + exact Logic.I.
  - (* end *)
    exfalso. destruct (s_pc st) eqn:E; try discriminate. apply NI.
    assert (S' : step e st (EvEnd w) = Some st') by (cbn [step]; rewrite E; exact S). exact (proj1 (proj2 (step_end _ _ _ _ S'))).
Qed.

Lemma RunI_start e st c ord st' : start e st c ord = Some st' -> forallb is_fok (all_commands e c ord) = true ->
  RunI st' /\ s_cfg st' = c /\ s_ok st' = true /\ s_pc st' <> Idle /\ s_load st' = stored (s_disk st') /\ s_disk st' = s_disk st.
Proof.
  unfold start. intros S F. destruct (_ || _); [discriminate|]. rewrite F in S. injection S as <-. stp.
  split; [|repeat split; destruct (contains_pch c); discriminate].
  constructor; stp.
  - apply like_user.
  - intros K. destruct (K eq_refl).
  - intros p [].
  - discriminate.
  - destruct (contains_pch c); reflexivity.
  - unfold Stg. stp. destruct (contains_pch c) eqn:E; [split; reflexivity|].
    intros _. split; [|congruence]. intros K. congruence.
Qed.

(** The record written at the end. *)
Lemma written_full st : RunI st -> ts_target_linked (s_buf st) = true -> Full (update_store (s_buf st) (s_user st)) (s_cfg st).
Proof.
  intros [L P Sr K N G] D. destruct (K D) as [K1 K2].
  destruct (like_flags _ _ L) as (F1 & F2 & F3 & F4 & F5 & F6 & F7 & F8 & F9 & F10 & F11).
  split; [|tsp; exact P]. constructor; tsp.
  - constructor; tsp; assumption.
  - split; tsp; assumption.
  - intros Hp. tsp. split; [exact (K1 Hp)|exact F6].
  - intros p. tsp. split; [exact (Sr p)|]. intros Hp. specialize (K2 p Hp). cbn in K2. rewrite app_nil_r in K2. exact K2.
  - exact D.
Qed.
