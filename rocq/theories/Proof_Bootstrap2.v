(** The bootstrap program end to end. *)
From Verif Require Import Prelude Proof_Prelude Model_Path Spec_Path Proof_Path Model_Json Model_Schema Model_Command Model_ToolchainConfig
  Model_Target Spec_Target Model_Gcc Model_Find Model_Sync Spec_Sync Model_Api Spec_Api Model_Toolchains
  Spec_Toolchains Model_Targets Spec_Targets Proof_Targets Model_BuildExe Spec_BuildExe Proof_TargetBase
  Model_Reg Spec_Reg Model_Bootstrap Model_Project Spec_Project Proof_Project Proof_Project4 Proof_Project5 Spec_Bootstrap Proof_Bootstrap.

(** ** Histories of programs *)

Lemma process_built p ev built run ok i c : process p ev = Some (built, run, ok) -> In (i, c) built ->
  In (i, c) (p_built p) \/ exists ord, ev = PBuild i c ord.
Proof.
  intros H I. destruct ev; cbn [process] in H;
    repeat match type of H with
      | context [match ?y with _ => _ end] => destruct y eqn:?; try discriminate H
      end; injection H as <- _ _; auto; try (destruct I; fail).
  apply in_app_or in I as [I|[I|[]]]; [auto|]. injection I as -> ->. right. eexists. reflexivity.
Qed.
Lemma pstep_more p ev p' : pstep p ev = Some p' ->
  map (fun x => (fst x, fst (snd x))) (p_targets p') = map (fun x => (fst x, fst (snd x))) (p_targets p) /\ p_gens p' = p_gens p /\
  forall i c, In (i, c) (p_built p') -> In (i, c) (p_built p) \/ exists ord, ev = PBuild i c ord.
Proof.
  unfold pstep. intros H. destruct (process p ev) as [[[built run] ok]|] eqn:P; [|discriminate].
  destruct (deliver p ev (p_targets p)) as [ts|] eqn:D; [|discriminate]. injection H as <-. cbn [p_targets p_gens p_built].
  split; [exact (deliver_outs _ _ _ _ D)|]. split; [reflexivity|]. intros i c. exact (process_built p ev built run ok i c P).
Qed.

Lemma prog_inv rg regs options l evs h p : prog_history rg regs options l evs h p ->
  map (fun x => (fst x, fst (snd x))) (p_targets p) = map (fun x => (fst x, fst (snd x))) l /\ p_gens p = [] /\
  (forall i c, In (i, c) (p_built p) -> options i c).
Proof.
  induction 1 as [|evs h p ev p' H (I1 & I2 & I3) A S].
  - unfold pinit. cbn [p_targets p_gens p_built]. rewrite map_map. split; [reflexivity|]. split; [reflexivity|]. intros i c [].
  - destruct (pstep_more _ _ _ S) as (S1 & S2 & S3). rewrite S1, S2. split; [exact I1|]. split; [exact I2|].
    intros i c C. destruct (S3 i c C) as [K|(ord & ->)]; [exact (I3 i c K)|]. exact (proj1 A).
Qed.
Lemma prog_phistory rg (regs : reg -> Prop) (options : string -> cfg -> Prop) (l : list (string * (tenv * disk))) :
  (forall p r, map (fun x => (fst x, fst (snd x))) (p_targets p) = map (fun x => (fst x, fst (snd x))) l -> p_gens p = [] ->
     (forall i c, In (i, c) (p_built p) -> options i c) -> regs r -> wired p r) ->
  forall evs h p, prog_history rg regs options l evs h p -> phistory rg l [] evs h p.
Proof.
  intros W evs h p H. induction H as [|evs h p ev p' H IH A S]; [apply phistory_nil|].
  apply phistory_snoc with (p := p); [exact IH| |exact S]. destruct (prog_inv _ _ _ _ _ _ _ H) as (I1 & I2 & I3).
  destruct ev; try exact A; [exact (proj2 A)|]. exact (W p r I1 I2 I3 A).
Qed.

(** ** The bootstrap program *)

Section Bootstrap.
  Variables (p0 : Model_Targets.project) (tc : toolchain) (h : host).
  Hypothesis K : k_config tc = usual_config (k_id tc).

  Lemma simple_names_ok : forall n kd id ext, In n ["libtpl"; "libbuildcc"; "buildcc_hybrid_simple_example"] -> artifact_ext id kd = Some ext -> simple (n +++ ext).
  Proof.
    intros n kd id ext [<-|[<-|[<-|[]]]] X; destruct id, kd; try discriminate X; injection X as <-; repeat split; try discriminate; reflexivity.
  Qed.
  Lemma ext_ok : forall n kd id ext, In n ["libtpl"; "libbuildcc"; "buildcc_hybrid_simple_example"] -> artifact_ext id kd = Some ext ->
    existsb (String.eqb (extension_of (n +++ ext))) [".c"; ".cpp"; ".cxx"; ".cc"; ".s"; ".S"; ".asm"; ".h"; ".hpp"] = false.
  Proof. intros n kd id ext [<-|[<-|[<-|[]]]] X; destruct id, kd; try discriminate X; injection X as <-; reflexivity. Qed.

  (** The three targets, as they are with any contents of the directories. *)
  Record three (et eb ee : tenv) : Prop := {
    th_t : env_facts tc KStatic "libtpl" et; th_b : env_facts tc KStatic "libbuildcc" eb; th_e : env_facts tc KExecutable "buildcc_hybrid_simple_example" ee;
    th_tb : out_file et <> out_file eb; th_te : out_file et <> out_file ee; th_be : out_file eb <> out_file ee;
    th_vt : is_valid_source (k_config tc) (out_file et) = false /\ is_valid_header (k_config tc) (out_file et) = false;
    th_vb : is_valid_source (k_config tc) (out_file eb) = false /\ is_valid_header (k_config tc) (out_file eb) = false;
    th_ve : is_valid_source (k_config tc) (out_file ee) = false /\ is_valid_header (k_config tc) (out_file ee) = false }.

  Lemma three_of et eb ee : env_facts tc KStatic "libtpl" et -> env_facts tc KStatic "libbuildcc" eb ->
    env_facts tc KExecutable "buildcc_hybrid_simple_example" ee -> three et eb ee.
  Proof.
    intros T B E.
    destruct (out_named _ _ _ _ T (fun id ext => simple_names_ok "libtpl" KStatic id ext (or_introl eq_refl))) as (xt & Xt & Nt).
    destruct (out_named _ _ _ _ B (fun id ext => simple_names_ok "libbuildcc" KStatic id ext (or_intror (or_introl eq_refl)))) as (xb & Xb & Nb).
    destruct (out_named _ _ _ _ E (fun id ext => simple_names_ok "buildcc_hybrid_simple_example" KExecutable id ext (or_intror (or_intror (or_introl eq_refl))))) as (xe & Xe & Ne).
    constructor; try assumption.
    - intros Q. rewrite Q, Nb in Nt. discriminate Nt.
    - intros Q. rewrite Q, Ne in Nt. discriminate Nt.
    - intros Q. rewrite Q, Ne in Nb. cbn [String.append] in Nb. discriminate Nb.
    - apply (out_invalid tc KStatic "libtpl"); auto; intros id ext; [apply simple_names_ok|apply ext_ok]; cbn; tauto.
    - apply (out_invalid tc KStatic "libbuildcc"); auto; intros id ext; [apply simple_names_ok|apply ext_ok]; cbn; tauto.
    - apply (out_invalid tc KExecutable "buildcc_hybrid_simple_example"); auto; intros id ext; [apply simple_names_ok|apply ext_ok]; cbn; tauto.
  Qed.

  Lemma bootstrap_three ls ts : bootstrap_targets p0 tc h ls = Ok ts ->
    exists et eb ee tpl b ex, three et eb ee /\ ts = [tpl; b; ex] /\
      map (fun t => (g_unique_id t, g_env t)) ts = [(tpl_id tc, et); (bcc_id tc, eb); (ex_id tc, ee)] /\
      tidy (k_config tc) [] (g_user tpl) /\ tidy (k_config tc) [out_file et] (g_user b) /\
      tidy (k_config tc) [out_file eb; out_file et] (g_user ex) /\
      (exists t0 b0 e0, tpl_new p0 tc = Ok t0 /\ bcc_new p0 tc = Ok b0 /\ example_new p0 tc = Ok e0 /\ et = g_env t0 /\ eb = g_env b0 /\ ee = g_env e0).
  Proof.
    intros B. apply bootstrap_steps in B as (t0 & b0 & e0 & tpl & b & ex & json & cli11 & fmt & spdlog & taskflow & t1 & b1 & b2 & b3 & ex1 & -> & S).
    destruct (steps_shape _ _ _ _ _ _ _ _ _ _ _ _ _ _ _ _ _ _ _ _ S) as ([s1 s2 s3 s4 s5 s6 s7 s8 s9] & _).
    destruct (steps_tidy _ _ _ _ _ _ _ _ _ _ _ _ _ _ _ _ _ _ _ _ S K) as (T1 & T2 & T3).
    destruct (generic_facts _ _ _ _ _ _ s1) as [F1 U1]. destruct (generic_facts _ _ _ _ _ _ s2) as [F2 U2]. destruct (generic_facts _ _ _ _ _ _ s3) as [F3 U3].
    exists (g_env t0), (g_env b0), (g_env e0), tpl, b, ex. split; [exact (three_of _ _ _ F1 F2 F3)|]. split; [reflexivity|].
    split; [cbn [map]; rewrite s4, s5, s6, s7, s8, s9, U1, U2, U3; reflexivity|]. rewrite <- s4, <- s5.
    split; [exact T1|]. split; [exact T2|]. split; [exact T3|]. exists t0, b0, e0. rewrite s4, s5. auto 10.
  Qed.

  Lemma tidy_libs x L u : tidy x L u -> libs (cfg_of u) = map to_path_string L /\ link_deps (cfg_of u) = [].
  Proof.
    intros [T1 T2 T3 T4 T5 T6]. cbn [entries] in T5, T6. apply (f_equal (map fst)) in T5. rewrite infos_paths in T5, T6. cbn [map] in T5.
    unfold libs, link_deps, user_of, cfg_of.
    cbn [ts_sources ts_headers ts_pchs ts_libs ts_compile_deps ts_link_deps c_sources c_headers c_pchs c_libs c_compile_deps c_link_deps].
    rewrite !infos_normal, T5, T6. auto.
  Qed.
  Lemma out_file_normal e : to_path_string (out_file e) = out_file e.
  Proof. apply to_path_string_idem. Qed.

  (** What a target is built with. *)
  Definition made (et eb ee : tenv) : Prop :=
    exists t0 b0 e0, tpl_new p0 tc = Ok t0 /\ bcc_new p0 tc = Ok b0 /\ example_new p0 tc = Ok e0 /\ et = g_env t0 /\ eb = g_env b0 /\ ee = g_env e0.
  Lemma made_unique et eb ee et' eb' ee' : made et eb ee -> made et' eb' ee' -> et = et' /\ eb = eb' /\ ee = ee'.
  Proof.
    intros (t & b & e & A & B & C & -> & -> & ->) (t' & b' & e' & A' & B' & C' & -> & -> & ->).
    rewrite A in A'. rewrite B in B'. rewrite C in C'. apply Ok_inj in A', B', C'. subst. auto.
  Qed.
  Lemma options_libs et eb ee i c : made et eb ee -> bootstrap_options p0 tc h i c ->
    exists L, ((i, L) = (tpl_id tc, []) \/ (i, L) = (bcc_id tc, [out_file et]) \/ (i, L) = (ex_id tc, [out_file eb; out_file et])) /\
      libs c = L /\ link_deps c = [] /\
      forall f, In f (tracked c) -> is_valid_source (k_config tc) f = true \/ is_valid_header (k_config tc) f = true \/ In f L.
  Proof.
    intros M (ls & ts & t & _ & B & I & U & ->). apply bootstrap_three in B as (et' & eb' & ee' & tpl & b & ex & _ & -> & E & T1 & T2 & T3 & M').
    destruct (made_unique _ _ _ _ _ _ M M') as (<- & <- & <-). cbn [map] in E. injection E as E1 E2 E3 E4 E5 E6.
    assert (N1 : map to_path_string [out_file et] = [out_file et]) by (cbn [map]; rewrite out_file_normal; reflexivity).
    assert (N2 : map to_path_string [out_file eb; out_file et] = [out_file eb; out_file et]) by (cbn [map]; rewrite !out_file_normal; reflexivity).
    destruct I as [<-|[<-|[<-|[]]]].
    - exists []. split; [left; congruence|]. destruct (tidy_libs _ _ _ T1) as [L1 L2]. split; [exact L1|]. split; [exact L2|].
      intros f F. exact (tidy_tracked _ _ _ f T1 F).
    - exists [out_file et]. split; [right; left; congruence|]. destruct (tidy_libs _ _ _ T2) as [L1 L2]. split; [congruence|]. split; [exact L2|].
      intros f F. rewrite <- N1. exact (tidy_tracked _ _ _ f T2 F).
    - exists [out_file eb; out_file et]. split; [right; right; congruence|]. destruct (tidy_libs _ _ _ T3) as [L1 L2]. split; [congruence|]. split; [exact L2|].
      intros f F. rewrite <- N2. exact (tidy_tracked _ _ _ f T3 F).
  Qed.

  Lemma env_pairs ts l et eb ee : nothing_linked ts l -> map (fun t => (g_unique_id t, g_env t)) ts = [(tpl_id tc, et); (bcc_id tc, eb); (ex_id tc, ee)] ->
    map (fun x => (fst x, fst (snd x))) l = [(tpl_id tc, et); (bcc_id tc, eb); (ex_id tc, ee)].
  Proof. intros (d & mt0 & -> & _) E. rewrite map_map, <- E. apply map_ext. reflexivity. Qed.

  Lemma registry_of r : bootstrap_registry tc r ->
    (rg_built r = [tpl_id tc; bcc_id tc; ex_id tc] /\ rg_edges r = [(tpl_id tc, bcc_id tc); (bcc_id tc, ex_id tc)]) \/ (rg_built r = [] /\ rg_edges r = []).
  Proof.
    intros (n & clean & build & test & R). apply bootstrap_reg in R; [|exact (ids_differ tc)]. destruct build; [left|right]; exact R.
  Qed.

  Lemma bootstrap_wired et eb ee (l : list (string * (tenv * disk))) p r :
    three et eb ee -> made et eb ee -> map (fun x => (fst x, fst (snd x))) l = [(tpl_id tc, et); (bcc_id tc, eb); (ex_id tc, ee)] ->
    map (fun x => (fst x, fst (snd x))) (p_targets p) = map (fun x => (fst x, fst (snd x))) l -> p_gens p = [] ->
    (forall i c, In (i, c) (p_built p) -> bootstrap_options p0 tc h i c) -> bootstrap_registry tc r -> wired p r.
  Proof.
    intros [_ _ _ D1 D2 D3 V1 V2 V3] M E P G O R b a f c Bb W Ba C F.
    destruct (registry_of r R) as [[R1 R2]|[R1 _]]; [|rewrite R1 in Bb; destruct Bb]. rewrite R2.
    destruct W as [(e & st & I & ->)|(fs & I & _)]; [|rewrite G in I; destruct I].
    assert (J : In (b, e) [(tpl_id tc, et); (bcc_id tc, eb); (ex_id tc, ee)]).
    { rewrite <- E, <- P. exact (in_map (fun x => (fst x, fst (snd x))) _ _ I). }
    destruct (options_libs et eb ee a c M (O a c C)) as (L & LL & _ & _ & T). destruct (T _ F) as [T1|[T1|T1]].
    - exfalso. destruct J as [J|[J|[J|[]]]]; injection J as <- <-; destruct V1, V2, V3; congruence.
    - exfalso. destruct J as [J|[J|[J|[]]]]; injection J as <- <-; destruct V1, V2, V3; congruence.
    - destruct J as [J|[J|[J|[]]]]; injection J as <- <-; destruct LL as [LL|[LL|LL]]; injection LL as -> ->; cbn [In] in T1;
        repeat match goal with H : _ \/ _ |- _ => destruct H as [H|H] | H : False |- _ => destruct H end; try congruence.
      all: try (exfalso; congruence).
      + apply before_edge. left. reflexivity.
      + apply before_step with (m := bcc_id tc); [left; reflexivity|]. apply before_edge. right. left. reflexivity.
      + apply before_edge. right. left. reflexivity.
  Qed.

  Lemma bootstrap_fresh ts l et eb ee : three et eb ee ->
    map (fun t => (g_unique_id t, g_env t)) ts = [(tpl_id tc, et); (bcc_id tc, eb); (ex_id tc, ee)] ->
    nothing_linked ts l -> exists mt0, fresh_project mt0 l.
  Proof.
    intros [F1 F2 F3 D1 D2 D3 _ _ _] E N. pose proof (env_pairs _ _ _ _ _ N E) as P. destruct N as (d & mt0 & -> & Q). exists mt0.
    split; [|split].
    - apply (f_equal (map fst)) in P. rewrite !map_map in P. cbn [map fst snd] in P. rewrite map_map. cbn [fst] in P |- *. rewrite P. exact (ids_differ tc).
    - apply (f_equal (map (fun x => out_file (snd x)))) in P. rewrite !map_map in P. cbn [map fst snd] in P. rewrite map_map. cbn [fst snd] in P |- *. rewrite P.
      repeat constructor; cbn [In]; intros X; repeat match goal with H : _ \/ _ |- _ => destruct H as [H|H] | H : False |- _ => destruct H end; congruence.
    - intros id e x I. apply in_map_iff in I as (t & I & T). injection I as <- <- <-. destruct (Q t T) as (Q1 & Q2 & Q3).
      split; [|auto]. apply (in_map (fun t => (g_unique_id t, g_env t))) in T. rewrite E in T.
      destruct T as [T|[T|[T|[]]]]; injection T as _ <-; [destruct F1|destruct F2|destruct F3]; assumption.
  Qed.

  Lemma no_loops r : bootstrap_registry tc r -> forall i, ~ In (i, i) (rg_edges r).
  Proof.
    intros R i I. pose proof (ids_differ tc) as D. inversion D as [|? ? D1 D2]; subst. inversion D2 as [|? ? D3 _]; subst.
    destruct (registry_of r R) as [[_ R2]|[_ R2]]; rewrite R2 in I; [|destruct I].
    destruct I as [I|[I|[]]]; injection I as I1 I2; [apply D1|apply D3]; left; congruence.
  Qed.

  Section History.
    Variables (rg : regime) (ls0 : listing) (ts : list target) (l : list (string * (tenv * disk))).
    Hypothesis (B : bootstrap_targets p0 tc h ls0 = Ok ts) (N : nothing_linked ts l).

    Lemma bootstrap_history evs hs p : prog_history rg (bootstrap_registry tc) (bootstrap_options p0 tc h) l evs hs p -> phistory rg l [] evs hs p.
    Proof.
      destruct (bootstrap_three _ _ B) as (et & eb & ee & tpl & b & ex & T & _ & E & _ & _ & _ & M).
      apply prog_phistory. intros q r Q1 Q2 Q3 R. exact (bootstrap_wired et eb ee l q r T M (env_pairs _ _ _ _ _ N E) Q1 Q2 Q3 R).
    Qed.

    Theorem bootstrap_current pre w r run hs p x :
      prog_history rg (bootstrap_registry tc) (bootstrap_options p0 tc h) l (pre ++ PRun w r :: run) hs p -> Forall undisturbed_run run -> 0 < w ->
      p_run p = Some (w, r, x) -> x_over w (rg_built r) (rg_edges r) x -> p_ok p = true ->
      forall id e st c, In (id, (e, st)) (p_targets p) -> In (id, c) (p_built p) -> In id (rg_built r) ->
        all_current e c (s_disk st) /\
        forall b eb sb, In (b, (eb, sb)) (p_targets p) -> linked_with tc id b -> p_seen p id b = d_tgt (s_disk sb).
    Proof.
      intros H U W R O Ok id e st c I C Ib. pose proof (bootstrap_history _ _ _ H) as PH.
      destruct (bootstrap_three _ _ B) as (et & eb & ee & tpl & b & ex & T & _ & E & _ & _ & _ & M).
      destruct (bootstrap_fresh _ _ _ _ _ T E N) as (mt0 & F). pose proof (env_pairs _ _ _ _ _ N E) as P.
      destruct (prog_inv _ _ _ _ _ _ _ H) as (Q1 & _ & Q3).
      assert (RR : bootstrap_registry tc r).
      { clear - H. remember (pre ++ PRun w r :: run) as evs eqn:Eq. revert pre run Eq. induction H as [|evs h1 p ev p' H IH A S]; intros pre run Eq.
        - destruct pre; discriminate Eq.
        - destruct (exists_last (l := PRun w r :: run)) as (run' & y & Y); [discriminate|]. rewrite Y, app_assoc in Eq. apply app_inj_tail in Eq as [Eq ->].
          destruct run' as [|z run']; [cbn in Y; injection Y as <- _; exact A|]. cbn [app] in Y. injection Y as <- Y. exact (IH pre run' Eq). }
      destruct RR as (n & clean & build & test & RR).
      assert (NL : forall i, ~ In (i, i) (rg_edges r)) by (apply no_loops; exists n, clean, build, test; exact RR).
      destruct (whole_run_current rg mt0 l [] pre w r run hs p x n _ F PH U RR NL W R O Ok id e st c I C Ib) as [A1 A2]. split; [exact A1|].
      intros b' eb' sb' I' L. apply (A2 b' eb' sb' I'). apply in_or_app. left.
      assert (J : In (b', eb') [(tpl_id tc, et); (bcc_id tc, eb); (ex_id tc, ee)]).
      { rewrite <- P, <- Q1. exact (in_map (fun x => (fst x, fst (snd x))) _ _ I'). }
      pose proof (ids_differ tc) as D. inversion D as [|? ? D1 D2]; subst. inversion D2 as [|? ? D3 _]; subst. cbn [In] in D1, D3.
      destruct (options_libs et eb ee id c M (Q3 id c C)) as (LS & LL & -> & _ & _).
      unfold linked_with in L. fold (tpl_id tc) (bcc_id tc) (ex_id tc) in L.
      destruct L as [[-> ->]|[-> [-> | ->]]]; destruct J as [J|[J|[J|[]]]]; apply pair_equal_spec in J as [J1 J2]; destruct LL as [LL|[LL|LL]]; apply pair_equal_spec in LL as [LL1 LL2];
        first [exfalso; tauto | exfalso; symmetry in J1; tauto | exfalso; symmetry in LL1; tauto | subst; cbn [In]; auto].
    Qed.
  End History.
End Bootstrap.
